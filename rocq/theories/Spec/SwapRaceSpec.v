(** * Where things are while several programs exchange two paths *)
From Coq Require Import Bool List.
From Verif Require Import Model.Py Model.SwapRace.
Import ListNotations.

Section Spec.
Variable E : Type.
(** No program has begun; [x] and [y] are at the paths, and there are no temporary directories. *)
Definition w_fresh (x y : E) : wstate E :=
  mkWS E (mkWD E (fun b => Some (if b then y else x)) (fun _ => None)) (fun _ => WHere1).
Definition w_path (s : wstate E) (b : bool) : option E := w_at E (w_disk E s) b.
Definition w_temp (s : wstate E) (i : nat) : option (option E) := w_tmp E (w_disk E s) i.
(** Program [i] returned, or raised. *)
Definition w_returned (s : wstate E) (i : nat) : Prop := w_pc E s i = WDone (Ok tt).
Definition w_raised (s : wstate E) (i : nat) (e : exn) : Prop := w_pc E s i = WDone (Err e).
Definition w_begun (s : wstate E) (i : nat) : Prop := w_pc E s i <> WHere1.

(** All that is at the paths and in the temporary directories of the first [n] programs *)
Definition o2l (o : option E) : list E := match o with Some x => [x] | None => [] end.
Definition w_all (n : nat) (s : wstate E) : list E :=
  o2l (w_path s false) ++ o2l (w_path s true) ++
  flat_map (fun i => match w_temp s i with Some o => o2l o | None => [] end) (seq 0 n).

Definition is_returned (p : wpc) : bool := match p with WDone (Ok _) => true | _ => false end.
(** How many of the first [n] programs returned *)
Definition w_count (n : nat) (s : wstate E) : nat := length (filter (fun i => is_returned (w_pc E s i)) (seq 0 n)).
End Spec.
