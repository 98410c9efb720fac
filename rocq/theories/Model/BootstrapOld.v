(** * Local directories that the remote does not have: /repo/augpathlib/caches.py:475-493

    The part of [_bootstrap_recursive] that Model/Bootstrap.v leaves out.  The output are the
    directories that were refreshed, in order.  Simplified: which directories have a cache
    does not change meanwhile, and refreshing raises nothing. *)
From Coq Require Import String NArith Bool List.
From Verif Require Import Model.Py Model.PurePath Model.Fs Model.PathOps.
Import ListNotations.

Section Old.
(** [ad.cache is not None], 486 *)
Variable cached : ppath -> bool.
(** The order in which a set hands out its members the n-th time *)
Variable handed : nat -> list ppath -> list ppath.

Definition is_in (d : ppath) (l : list ppath) : bool := existsb (pp_eqb d) l.
(** [local_dirs - rd] *)
Definition minus (a b : list ppath) : list ppath := filter (fun d => negb (is_in d b)) a.

(** [sorted] by the length of the text, which is stable, 483 *)
Definition text_len (d : ppath) : nat := length (pp_str d).
Fixpoint insert (x : ppath) (l : list ppath) : list ppath :=
  match l with
  | [] => [x]
  | y :: r => if Nat.leb (text_len x) (text_len y) then x :: l else y :: insert x r
  end.
Definition by_text (l : list ppath) : list ppath := fold_right insert [] l.

(** The inner loop, 484-493: what is refreshed, and what remains in [local_dirs] *)
Fixpoint one_pass (thisl local_dirs : list ppath) : list ppath * list ppath :=
  match thisl with
  | [] => ([], local_dirs)
  | d :: r =>
      if cached d then                                                    (* 486-489 *)
        let (e, l) := one_pass r (filter (fun x => negb (startswith (pp_str x) (pp_str d))) local_dirs) in
        (d :: e, l)
      else one_pass r local_dirs
  end.

(** The loop, 482-493.  One unit of fuel for each pass. *)
Fixpoint old_loop (fuel n : nat) (local_dirs rd : list ppath) : list ppath * option exn :=
  match minus local_dirs rd with
  | [] => ([], None)
  | old =>
      match fuel with
      | O => ([], Some OutOfFuel)
      | S f =>
          let (e, l) := one_pass (by_text (handed n old)) local_dirs in
          let (e', x) := old_loop f (S n) l rd in
          (e ++ e', x)
      end
  end.
End Old.
