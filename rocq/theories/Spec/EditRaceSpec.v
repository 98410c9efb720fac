(** * What was saved of a file that is being updated *)
From Coq Require Import Strings.Byte List.
From Verif Require Import Model.Py Model.PathOps Model.FetchRace Model.EditRace.
Import ListNotations.

(** The file has the content [O], and the program has not begun. *)
Definition u_start (O : bytes) : ustate :=
  mkU (mkFD (EFile 0) (fun _ => O) (fun _ => None) 1) (fun _ => true) EGone UMeta.
Definition read_entry (d : fdisk) (e : fentry) : option bytes := match e with EFile k => Some (f_data d k) | _ => None end.
(** What is read at the path, and in the trash *)
Definition u_content (s : ustate) : option bytes := read_entry (u_disk s) (f_at (u_disk s)).
Definition u_trashed (s : ustate) : option bytes := read_entry (u_disk s) (u_bin s).

(** The file was moved to the trash and the program has not ended. *)
Definition in_window (s : ustate) : Prop :=
  match u_pc s with USet true | USetX true | UMkLink true | UFetch _ | URestore _ => True | _ => False end.
Definition u_raised (s : ustate) : Prop := exists e, u_pc s = UDone (Err e).

Section Spec.
Variables O D : bytes.
Variable got : list bytes.
Variable brk : option exn.
Notation run := (urun O D got brk (u_start O)).

(** Nobody saves while the file is away. *)
Definition outside (l : list event) : Prop :=
  forall a e b, l = a ++ e :: b -> (forall f, e <> Turn f) -> ~ in_window (run a).
(** Putting the file back does not fail. *)
Definition restores (l : list event) : Prop :=
  forall a e b, l = a ++ Turn (Some e) :: b -> forall x, u_pc (run a) <> URestore x.
(** [c] is what was saved last, and what was there at first if nothing was. *)
Definition is_save (s : ustate) (e : event) (c : bytes) : Prop :=
  e = Save c \/ e = Write c /\ forall b, f_at (u_disk s) <> ELink b.
Definition saved_last (l : list event) (c : bytes) : Prop :=
  (c = O /\ forall a e b x, l = a ++ e :: b -> ~ is_save (run a) e x) \/
  exists a e b, l = a ++ e :: b /\ is_save (run a) e c /\
    forall a' e' b' x, b = a' ++ e' :: b' -> ~ is_save (run (a ++ e :: a')) e' x.
End Spec.
