(** * What making the data directory of a cache may do *)
From Coq Require Import String NArith Bool List.
From Verif Require Import Model.Py Model.PurePath Model.Fs Spec.FsSpec.
Import ListNotations.

(** A directory with nothing in it. *)
Definition empty_at (fs : node) (q : place) : Prop := is_dir_at fs q /\ forall x r, look fs (q ++ x :: r) = None.

(** Nothing changed but: new empty directories, a new link with the text of [target] if
    one is given, and then the objects, if they were an empty directory. *)
Definition only_adds (objects : place -> Prop) (target : option str) (fs s : node) : Prop :=
  forall q,
    look s q = look fs q \/
    (look fs q = None /\ (look s q = Some (ADir []) \/ exists t, target = Some t /\ look s q = Some (ALink t))) \/
    (exists t, target = Some t /\ objects q /\ empty_at fs q /\
       (look s q = None \/ look s q = Some (ADir []) \/ look s q = Some (ALink t))).

(** What is at [q] lets a directory be made there if need be. *)
Definition free_or_dir (fs : node) (q : place) : Prop := look fs q = None \/ is_dir_at fs q.

(** Everything outside of the list is as it was. *)
Definition same_but (qs : list place) (fs s : node) : Prop := forall q, ~ In q qs -> look s q = look fs q.

(** In the directory [A]: the data directory, the objects, the trash. *)
Definition ops (A : place) : place := A ++ [$".operations"].
Definition objs (A : place) : place := ops A ++ [$"objects"].
Definition bin (A : place) : place := ops A ++ [$"trash"].
