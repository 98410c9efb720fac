(** * What others may do to a tree that is being removed *)
From Coq Require Import String NArith ZArith Bool List.
From Verif Require Import Model.Py Model.PurePath Model.Fs Spec.FsSpec.
Import ListNotations.

(** They keep to the tree at [R]. *)
Definition keep_to (R : place) (others : nat -> node -> node) : Prop :=
  forall t s, good_fs s -> good_fs (others t s) /\ forall q, ~ below R q -> look (others t s) q = look s q.

(** They put no symbolic link where there was none; anything else is free. *)
Definition make_no_links (others : nat -> node -> node) : Prop :=
  forall t s q u, good_fs s -> look (others t s) q = Some (ALink u) -> exists u', look s q = Some (ALink u').

(** No directory above [R] is a link. *)
Definition plain_above (fs : node) (R : place) : Prop :=
  forall q r u, R = q ++ r -> r <> [] -> look fs q <> Some (ALink u).
