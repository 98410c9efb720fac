(** * Where trees are *)
From Coq Require Import String NArith ZArith Bool List.
From Verif Require Import Model.Py Model.PurePath Model.Fs Spec.FsSpec.
Import ListNotations.

(** What was at [P] is at [Q], with all that is below it. *)
Definition tree_at (fs : node) (P : place) (s : node) (Q : place) : Prop :=
  forall r, look s (Q ++ r) = look fs (P ++ r).

Definition apart (A B : place) : Prop := ~ below A B /\ ~ below B A.

(** The trees at [A] and [B] changed places, all else is as it was. *)
Definition exchanged (fs : node) (A B : place) (s : node) : Prop :=
  tree_at fs A s B /\ tree_at fs B s A /\ forall q, ~ below A q -> ~ below B q -> look s q = look fs q.

(** Both trees are somewhere. *)
Definition both_there (fs : node) (A B : place) (s : node) : Prop :=
  exists PA PB, tree_at fs A s PA /\ tree_at fs B s PB /\ apart PA PB.

(** The path leads to something, with links followed. *)
Definition reaches (fs : node) (cwd : place) (p : ppath) : Prop := exists q n, walk fs cwd true p = Found q n.
