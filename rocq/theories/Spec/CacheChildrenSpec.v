(** * What making the children of a cache may do *)
From Coq Require Import String NArith ZArith Bool List.
From Verif Require Import Model.Py Model.PurePath Model.Meta Model.Fs Model.Cache Model.CacheChildren Spec.FsSpec Spec.LoopSpec Spec.CacheSpec.
Import ListNotations.

(** Where a child is *)
Definition kid_at (D : place) (c : kid) : place := D ++ [k_name c].

(** A child that the trash can take: it is a name, the trash is neither below it nor above
    it, a link there points below itself, ids are the names of files. *)
Definition proper_kid (K : conf) (fs : node) (D TR : place) (c : kid) : Prop :=
  good_name (k_name c) /\ ~ below TR (kid_at D c) /\ ~ below (kid_at D c) TR /\
  (forall t, look fs (kid_at D c) = Some (ALink t) -> starts_with_name (k_name c) t) /\
  usable_id K (k_name c) (look fs (kid_at D c)) /\
  (forall m, k_metadata c = Ok (Some m) -> m_id m <> PStr []) /\
  confined (kid_at D c) (k_refresh c (path_of (kid_at D c))).

(** Names in the trash that a child may take *)
Definition kid_trash (K : conf) (fs : node) (D : place) (c : kid) (y : str) : Prop := trash_name K (k_name c) (look fs (kid_at D c)) y.

(** What is neither at a child nor at one of its names in the trash *)
Definition elsewhere (K : conf) (fs : node) (D TR : place) (c : kid) (q : place) : Prop :=
  ~ below (kid_at D c) q /\ forall y, kid_trash K fs D c y -> ~ below (TR ++ [y]) q.
