(** * What making all that is below a cache may do *)
From Coq Require Import String NArith ZArith Bool List.
From Verif Require Import Model.Py Model.PurePath Model.Meta Model.Fs Model.Cache Model.CacheChildren Spec.FsSpec Spec.LoopSpec Spec.CacheSpec.
Import ListNotations.

(** What is listed at those names can be taken by the trash: they are names, the trash is
    neither below it nor above it, a link there points below itself, ids are the names of
    files. *)
Definition proper_deep (K : conf) (far : list str -> kid) (fs : node) (A TR : place) (ps : list str) : Prop :=
  ps <> [] /\ Forall good_name ps /\ ~ below TR (A ++ ps) /\ ~ below (A ++ ps) TR /\
  (forall t, look fs (A ++ ps) = Some (ALink t) -> starts_with_name (last ps []) t) /\
  usable_id K (last ps []) (look fs (A ++ ps)) /\
  (forall m, k_metadata (far ps) = Ok (Some m) -> m_id m <> PStr []) /\
  confined (A ++ ps) (k_refresh (far ps) (path_of (A ++ ps))).

(** Names in the trash that it may take *)
Definition deep_trash (K : conf) (fs : node) (A : place) (ps : list str) (y : str) : Prop :=
  trash_name K (last ps []) (look fs (A ++ ps)) y.

(** What is neither it nor at one of its names in the trash nor, where it is a file or a
    link, below it *)
Definition aside (K : conf) (fs : node) (A TR : place) (ps : list str) (q : place) : Prop :=
  q <> A ++ ps /\ (look fs (A ++ ps) = None \/ is_dir_at fs (A ++ ps) \/ ~ below (A ++ ps) q) /\
  forall y, deep_trash K fs A ps y -> ~ below (TR ++ [y]) q.

(** The directory it is in is there, or is missing and comes before it. *)
Definition in_order (far : list str -> kid) (A : place) (fs : node) (l : list (list str)) : Prop :=
  forall pre ps post, l = pre ++ ps :: post ->
    is_dir_at fs (A ++ removelast ps) \/
    (In (removelast ps) pre /\ look fs (A ++ removelast ps) = None /\ r_is_dir (k_remote (far (removelast ps))) = true /\
     exists m, k_metadata (far (removelast ps)) = Ok (Some m) /\ meta_bool m = true).
