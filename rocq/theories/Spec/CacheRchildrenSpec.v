(** * What is below a remote, and that it is here *)
From Coq Require Import String NArith Bool List.
From Verif Require Import Model.Py Model.PurePath Model.Meta Model.Fs Model.Cache Model.CacheChildren
  Spec.FsSpec Spec.MetaSpec Spec.XattrSpec Spec.CacheSpec Spec.MkdirCacheSpec Spec.MkdirRemoteSpec Spec.RemoteInitSpec.
Import ListNotations.

(** A file of the remote, with metadata that links can hold *)
Definition far_link (c : kid) (a : args) : Prop :=
  r_is_dir (k_remote c) = false /\ r_is_file (k_remote c) = true /\
  exists m, k_metadata c = Ok (Some m) /\ meta_init a = Ok m /\ typed a /\ link_safe a /\ a Fid <> PNone.

(** What is listed is a directory or a file, with such metadata, at file names. *)
Definition proper (far : list str -> kid) (ps : list str) : Prop :=
  ps <> [] /\ Forall good_name ps /\ ((exists a, far_dir (far ps) a) \/ exists a, far_link (far ps) a).

(** Directories are there or come before what is in them. *)
Definition outer_first (far : list str -> kid) (A : place) (fs : node) (l : list (list str)) : Prop :=
  forall pre ps post, l = pre ++ ps :: post ->
    is_dir_at fs (A ++ removelast ps) \/ (In (removelast ps) pre /\ exists a, far_dir (far (removelast ps)) a).

(** At [ps] below [A] there is a directory, or a link, with what is known of the remote there. *)
Definition stands (K : conf) (far : list str -> kid) (A : place) (s : node) (ps : list str) : Prop :=
  (forall a, far_dir (far ps) a -> exists xs m, look s (A ++ ps) = Some (ADir xs) /\ recorded K [] (Some (ADir xs)) = Ok (Some m) /\ carries m (shown a)) /\
  (forall a, far_link (far ps) a -> exists t m, look s (A ++ ps) = Some (ALink t) /\ recorded K (last ps []) (Some (ALink t)) = Ok (Some m) /\ carries m a).
