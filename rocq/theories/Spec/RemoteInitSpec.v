(** * What is known of the directories of a remote *)
From Coq Require Import String NArith Bool List.
From Verif Require Import Model.Py Model.PurePath Model.Meta Model.Fs Model.Cache Model.CacheChildren
  Spec.FsSpec Spec.MetaSpec Spec.XattrSpec Spec.CacheSpec Spec.MkdirCacheSpec Spec.MkdirRemoteSpec.
Import ListNotations.

(** A directory of the remote, with an id and metadata that attributes can hold *)
Definition far_dir (c : kid) (a : args) : Prop :=
  r_is_dir (k_remote c) = true /\ exists m, k_metadata c = Ok (Some m) /\ told m a.
(** A file of it, likewise *)
Definition far_file (c : kid) : Prop :=
  r_is_dir (k_remote c) = false /\ r_is_file (k_remote c) = true /\ exists m a, k_metadata c = Ok (Some m) /\ told m a.

(** Below [A], all of [ps] up to the last are directories of the remote. *)
Definition far_dirs (far : list str -> kid) (ps : list str) : Prop :=
  forall n, n < length ps -> exists a, far_dir (far (firstn n ps)) a.

(** Of the directories [ps] below [A], the first [k] are there, the others are not. *)
Definition first_there (fs : node) (A : place) (ps : list str) (k : nat) : Prop :=
  k < length ps /\ is_dir_at fs (A ++ firstn k ps) /\ look fs (A ++ firstn (S k) ps) = None.

(** What stands above the anchor has metadata that can be read, or none. *)
Definition readable (K : conf) (fs : node) (D : place) : Prop :=
  exists xs m, look fs D = Some (ADir xs) /\ recorded K [] (Some (ADir xs)) = Ok m.

(** There is one directory more, with what is known of that one; nothing else is different. *)
Definition one_more (K : conf) (far : list str -> kid) (A : place) (ps : list str) (fs s : node) : Prop :=
  (exists xs, look s (A ++ ps) = Some (ADir xs) /\
     forall a, far_dir (far ps) a -> exists m, recorded K [] (Some (ADir xs)) = Ok (Some m) /\ carries m (shown a)) /\
  forall q, q <> A ++ ps -> look s q = look fs q.

(** [n] calls, each of which says that there is a cache already. *)
Inductive refused (f : M ppath) : nat -> world -> world -> Prop :=
| refused_none w : refused f 0 w w
| refused_one n w v u : f w = (Err CacheExistsErr, v) -> refused f n v u -> refused f (S n) w u.
