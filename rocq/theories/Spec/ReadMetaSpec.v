(** * Where the metadata of a path is kept *)
From Coq Require Import String NArith ZArith Bool List.
From Verif Require Import Model.Py Model.PurePath Model.Fs Spec.FsSpec Spec.ReadlinkSpec.
Import ListNotations.

(** The file or directory that is opened by [p], with its attributes. *)
Definition opens_with (fs : node) (cwd : place) (p : ppath) (xs : Fs.xattrs) : Prop :=
  exists q, opens fs cwd p q /\ (look fs q = Some (ADir xs) \/ exists d, look fs q = Some (AFile d xs)).

(** A link, with its text. *)
Definition link_at (fs : node) (cwd : place) (p : ppath) (t : str) : Prop :=
  exists q, leads fs cwd p q /\ look fs q = Some (ALink t).

(** Opening [p] fails because something is missing, is no directory, or is a link
    that leads to itself. *)
Definition opens_nothing (fs : node) (cwd : place) (p : ppath) : Prop :=
  (forall q, ~ opens fs cwd p q) /\
  (forall e, refuses fs cwd p e -> e = ENOENT \/ e = ENOTDIR \/ e = ELOOP).

(** The attributes of users, by their own names. *)
Inductive of_user : Fs.xattrs -> list (bytes * bytes) -> Prop :=
| ou_nil : of_user [] []
| ou_mine k v xs ys : of_user xs ys -> of_user (($"user." ++ map Byte.to_N k, v) :: xs) ((k, v) :: ys)
| ou_other n v xs ys : (forall k : bytes, n <> $"user." ++ map Byte.to_N k) -> of_user xs ys ->
    of_user ((n, v) :: xs) ys.

(** A call that changes nothing and gives [v], or the error of a call of the system
    that failed. *)
Definition gives {A} (w : world) (out : res A * world) (v : res A) : Prop :=
  w_fs (snd out) = w_fs w /\ w_cwd (snd out) = w_cwd w /\ w_hist (snd out) = w_hist w /\
  (fst out = v \/ exists e t, fst out = Err e /\ w_fault w t = Some e).
