(** * What a path is opened as *)
From Coq Require Import String NArith ZArith Bool List.
From Verif Require Import Model.Py Model.PurePath Model.Fs Spec.FsSpec.
Import ListNotations.

(** Reading [p] reads the file at [q]. *)
Definition reads (fs : node) (cwd : place) (p : ppath) (q : place) : Prop :=
  exists d xs, walk fs cwd true p = Found q (File d xs).
(** Writing [p] writes a file at [q], which is there or can be made. *)
Definition writes (fs : node) (cwd : place) (p : ppath) (q : place) : Prop :=
  (exists d xs, walk fs cwd true p = Found q (File d xs)) \/
  (exists d x, walk fs cwd true p = Missing d x /\ q = d ++ [x]).
(** There is something at [p], be it a link that leads nowhere. *)
Definition occupied (fs : node) (cwd : place) (p : ppath) : Prop :=
  exists q n, walk fs cwd false p = Found q n.

Definition content (fs : node) (q : place) : option bytes :=
  match look fs q with Some (AFile d _) => Some d | _ => None end.
Definition file_xattrs (fs : node) (q : place) : xattrs :=
  match look fs q with Some (AFile _ xs) => xs | _ => [] end.

(** All of [fs] but what is at [q]. *)
Definition only_at (q : place) (fs s : node) : Prop := forall p, p <> q -> look s p = look fs p.
