(** * Marks on the way to a place *)
From Coq Require Import String NArith ZArith Bool List.
From Verif Require Import Model.Py Model.PurePath Model.Fs Spec.FsSpec.
Import ListNotations.

(** The attributes of what is at a place. *)
Definition attr_at (fs : node) (q : place) (k : str) (v : bytes) : Prop :=
  exists xs, (look fs q = Some (ADir xs) \/ exists d, look fs q = Some (AFile d xs)) /\ In (k, v) xs.

(** The mark, by its full name. *)
Definition sparse_mark : str := $"user.augpathlib.sparse".
Definition marked (fs : node) (q : place) : Prop := exists v, attr_at fs q sparse_mark v.

(** A file or a directory is there. *)
Definition there (fs : node) (q : place) : Prop := exists xs, look fs q = Some (ADir xs) \/ exists d, look fs q = Some (AFile d xs).
