(** * Where a link leads *)
From Coq Require Import String NArith ZArith Bool List.
From Verif Require Import Model.Py Model.PurePath Model.Fs Spec.FsSpec.
Import ListNotations.

(** Opening [p] is opening what is at [q]. *)
Definition opens (fs : node) (cwd : place) (p : ppath) (q : place) : Prop :=
  exists n, walk fs cwd true p = Found q n.

(** Opening [p] fails with [e]. *)
Definition refuses (fs : node) (cwd : place) (p : ppath) (e : errno) : Prop :=
  walk fs cwd true p = Fail e.

(** A text that asks for a directory: it ends in a slash, or a dot after one. *)
Definition asks_dir (t : str) : Prop :=
  t = $"." \/ exists s, t = s ++ $"/" \/ t = s ++ $"/.".

(** Links have a text. *)
Definition texts (fs : node) : Prop := forall q, look fs q <> Some (ALink []).
