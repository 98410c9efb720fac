(** * Trees of directories only *)
From Coq Require Import String NArith ZArith Bool List.
From Verif Require Import Model.Py Model.PurePath Model.Fs Spec.FsSpec.
Import ListNotations.

(** There is a directory, and only directories below it. *)
Definition dirs_only (fs : node) (q : place) : Prop :=
  is_dir_at fs q /\ forall r, below q r -> look fs r = None \/ is_dir_at fs r.
