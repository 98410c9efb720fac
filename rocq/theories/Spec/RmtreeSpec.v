(** * What rmtree must leave alone *)
From Coq Require Import String NArith ZArith Bool List.
From Verif Require Import Model.Py Model.PurePath Model.Fs Spec.FsSpec.
Import ListNotations.

(** The root, what is at the top, home directories, the current directory. *)
Definition protected (cwd R : place) : Prop :=
  (length R <= 1)%nat \/ (exists u, R = [$"home"; u]) \/ R = cwd.

(** Nothing has changed, at no time of the run. *)
Definition untouched (w w' : world) : Prop :=
  w_fs w' = w_fs w /\ w_hist w' = w_hist w /\ w_cwd w' = w_cwd w.
