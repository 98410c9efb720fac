(** * Links that point below themselves *)
From Coq Require Import String NArith ZArith Bool List.
From Verif Require Import Model.Py Model.PurePath Model.Fs Spec.FsSpec.
Import ListNotations.

(** The text, as a path, is relative and starts with the name. *)
Definition starts_with_name (name : str) (t : str) : Prop :=
  exists l, pp_parse t = mkPP false (name :: l).

Definition no_fault (w : world) : Prop := forall t, w_fault w t = None.
