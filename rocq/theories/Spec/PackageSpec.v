(** * The releases of a package, independently of how a package finds them *)
From Coq Require Import String NArith ZArith Bool List.
From Verif Require Import Model.Py Model.Version Model.Package Spec.VersionSpec.
Import ListNotations.

(** A version that was released according to the answer of PyPI. *)
Definition released (parse : str -> res version) (j : pypi) (r : version) : Prop :=
  exists t, In t (y_releases j) /\ parse t = Ok r.

(** Neither is newer than the other. *)
Definition same_version (a b : version) : Prop := ~ newer a b /\ ~ newer b a.

(** No release is newer. *)
Definition newest (parse : str -> res version) (j : pypi) (v : version) : Prop :=
  forall r, released parse j r -> ~ newer r v.

(** A parser which leaves no release number empty *)
Definition numbers (parse : str -> res version) : Prop :=
  forall t v, parse t = Ok v -> v_release v <> [].

(** All texts of the answer are versions. *)
Definition readable (parse : str -> res version) (j : pypi) : Prop :=
  forall t, In t (y_releases j) -> exists v, parse t = Ok v.
