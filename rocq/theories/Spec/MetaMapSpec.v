(** * What a mapping of metadata and a copy of it should be *)
From Coq Require Import String NArith ZArith Bool List.
From Verif Require Import Model.Py Model.Meta.
Import ListNotations.

(** The fields that a mapping should have, and what is under each. *)
Definition mapping_of (dp : pyval -> res pyval) (m : pathmeta) (d : list (str * pyval)) : Prop :=
  forall f v, getf dp m f = Ok v -> In (field_name f, v) d.

(** Nothing is known: no field has a value, save an (any) tuple of errors. *)
Definition unknown (dp : pyval -> res pyval) (m : pathmeta) : Prop :=
  forall f, f <> Ferrors -> getf dp m f = Ok PNone.

(** [m'] has the values of [m]. *)
Definition same_values (dp : pyval -> res pyval) (m m' : pathmeta) : Prop :=
  forall f v, getf dp m f = Ok v -> getf dp m' f = Ok v.

(** Each text is read as it was written. *)
Definition faithful_store {A B : Type} (write : A -> B) (read : B -> res A) : Prop :=
  forall d, read (write d) = Ok d.
