(** * What merging, comparing and testing metadata mean *)
From Coq Require Import String NArith ZArith Bool List.
From Verif Require Import Model.Py Model.Meta Spec.MetaSpec Spec.XattrSpec.
Import ListNotations.

(** [a] gives the value read from each field of [m]. *)
Definition describes (dp : pyval -> res pyval) (m : pathmeta) (a : args) : Prop :=
  forall f, getf dp m f = Ok (a f).

(** Fields read from metadata have the kinds the constructor leaves behind. *)
Definition kind_field (f : field) (v : pyval) : Prop :=
  match f with
  | Fid => v = PNone \/ exists s, v = PStr s
  | Fsize => v = PNone \/ exists z, v = PSize z
  | Ffile_id => v = PNone \/ exists z, v = PInt z
  | Fcreated | Fupdated => v = PNone \/ exists d, v = PDt d
  | Fchecksum => v = PNone \/ exists b, v = PBytes b
  | Ferrors => exists l, v = PStrs l
  | _ => True
  end.
Definition kinds (a : args) : Prop := forall f, kind_field f (a f).

(** The file behind [new] is another one than the file behind [old]. *)
Definition changed_in (f : field) (old new : args) : Prop :=
  old f <> PNone /\ new f <> PNone /\ blank (new f) = false /\ py_eq (old f) (new f) = false.
Definition other_file (old new : args) : Prop :=
  exists f, In f [Fcreated; Fupdated; Fsize; Fchecksum; Ffile_id] /\ changed_in f old new.

(** Metadata is informative when some field has a value. *)
Definition informative (a : args) : Prop :=
  exists f, a f <> PNone /\ (f = Ferrors -> a f <> PStrs []).

(** Two stamps are of one kind when both are text or both are not. *)
Definition same_kind (v w : pyval) : Prop := stamp_ok v = stamp_ok w.

(** Moments that can be ordered. *)
Definition comparable (v w : pyval) : Prop :=
  match v, w with
  | PDt x, PDt y => dt_aware x = dt_aware y
  | _, _ => False
  end.
Definition before (v w : pyval) : Prop :=
  match v, w with
  | PDt x, PDt y => (dt_us_utc x < dt_us_utc y)%Z
  | _, _ => False
  end.

(** Arguments as callers give them: errors in a tuple, the size a number. *)
Definition plain (a : args) : Prop :=
  (exists l, a Ferrors = PStrs l) /\
  (a Fsize = PNone \/ exists z, a Fsize = PInt z \/ a Fsize = PSize z).
