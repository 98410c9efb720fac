(** C93: metadata as a database entry, as a mapping, and its copies. *)
From Coq Require Import String NArith ZArith Bool List Init.Byte.
From Verif Require Import Model.Py Model.Meta Model.MetaEncode Model.MetaXattr Model.MetaMapping.
From Verif Require Import Spec.MetaSpec Spec.XattrSpec Spec.MetaMapSpec.
From Verif Require Import Proofs.PyLemmas Proofs.MetaSymlinkProofs Proofs.MetaXattrProofs Proofs.MetaMapProofs.
Import ListNotations.

(** What is put in the database is read back, whatever the pickle format is, so
    long as it gives back the dictionaries it was given. *)
Theorem C93_store_round_trip :
  forall dp legacy dumps loads a m prefix,
    faithful_store dumps loads ->
    typed a -> meta_init a = Ok m -> prefix_ok prefix -> xattr_safe a ->
    exists blob m', as_metastore dp dumps m prefix = Ok blob /\
      from_metastore legacy loads blob prefix = Ok m' /\ carries m' (shown a).
Proof. exact store_round_trip. Qed.
Print Assumptions C93_store_round_trip.

(** The guard is exact. *)
Theorem C93_store_only_safe :
  forall dp legacy dumps loads a m prefix blob m',
    faithful_store dumps loads ->
    typed a -> meta_init a = Ok m -> prefix_ok prefix ->
    as_metastore dp dumps m prefix = Ok blob ->
    from_metastore legacy loads blob prefix = Ok m' ->
    carries m' (shown a) -> xattr_safe a.
Proof. exact store_safe. Qed.
Print Assumptions C93_store_only_safe.

(** [dict(m)] is never the metadata. *)
Theorem C93_mapping_refuted :
  forall dp attribute m,
    exists d, meta_dict dp attribute m = Ok d /\ ~ mapping_of dp m d.
Proof.
  exact (fun dp attribute m =>
    ex_intro _ _ (conj (meta_dict_eq dp attribute m)
      (mapping_never dp attribute m _ (meta_dict_eq dp attribute m)))).
Qed.
Print Assumptions C93_mapping_refuted.

(** What it is: None under the name of each field but the two times, whose
    names are missing. *)
Theorem C93_mapping_partial :
  forall dp attribute m d, meta_dict dp attribute m = Ok d ->
    (forall k v, In (k, v) d -> v = PNone) /\
    (forall f, In (field_name f) (map fst d) <-> is_stamp f = false).
Proof. exact meta_dict_never. Qed.
Print Assumptions C93_mapping_partial.

(** [m[k]] is None or an error. *)
Theorem C93_item_refuted :
  forall dp attribute m k v, meta_item dp attribute m k = Ok v -> v = PNone.
Proof. exact item_none. Qed.
Print Assumptions C93_item_refuted.

(** It does tell what is a field and what is nothing at all, and an AttributeError
    of a time that cannot be parsed is a KeyError. *)
Theorem C93_item_partial :
  forall dp attribute m,
    (forall f v, getf dp m f = Ok v -> meta_item dp attribute m (field_name f) = Ok PNone) /\
    (forall k, (forall f, k <> field_name f) -> attribute k = false ->
       meta_item dp attribute m k = Err KeyError) /\
    (forall f e, getf dp m f = Err e ->
       meta_item dp attribute m (field_name f) = Err (match e with AttributeError => KeyError | _ => e end)).
Proof.
  exact (fun dp attribute m =>
    conj (item_field dp attribute m) (conj (item_unknown dp attribute m) (item_error dp attribute m))).
Qed.
Print Assumptions C93_item_partial.

(** [copy.copy(m)] never has the values of [m]. *)
Theorem C93_copy_refuted :
  forall dp m m', meta_copy dp m = Ok m' -> ~ same_values dp m m'.
Proof. exact copy_never. Qed.
Print Assumptions C93_copy_refuted.

(** It is ValueError as soon as something is known. *)
Theorem C93_copy_fails :
  forall dp m f v,
    (exists l, items dp m = Ok l) -> f <> Ferrors -> getf dp m f = Ok v -> v <> PNone ->
    meta_copy dp m = Err ValueError.
Proof. exact copy_fails. Qed.
Print Assumptions C93_copy_fails.

(** And when nothing is known, the copy has a name, and no errors. *)
Theorem C93_copy_unknown :
  forall dp m, unknown dp m ->
    exists m', meta_copy dp m = Ok m' /\ getf dp m' Fname = Ok (PStr $"errors") /\
      getf dp m' Ferrors = Ok (PStrs []).
Proof. exact copy_unknown. Qed.
Print Assumptions C93_copy_unknown.

(** ** Cases *)
Definition map_args : args := fun f =>
  match f with
  | Fid => PStr $"N:package:1" | Fsize => PInt 12 | Fupdated => PDt (mkDT 2020 1 2 3 4 5 6 None)
  | Ferrors => PStrs [$"no"] | _ => PNone
  end.
Definition map_meta : pathmeta :=
  match meta_init map_args with Ok m => m | Err _ => mkMeta PNone PNone PNone None PNone None
    PNone PNone PNone PNone PNone PNone PNone PNone PNone PNone PNone PNone [] [] end.

Definition blank_meta : pathmeta := mkMeta PNone PNone PNone (Some PNone) PNone (Some PNone)
    PNone PNone PNone PNone PNone PNone PNone PNone PNone PNone PNone PNone [$"lost"] [].

Example C93_store_case :
  faithful_store plain_dumps plain_loads /\
  typed map_args /\ xattr_safe map_args /\ prefix_ok (Some $"bf") /\
  meta_init map_args = Ok map_meta /\
  exists blob m',
    as_metastore (fun _ => Err ValueError) plain_dumps map_meta (Some $"bf") = Ok blob /\
    from_metastore (fun _ => Err ValueError) plain_loads blob (Some $"bf") = Ok m' /\
    m_id m' = PStr $"N:package:1" /\ m_size m' = PSize 12 /\ m_errors m' = [$"no"] /\
    m_updated m' = PStr $"2020-01-02T03:04:05,000006".
Proof.
  split; [exact plain_faithful|]. split; [|split; [|split; [|split]]].
  - intros []; simpl; eauto 8. right. eexists. split; [reflexivity|]. reflexivity.
  - intros []; simpl; try exact I; try (apply encodable_scalar; reflexivity); try (intro K; discriminate K).
    intros e [<-|[]]. split; [apply encodable_scalar; reflexivity|]. split; [discriminate|]. intros [Q|[Q|[]]]; discriminate Q.
  - apply encodable_scalar. reflexivity.
  - reflexivity.
  - eexists _, _. repeat split; vm_compute; reflexivity.
Qed.

Example C93_mapping_case :
  getf (fun _ => Err ValueError) map_meta Fid = Ok (PStr $"N:package:1") /\
  meta_item (fun _ => Err ValueError) (fun _ => false) map_meta $"id" = Ok PNone /\
  meta_item (fun _ => Err ValueError) (fun _ => false) map_meta $"Id" = Err KeyError /\
  meta_copy (fun _ => Err ValueError) map_meta = Err ValueError /\
  unknown (fun _ => Err ValueError) blank_meta /\ map_meta <> blank_meta.
Proof.
  split; [reflexivity|]. split; [reflexivity|]. split; [reflexivity|]. split; [reflexivity|].
  split; [|discriminate]. intros [] N; try reflexivity. now destruct N.
Qed.
