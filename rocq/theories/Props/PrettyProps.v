(** * C44: the diff of two metadata values *)
From Coq Require Import String NArith ZArith Bool List.
From Verif Require Import Model.Py Model.Meta Model.Pretty Spec.PrettySpec Proofs.PrettyProofs.
Import ListNotations.

(** C44 when all fields of the side with fewer are among those of the other: a
    diff is shown exactly if there are fields, and not too many before the first
    common one; then it is complete.  Missing: the other pairs, see below. *)
Theorem C44_diff_partial :
  forall dateparse m o x y d,
    content_different dateparse m o = Ok d -> readable dateparse m -> readable dateparse o ->
    listing dateparse m x -> listing dateparse o y ->
    incl (shorter x y) (longer x y) ->
    ((exists out, pretty_diff dateparse m o = Ok out) <->
       shorter x y <> [] /\ (lead (longer x y) (shorter x y) <= length (shorter x y))%nat) /\
    (forall out, pretty_diff dateparse m o = Ok out -> complete dateparse m o out).
Proof. exact diff_exact. Qed.
Print Assumptions C44_diff_partial.

(** C44 for the same fields on both sides. *)
Theorem C44_same_fields_partial :
  forall dateparse m o d x,
    content_different dateparse m o = Ok d -> readable dateparse m -> readable dateparse o ->
    listing dateparse m x -> listing dateparse o x -> x <> [] ->
    exists out, pretty_diff dateparse m o = Ok out /\ complete dateparse m o out.
Proof. exact diff_same_fields. Qed.
Print Assumptions C44_same_fields_partial.

(** C44 is false: with the same first field, and no common field later on the
    side with fewer, only fields of the side with more are shown. *)
Theorem C44_diff_refuted :
  forall dateparse m o d x y f0,
    content_different dateparse m o = Ok d -> readable dateparse m -> readable dateparse o ->
    listing dateparse m x -> listing dateparse o y ->
    hd_error x = Some f0 -> hd_error y = Some f0 ->
    (forall f i j, at_ (longer x y) f i -> at_ (shorter x y) f j -> (j <= i)%nat) ->
    exists out, pretty_diff dateparse m o = Ok out /\
      forall c d, In (c, d) out ->
        exists f, In f (longer x y) /\ cell dateparse m f c /\ cell dateparse o f d.
Proof. exact diff_drops. Qed.
Print Assumptions C44_diff_refuted.

(** Without fields on one side there is no diff. *)
Theorem C44_empty_refuted :
  forall dateparse m o, listing dateparse m [] \/ listing dateparse o [] ->
    exists e, pretty_diff dateparse m o = Err e.
Proof. exact diff_empty. Qed.
Print Assumptions C44_empty_refuted.

Section Cases.
Let dp : pyval -> res pyval := fun v => Ok v.
Let make l := {| m_name := l Fname; m_size := l Fsize;
  m_created := PNone; m_created_ok := None; m_updated := PNone; m_updated_ok := None;
  m_checksum := l Fchecksum; m_checksum_cypher := PNone; m_etag := PNone; m_chunksize := PNone;
  m_multi := PNone; m_parent_id := PNone; m_id := l Fid; m_file_id := l Ffile_id; m_old_id := PNone;
  m_gid := PNone; m_user_id := PNone; m_mode := l Fmode; m_errors := []; m_kwargs := [] |}.
Let set (l : list (field * pyval)) (f : field) : pyval :=
  match find (fun e => field_eqb (fst e) f) l with Some (_, v) => v | None => PNone end.

Let a := make (set [(Fsize, PSize 5); (Fchecksum, PBytes []); (Fid, PStr $"N:1"); (Fmode, PInt 420)]).
Let b := make (set [(Fsize, PSize 7); (Fid, PStr $"N:1")]).

(** Hypotheses and result of the first theorem. *)
Example C44_subset_case :
  content_different dp a b = Ok true /\ readable dp a /\ readable dp b /\
  listing dp a [Fsize; Fchecksum; Fid; Fmode] /\ listing dp b [Fsize; Fid] /\
  pretty_diff dp a b =
    Ok [(Some (Fsize, PSize 5), Some (Fsize, PSize 7));
        (Some (Fchecksum, PBytes []), None);
        (Some (Fid, PStr $"N:1"), Some (Fid, PStr $"N:1"));
        (Some (Fmode, PInt 420), None)].
Proof.
  assert (Ra : rows dp a = Ok [(Fsize, PSize 5); (Fchecksum, PBytes []); (Fid, PStr $"N:1"); (Fmode, PInt 420)]) by reflexivity.
  assert (Rb : rows dp b = Ok [(Fsize, PSize 7); (Fid, PStr $"N:1")]) by reflexivity.
  split; [reflexivity|]. split; [intros []; eexists; reflexivity|]. split; [intros []; eexists; reflexivity|].
  split; [exact (rows_listing dp a _ Ra)|]. split; [exact (rows_listing dp b _ Rb)|]. reflexivity.
Qed.

(** The mode of the other side is nowhere in the diff. *)
Let c := make (set [(Fsize, PSize 7); (Fmode, PInt 420)]).
Let e := make (set [(Fsize, PSize 7); (Fid, PStr $"N:1"); (Ffile_id, PInt 3)]).
Example C44_dropped_case :
  content_different dp c a = Ok true /\
  pretty_diff dp c e =
    Err TypeError /\
  pretty_diff dp (make (set [(Fsize, PSize 8); (Fmode, PInt 420)])) e =
    Ok [(Some (Fsize, PSize 8), Some (Fsize, PSize 7));
        (None, Some (Fid, PStr $"N:1"));
        (None, Some (Ffile_id, PInt 3))].
Proof. split; [reflexivity|]. split; reflexivity. Qed.

(** Too many fields before the first common one. *)
Example C44_lead_case :
  pretty_diff dp (make (set [(Fsize, PSize 8); (Fchecksum, PBytes []); (Fid, PStr $"N:1")]))
                 (make (set [(Fid, PStr $"N:1")])) = Err IndexError.
Proof. reflexivity. Qed.
End Cases.
