(** Proofs about metadata as a database entry and as a mapping. *)
From Coq Require Import String NArith ZArith Bool List Permutation.
From Verif Require Import Model.Py Model.Meta Model.MetaEncode Model.MetaXattr Model.MetaMapping.
From Verif Require Import Spec.MetaSpec Spec.XattrSpec Spec.MetaMapSpec.
From Verif Require Import Proofs.PyLemmas Proofs.MetaXattrProofs.
Import ListNotations.

(** ** Database entries *)
Lemma store_round_trip : forall dp legacy dumps loads a m prefix,
  faithful_store dumps loads ->
  typed a -> meta_init a = Ok m -> prefix_ok prefix -> xattr_safe a ->
  exists blob m', as_metastore dp dumps m prefix = Ok blob /\
    from_metastore legacy loads blob prefix = Ok m' /\ carries m' (shown a).
Proof.
  intros dp legacy dumps loads a m prefix F T E P S.
  destruct (xattr_round_trip dp legacy a m prefix T E P S) as (xs & m' & X & C & R).
  exists (dumps xs), m'. unfold as_metastore, from_metastore. rewrite X. cbn [rbind].
  rewrite F. cbn [rbind]. split; [reflexivity|]. split; [|exact C].
  apply (R [] xs); [intros k b []|]. rewrite app_nil_r. apply Permutation_refl.
Qed.

Lemma store_safe : forall dp legacy dumps loads a m prefix blob m',
  faithful_store dumps loads ->
  typed a -> meta_init a = Ok m -> prefix_ok prefix ->
  as_metastore dp dumps m prefix = Ok blob ->
  from_metastore legacy loads blob prefix = Ok m' ->
  carries m' (shown a) -> xattr_safe a.
Proof.
  intros dp legacy dumps loads a m prefix blob m' F T E P W R C. unfold as_metastore in W.
  destruct (as_xattrs dp m prefix) as [xs|e] eqn:X; [|discriminate]. apply Ok_inj in W. subst blob.
  unfold from_metastore in R. rewrite F in R.
  exact (xattr_round_trip_safe dp legacy a m prefix xs m' T E P X R C).
Qed.

(** ** The mapping *)
Definition listed : list field :=
  [Fname; Fsize; Fchecksum; Fchecksum_cypher; Fetag; Fchunksize; Fmulti; Fparent_id;
   Fid; Ffile_id; Fold_id; Fgid; Fuser_id; Fmode; Ferrors].

Lemma meta_keys_eq m : meta_keys m = listed.
Proof.
  unfold meta_keys, dict.
  destruct m as [a b c [d|] e [f|] g h i j k l n o p q r s t u]; destruct c, e, u; reflexivity.
Qed.

Lemma find_field f : find (fun g => str_eqb (field_name g) (field_name f)) x_fields = Some f.
Proof. destruct f; reflexivity. Qed.

Lemma find_field_some k f :
  find (fun g => str_eqb (field_name g) k) x_fields = Some f -> k = field_name f.
Proof. intro H. apply find_some in H as [_ H]. apply str_eqb_eq in H. now symmetry. Qed.

Lemma item_none dp at_ m k v : meta_item dp at_ m k = Ok v -> v = PNone.
Proof.
  unfold meta_item, meta_getitem. destruct (find _ _) as [f|].
  - destruct (getf dp m f) as [w|e]; cbn [rbind].
    + now intros [= <-].
    + destruct e; discriminate.
  - destruct (at_ k); [now intros [= <-]|discriminate].
Qed.

Lemma item_field dp at_ m f v : getf dp m f = Ok v -> meta_item dp at_ m (field_name f) = Ok PNone.
Proof. intro G. unfold meta_item, meta_getitem. rewrite find_field, G. reflexivity. Qed.

Lemma item_error dp at_ m f e : getf dp m f = Err e ->
  meta_item dp at_ m (field_name f) = Err (match e with AttributeError => KeyError | _ => e end).
Proof. intro G. unfold meta_item, meta_getitem. rewrite find_field, G. now destruct e. Qed.

Lemma item_unknown dp at_ m k :
  (forall f, k <> field_name f) -> at_ k = false -> meta_item dp at_ m k = Err KeyError.
Proof.
  intros N A. unfold meta_item. destruct (find _ _) as [f|] eqn:F.
  - apply find_field_some in F. destruct (N f F).
  - now rewrite A.
Qed.

Lemma meta_dict_eq dp at_ m : meta_dict dp at_ m = Ok (map (fun f => (field_name f, PNone)) listed).
Proof. unfold meta_dict. rewrite meta_keys_eq. reflexivity. Qed.

Lemma meta_dict_never dp at_ m d : meta_dict dp at_ m = Ok d ->
  (forall k v, In (k, v) d -> v = PNone) /\
  (forall f, In (field_name f) (map fst d) <-> is_stamp f = false).
Proof.
  rewrite meta_dict_eq. intro E. apply Ok_inj in E. subst d. split.
  - intros k v I. apply in_map_iff in I as (f & [= _ <-] & _). reflexivity.
  - intro f. rewrite map_map. cbn [fst]. split.
    + intro I. apply in_map_iff in I as (g & E & I).
      assert (G : f = g) by (pose proof (find_field f) as P; rewrite <- E, find_field in P; congruence).
      subst g. unfold listed in I. cbn in I.
      repeat (destruct I as [<-|I]; [reflexivity|]). destruct I.
    + intro I. apply in_map. destruct f; try discriminate I; cbn; tauto.
Qed.

(** So the mapping is never one of the metadata: the errors are a tuple. *)
Lemma mapping_never dp at_ m d : meta_dict dp at_ m = Ok d -> ~ mapping_of dp m d.
Proof.
  intros E M. destruct (meta_dict_never dp at_ m d E) as [V _].
  specialize (V _ _ (M Ferrors _ eq_refl)). discriminate V.
Qed.

(** ** Copies *)
Lemma name_not_int f : py_int (field_name f) = None.
Proof. destruct f; reflexivity. Qed.

Lemma two_args v w f g r :
  v = PStr (field_name f) -> w = PStr (field_name g) ->
  Forall (fun x => exists h, x = PStr (field_name h)) r ->
  match by_position params (v :: w :: r) with
  | Ok a => meta_init a = Err ValueError | Err e => e = TypeError end.
Proof.
  intros -> -> R. 
  assert (K : forall ps, match by_position ps r with
     | Ok a => forall f, a f = no_args f \/ exists h, a f = PStr (field_name h)
     | Err e => e = TypeError end).
  { induction R as [|x r' (h & ->) R IH]; intro ps; cbn; [intro; now left|].
    destruct ps as [|p ps]; [reflexivity|]. specialize (IH ps).
    destruct (by_position ps r') as [a|e]; cbn; [|exact IH].
    intro f0. unfold set_arg. destruct (field_eqb p f0); [right; now exists h|apply IH]. }
  unfold params. cbn [by_position]. specialize (K (skipn 2 params)). cbn [skipn params] in K.
  destruct (by_position _ r) as [a|e]; cbn [rbind]; [|exact K].
  unfold meta_init, meta_init_x, set_arg. cbn [field_eqb].
  assert (F : (negb (truthy (a Ffile_id)) && negb (is_none (a Ffile_id))
      && negb (py_eq (a Ffile_id) (PInt 0)))%bool = false).
  { destruct (K Ffile_id) as [-> | [h ->]]; [reflexivity|]. now destruct h. }
  rewrite F.
  assert (D : match a Fid with PNone | PStr _ => false | _ => true end = false).
  { destruct (K Fid) as [-> | [h ->]]; reflexivity. }
  rewrite D. unfold filesize. rewrite name_not_int. reflexivity.
Qed.

Lemma one_arg f : match by_position params [PStr (field_name f)] with
  | Ok a => exists m, meta_init a = Ok m /\ m_name m = PStr (field_name f)
  | Err _ => False end.
Proof. destruct f; cbn; eexists; split; reflexivity. Qed.

Lemma length_by_position ps vs e : by_position ps vs = Err e -> length ps < length vs.
Proof.
  revert ps. induction vs as [|v vs IH]; intros ps H; [destruct ps; discriminate|].
  destruct ps as [|p ps]; [apply PeanoNat.Nat.lt_0_succ|]. cbn in H.
  destruct (by_position ps vs) eqn:E; [discriminate|]. cbn. apply -> PeanoNat.Nat.succ_lt_mono.
  apply (IH ps). cbn in H. congruence.
Qed.

Lemma items_ok dp m l : items dp m = Ok l ->
  exists c u, get_created dp m = Ok c /\ get_updated dp m = Ok u /\
   l = map (fun f => (f, match getf dp m f with Ok v => v | Err _ => PNone end)) item_fields.
Proof.
  unfold items, item_fields. cbn [rmap getf rbind map].
  destruct (get_created dp m) as [c|e]; cbn [rbind]; [|discriminate].
  destruct (get_updated dp m) as [u|e]; cbn [rbind]; [|discriminate].
  intro E. apply Ok_inj in E. exists c, u. now rewrite <- E.
Qed.

Lemma filter_length_le {A} (p : A -> bool) l : length (filter p l) <= length l.
Proof.
  induction l as [|x l IH]; [apply le_n|]. cbn. destruct (p x); cbn.
  - now apply -> PeanoNat.Nat.succ_le_mono.
  - now apply le_S.
Qed.

Lemma copy_run dp m d : meta_reduce dp m = Ok d ->
  In (Ferrors, PStrs (m_errors m)) d /\ length d <= 17 /\
  (forall f v, In (f, v) d <-> getf dp m f = Ok v /\ v <> PNone) /\ NoDup (map fst d).
Proof.
  unfold meta_reduce. destruct (items dp m) as [l|e] eqn:I; [|discriminate]. cbn [rbind].
  intro E. apply Ok_inj in E. apply items_ok in I as (c & u & C & U & L).
  assert (R : forall f, exists v, getf dp m f = Ok v)
    by (intro f; destruct f; cbn; eauto).
  assert (X : forall f v, In (f, v) d <-> getf dp m f = Ok v /\ v <> PNone).
  { intros f v. subst d l. rewrite filter_In, in_map_iff. cbn [snd]. split.
    - intros [(g & [= <- <-] & _) Z]. destruct (R g) as [w W]. rewrite W in *.
      split; [reflexivity|]. intros ->. discriminate Z.
    - intros [G Z]. split.
      + exists f. rewrite G. split; [reflexivity|]. destruct f; cbn; tauto.
      + destruct v; try reflexivity. now destruct Z. }
  split; [apply X; split; [reflexivity|discriminate]|]. split.
  - subst d l. etransitivity; [apply filter_length_le|]. rewrite map_length. apply le_n.
  - split; [exact X|]. subst d l.
    assert (N : forall (h : field -> pyval) q (fs : list field), NoDup fs ->
       NoDup (map fst (filter q (map (fun f => (f, h f)) fs)))).
    { intros h q fs D. induction D as [|x fs NI D IH]; [constructor|]. cbn [map filter].
      destruct (q (x, h x)); [|exact IH]. cbn [map fst]. constructor; [|exact IH].
      intro J. apply NI. apply in_map_iff in J as ([y z] & <- & J). apply filter_In in J as [J _].
      apply in_map_iff in J as (y' & [= <- _] & J). exact J. }
    apply N. unfold item_fields.
    repeat (constructor; [cbn; intro Q;
      repeat (destruct Q as [Q|Q]; [discriminate Q|]); exact Q|]). constructor.
Qed.

Lemma copy_one dp m m' : meta_copy dp m = Ok m' ->
  unknown dp m /\ getf dp m' Fname = Ok (PStr $"errors").
Proof.
  unfold meta_copy. destruct (meta_reduce dp m) as [d|e] eqn:R; [|discriminate]. cbn [rbind].
  pose proof R as R0. apply copy_run in R as (E & L & X & N).
  destruct d as [|[f v] d]; [destruct E|]. destruct d as [|[g w] d].
  - destruct E as [[= -> ->]|[]]. cbn [map fst]. 
    cbn. intro H. apply Ok_inj in H. subst m'. split; [|reflexivity].
    intros f Nf. 
    assert (G : exists v, getf dp m f = Ok v).
    { unfold meta_reduce in R0. destruct (items dp m) as [l|e] eqn:I; [|discriminate].
      apply items_ok in I as (c & u & C & U & _). destruct f; cbn; eauto. }
    destruct G as [v G]. rewrite G. f_equal.
    destruct v; try reflexivity; exfalso;
      (assert (J : In (f, _) [(Ferrors, PStrs (m_errors m))])
        by (apply X; split; [exact G|discriminate]));
      destruct J as [J|[]]; apply Nf; congruence.
  - cbn [map fst]. intro H. exfalso.
    pose proof (two_args (PStr (field_name f)) (PStr (field_name g)) f g
      (map (fun p => PStr (field_name (fst p))) d) eq_refl eq_refl) as T.
    assert (Q : Forall (fun x => exists h, x = PStr (field_name h))
       (map (fun p : field * pyval => PStr (field_name (fst p))) d)).
    { apply Forall_forall. intros x J. apply in_map_iff in J as (p & <- & _). eauto. }
    specialize (T Q). destruct (by_position params _) as [a|e]; cbn [rbind] in H; [|discriminate H].
    rewrite T in H. discriminate H.
Qed.

Lemma copy_fails dp m f v :
  (exists l, items dp m = Ok l) -> f <> Ferrors -> getf dp m f = Ok v -> v <> PNone ->
  meta_copy dp m = Err ValueError.
Proof.
  intros [l I] Nf G V. unfold meta_copy.
  destruct (meta_reduce dp m) as [d|e] eqn:R;
    [|unfold meta_reduce in R; rewrite I in R; discriminate]. cbn [rbind].
  apply copy_run in R as (E & L & X & N).
  assert (J : In (f, v) d) by now apply X.
  destruct d as [|[f1 v1] d]; [destruct E|]. destruct d as [|[g w] d].
  { destruct E as [E|[]]. destruct J as [J|[]]. congruence. }
  cbn [map fst].
  pose proof (two_args (PStr (field_name f1)) (PStr (field_name g)) f1 g
      (map (fun p => PStr (field_name (fst p))) d) eq_refl eq_refl) as T.
  assert (Q : Forall (fun x => exists h, x = PStr (field_name h))
       (map (fun p : field * pyval => PStr (field_name (fst p))) d)).
  { apply Forall_forall. intros x K. apply in_map_iff in K as (p & <- & _). eauto. }
  specialize (T Q). destruct (by_position params _) as [a|e] eqn:B; cbn [rbind]; [exact T|].
  exfalso. apply length_by_position in B. cbn [length] in B, L. rewrite map_length in B.
  apply (PeanoNat.Nat.lt_irrefl (length params)). eapply PeanoNat.Nat.lt_le_trans; [exact B|].
  exact L.
Qed.

Lemma copy_unknown dp m : unknown dp m ->
  exists m', meta_copy dp m = Ok m' /\ getf dp m' Fname = Ok (PStr $"errors") /\
    getf dp m' Ferrors = Ok (PStrs []).
Proof.
  intro U. unfold meta_copy, meta_reduce, items, item_fields. cbn [rmap rbind].
  repeat (rewrite U by discriminate; cbn [rbind]). cbn [rmap rbind getf].
  pose proof (U Fcreated ltac:(discriminate)) as Cr.
  pose proof (U Fupdated ltac:(discriminate)) as Up. cbn [getf] in Cr, Up.
  rewrite Cr, Up. cbn. eexists. split; [reflexivity|]. split; reflexivity.
Qed.

Lemma copy_never dp m m' : meta_copy dp m = Ok m' -> ~ same_values dp m m'.
Proof.
  intros C S. apply copy_one in C as [U Nm].
  specialize (S Fname PNone (U Fname ltac:(discriminate))). rewrite Nm in S. discriminate S.
Qed.

(** ** A store that is faithful, for the examples: a byte of a key or value after
    01, the end of a key 02, the end of a value 03. *)
Definition plain_bytes (b : bytes) : bytes := flat_map (fun c => [Byte.x01; c]) b.
Definition plain_dumps (xs : xattrs) : bytes :=
  flat_map (fun kv => plain_bytes (fst kv) ++ [Byte.x02] ++ plain_bytes (snd kv) ++ [Byte.x03]) xs.
Fixpoint plain_read (b cur : bytes) (k : option bytes) : res xattrs :=
  match b with
  | [] => match cur, k with [], None => Ok [] | _, _ => Err ValueError end
  | Byte.x01 :: c :: r => plain_read r (cur ++ [c]) k
  | Byte.x02 :: r => match k with None => plain_read r [] (Some cur) | Some _ => Err ValueError end
  | Byte.x03 :: r =>
      match k with
      | Some key => do o <- plain_read r [] None ; Ok ((key, cur) :: o)
      | None => Err ValueError
      end
  | _ => Err ValueError
  end.
Definition plain_loads (b : bytes) : res xattrs := plain_read b [] None.

Lemma plain_bytes_read b : forall cur k r,
  plain_read (plain_bytes b ++ r) cur k = plain_read r (cur ++ b) k.
Proof.
  induction b as [|c b IH]; intros cur k r; cbn.
  - now rewrite app_nil_r.
  - rewrite IH, <- app_assoc. reflexivity.
Qed.

Lemma plain_faithful : faithful_store plain_dumps plain_loads.
Proof.
  intro d. unfold plain_loads. induction d as [|[k v] d IH]; [reflexivity|].
  unfold plain_dumps. cbn [flat_map fst snd]. fold (plain_dumps d).
  rewrite <- !app_assoc, plain_bytes_read. cbn [app plain_read].
  rewrite plain_bytes_read. cbn [app plain_read]. now rewrite IH.
Qed.
