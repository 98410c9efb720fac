(** * Proofs about merging and comparing metadata *)
From Coq Require Import String NArith ZArith Bool List Lia.
From Verif Require Import Model.Py Model.Meta Model.MetaUpdate.
From Verif Require Import Spec.MetaSpec Spec.XattrSpec Spec.MergeSpec.
From Verif Require Import Proofs.PyLemmas Proofs.MetaSymlinkProofs.
Import ListNotations.

Lemma skipped_blank v : skipped v = blank v.
Proof. destruct v as [| | |[]|[]| |[]|]; reflexivity. Qed.

Lemma is_none_iff v : is_none v = true <-> v = PNone.
Proof. destruct v; simpl; split; congruence. Qed.

Definition changedb (old new : args) (f : field) : bool :=
  (negb (is_none (old f)) && negb (blank (new f)) && negb (py_eq (old f) (new f)))%bool.

Lemma changedb_iff old new f : changedb old new f = true <-> changed_in f old new.
Proof.
  unfold changedb, changed_in. rewrite !andb_true_iff, !negb_true_iff. split.
  - intros [[N B] E]. repeat split; try assumption.
    + intro K. rewrite K in N. discriminate.
    + intro K. rewrite K in B. discriminate.
  - intros (N & N' & B & E). repeat split; try assumption.
    destruct (is_none (old f)) eqn:K; [|reflexivity]. now apply is_none_iff in K.
Qed.

Definition differs (old new : args) : bool := existsb (changedb old new) [Fcreated; Fupdated; Fsize; Fchecksum; Ffile_id].
Lemma differs_iff old new : differs old new = true <-> other_file old new.
Proof.
  unfold differs, other_file. rewrite existsb_exists. split.
  - intros (f & Hf & C). exists f. split; [assumption|]. now apply changedb_iff.
  - intros (f & Hf & C). exists f. split; [assumption|]. now apply changedb_iff.
Qed.

(** ** The loops *)
Lemma merge_loop_spec fs new : NoDup fs -> forall kw d,
  (forall f, In f fs -> changedb kw new f = true -> hexable f (kw f) (new f) = true) ->
  exists kw', merge_loop (map (fun f => (f, new f)) fs) kw d
              = Ok ((d || existsb (fun f => changedb kw new f && telling f) fs)%bool, kw') /\
    forall f, kw' f = if (existsb (field_eqb f) fs && negb (blank (new f)))%bool then new f else kw f.
Proof.
  induction fs as [|k fs IH]; intros ND kw d H.
  - exists kw. simpl. rewrite orb_false_r. split; [reflexivity|]. reflexivity.
  - inversion ND as [|? ? Hk ND']; subst.
    assert (Hx : existsb (field_eqb k) fs = false).
    { destruct (existsb (field_eqb k) fs) eqn:E; [|reflexivity].
      apply existsb_exists in E as (g & G1 & G2). apply field_eqb_eq in G2. subst. tauto. }
    cbn [map merge_loop]. rewrite skipped_blank.
    destruct (blank (new k)) eqn:B.
    + destruct (IH ND' kw d) as (kw' & E & F).
      { intros f Hf. apply H. now right. }
      exists kw'. rewrite E. split.
      * cbn [existsb]. unfold changedb at 2. rewrite B. simpl. rewrite andb_false_r. simpl. reflexivity.
      * intro f. rewrite F. cbn [existsb]. destruct (field_eqb f k) eqn:E2; [|reflexivity].
        apply field_eqb_eq in E2. subst. rewrite Hx, B. reflexivity.
    + assert (St : forall d', exists kw', merge_loop (map (fun f => (f, new f)) fs) (set_arg k (new k) kw) d'
              = Ok ((d' || existsb (fun f => changedb kw new f && telling f) fs)%bool, kw') /\
              forall f, kw' f = if (existsb (field_eqb f) (k :: fs) && negb (blank (new f)))%bool then new f else kw f).
      { intro d'. destruct (IH ND' (set_arg k (new k) kw) d') as (kw' & E & F).
        { intros f Hf. rewrite set_arg_other by (intro; subst; tauto). unfold changedb.
          rewrite set_arg_other by (intro; subst; tauto). apply H. now right. }
        exists kw'. split.
        - rewrite E. f_equal. f_equal. f_equal. clear -Hk.
          assert (G : forall f, In f fs -> f <> k) by (intros ? ? ?; subst; tauto).
          clear Hk. induction fs as [|g fs IH]; [reflexivity|]. cbn [existsb].
          rewrite IH by (intros; apply G; now right).
          unfold changedb at 1 3. rewrite set_arg_other; [reflexivity|]. apply not_eq_sym, G. now left.
        - intro f. rewrite F. cbn [existsb]. destruct (field_eqb f k) eqn:E2.
          + apply field_eqb_eq in E2. subst. rewrite Hx, B. simpl. now rewrite set_arg_same.
          + simpl. rewrite set_arg_other; [reflexivity|]. intro; subst.
            assert (field_eqb f f = true) by now apply field_eqb_eq. congruence. }
      assert (Hh := H k (or_introl eq_refl)). unfold changedb in Hh. rewrite B in Hh. cbn [negb andb] in Hh.
      rewrite andb_true_r in Hh.
      destruct (negb (is_none (kw k)) && negb (py_eq (kw k) (new k)))%bool eqn:C.
      * rewrite Hh by reflexivity. destruct (St (d || telling k)%bool) as (kw' & E & F).
        exists kw'. rewrite E. split; [|assumption]. cbn [existsb]. unfold changedb at 2. rewrite B.
        cbn [negb]. rewrite andb_true_r, C. simpl. now rewrite orb_assoc.
      * destruct (St d) as (kw' & E & F). exists kw'. rewrite E. split; [|assumption].
        cbn [existsb]. unfold changedb at 2. rewrite B. cbn [negb]. rewrite andb_true_r, C. reflexivity.
Qed.

Lemma strip_loop_spec fs new : forall kw f,
  strip_loop (map (fun f => (f, new f)) fs) kw f =
  if (existsb (field_eqb f) fs && negb (field_eqb f Fold_id) && is_none (new f))%bool then PNone else kw f.
Proof.
  induction fs as [|k fs IH]; intros kw f; [reflexivity|].
  cbn [map existsb].
  assert (E : strip_loop ((k, new k) :: map (fun f => (f, new f)) fs) kw f =
    strip_loop (map (fun f => (f, new f)) fs)
      (if (negb (field_eqb k Fold_id) && is_none (new k))%bool then set_arg k PNone kw else kw) f).
  { destruct k; reflexivity. }
  rewrite E, IH.
  destruct (field_eqb f k) eqn:Ek.
  - apply field_eqb_eq in Ek. subst k. simpl.
    destruct (negb (field_eqb f Fold_id) && is_none (new f))%bool eqn:D.
    + rewrite set_arg_same. destruct (existsb (field_eqb f) fs); simpl; [now rewrite D|reflexivity].
    + destruct (existsb (field_eqb f) fs); simpl; [now rewrite D|reflexivity].
  - simpl. destruct (negb (field_eqb k Fold_id) && is_none (new k))%bool; [|reflexivity].
    rewrite set_arg_other; [reflexivity|]. intro; subst.
    assert (field_eqb f f = true) by now apply field_eqb_eq. congruence.
Qed.

(** ** The result of a merge *)
Definition merged (old new : args) (f : field) : pyval :=
  let base := match f with
              | Fold_id => if py_eq (old Fid) (new Fid) then old f else old Fid
              | _ => old f end in
  if blank (new f)
  then if (differs old new && negb (field_eqb f Fold_id) && is_none (new f))%bool then PNone else base
  else new f.

Lemma all_items f : existsb (field_eqb f) item_fields = true.
Proof. now destruct f. Qed.

Lemma items_desc dp m a : describes dp m a ->
  items dp m = Ok (map (fun f => (f, a f)) item_fields).
Proof.
  intro D. unfold items. apply rmap_ok. intros f _. now rewrite D.
Qed.

Lemma item_args_desc a f : item_args (map (fun f => (f, a f)) item_fields) f = a f.
Proof. now destruct f. Qed.

Lemma item_nodup : NoDup item_fields.
Proof. repeat constructor; simpl; intuition discriminate. Qed.

Lemma getf_init dp a m f : kinds a -> meta_init a = Ok m -> getf dp m f = Ok (a f).
Proof.
  intros K H. assert (E := K Ferrors). destruct E as [l E]. assert (S := K Fsize).
  assert (C := K Fcreated). assert (U := K Fupdated). simpl in S, C, U.
  unfold meta_init, meta_init_x in H.
  destruct (negb _ && negb _ && negb _)%bool; [discriminate|].
  destruct (match a Fid with PNone | PStr _ => false | _ => true end); [discriminate|].
  assert (Ss : match a Fsize with PNone => Ok PNone | v => filesize v end = Ok (a Fsize)).
  { destruct S as [S|[z S]]; rewrite S; reflexivity. }
  rewrite Ss in H. cbn [rbind] in H.
  assert (Se : errors_tuple (a Ferrors) = Ok l).
  { rewrite E. destruct l; reflexivity. }
  rewrite Se in H. cbn [rbind] in H. apply Ok_inj in H. subst m.
  destruct f; try reflexivity; cbn [getf get_created get_updated m_created_ok m_updated_ok].
  - destruct C as [C|[d C]]; rewrite C; reflexivity.
  - destruct U as [U|[d U]]; rewrite U; reflexivity.
  - cbn [m_errors]. now rewrite E.
Qed.

Lemma init_ok a : kinds a -> exists m, meta_init a = Ok m /\ m_kwargs m = [].
Proof.
  intro K. destruct (K Ferrors) as [l E]. assert (S := K Fsize). assert (I' := K Fid).
  assert (F := K Ffile_id). simpl in S, I', F.
  unfold meta_init, meta_init_x.
  assert (G : (negb (truthy (a Ffile_id)) && negb (is_none (a Ffile_id))
      && negb (py_eq (a Ffile_id) (PInt 0)))%bool = false).
  { destruct F as [F|[z F]]; rewrite F; simpl; [reflexivity|]. destruct (Z.eqb z 0); reflexivity. }
  rewrite G.
  assert (G2 : match a Fid with PNone | PStr _ => false | _ => true end = false).
  { destruct I' as [F'|[z F']]; rewrite F'; reflexivity. }
  rewrite G2.
  assert (Ss : match a Fsize with PNone => Ok PNone | v => filesize v end = Ok (a Fsize)).
  { destruct S as [S|[z S]]; rewrite S; reflexivity. }
  rewrite Ss. cbn [rbind].
  assert (Se : errors_tuple (a Ferrors) = Ok l).
  { rewrite E. destruct l; reflexivity. }
  rewrite Se. cbn [rbind]. eexists. split; reflexivity.
Qed.

Lemma meta_init_ext a b : (forall f, a f = b f) -> meta_init a = meta_init b.
Proof. intro H. unfold meta_init, meta_init_x. now rewrite !H. Qed.

Lemma merged_kinds old new : kinds old -> kinds new -> kinds (merged old new).
Proof.
  intros Ko Kn f. unfold merged.
  assert (O := Ko f). assert (N := Kn f).
  assert (Z : kind_field f PNone \/ f = Ferrors) by (destruct f; simpl; auto).
  destruct (blank (new f)); [|assumption].
  destruct (differs old new && negb (field_eqb f Fold_id) && is_none (new f))%bool eqn:D.
  - destruct Z as [Z|Z]; [assumption|]. subst f. destruct N as [l N]. rewrite N in D.
    rewrite andb_false_r in D. discriminate.
  - destruct f; assumption.
Qed.

Theorem merge_spec dp o n old new :
  describes dp o old -> describes dp n new -> kinds old -> kinds new ->
  exists m, merge dp o n = Ok (differs old new, m) /\ describes dp m (merged old new) /\ m_kwargs m = [].
Proof.
  intros Do Dn Ko Kn.
  assert (Io : m_id o = old Fid) by (specialize (Do Fid); now apply Ok_inj in Do).
  assert (In_ : m_id n = new Fid) by (specialize (Dn Fid); now apply Ok_inj in Dn).
  unfold merge. rewrite (items_desc dp o old Do), (items_desc dp n new Dn). cbn [rbind].
  rewrite Io, In_.
  set (kw := if py_eq (old Fid) (new Fid) then _ else _).
  assert (Hkw : forall f, kw f = match f with
              | Fold_id => if py_eq (old Fid) (new Fid) then old f else old Fid
              | _ => old f end).
  { intro f. unfold kw. destruct (py_eq (old Fid) (new Fid)).
    - rewrite item_args_desc. now destruct f.
    - destruct f; try (rewrite set_arg_other by discriminate; apply item_args_desc).
      apply set_arg_same. }
  destruct (merge_loop_spec item_fields new item_nodup kw false) as (kw' & E & F).
  { intros f _ C. unfold changedb in C. apply andb_true_iff in C as [C _].
    apply andb_true_iff in C as [N B].
    destruct f; try reflexivity. rewrite Hkw in N |- *.
    destruct (Ko Fchecksum) as [Q|[b Q]]; rewrite Q in N |- *; [discriminate|].
    destruct (Kn Fchecksum) as [Q'|[b' Q']]; rewrite Q' in B |- *; [discriminate|reflexivity]. }
  rewrite E. cbn [rbind fst snd].
  assert (Ed : (false || existsb (fun f => changedb kw new f && telling f) item_fields)%bool = differs old new).
  { unfold differs, item_fields. cbn [existsb telling]. unfold changedb. rewrite !Hkw.
    fold (changedb old new Fcreated) (changedb old new Fupdated) (changedb old new Fsize)
      (changedb old new Fchecksum) (changedb old new Ffile_id).
    rewrite ?andb_false_r, ?andb_true_r, ?orb_false_r, ?orb_false_l.
    destruct (changedb old new Fcreated), (changedb old new Fupdated), (changedb old new Fsize),
      (changedb old new Fchecksum), (changedb old new Ffile_id); reflexivity. }
  rewrite Ed.
  set (fin := if differs old new then _ else _).
  assert (Hf : forall f, fin f = merged old new f).
  { intro f. unfold fin, merged.
    destruct (differs old new).
    - rewrite strip_loop_spec, F, all_items, Hkw. cbn [andb].
      destruct (blank (new f)) eqn:B; cbn [negb].
      + reflexivity.
      + destruct (new f); try discriminate; rewrite ?andb_false_r; reflexivity.
    - rewrite F, all_items, Hkw. cbn [andb]. destruct (blank (new f)); reflexivity. }
  assert (Kf := merged_kinds old new Ko Kn).
  destruct (init_ok _ Kf) as (m & M & MK).
  rewrite (meta_init_ext fin _ Hf), M. cbn [rbind].
  exists m. split; [reflexivity|]. split; [|assumption].
  intro f. exact (getf_init dp _ m f Kf M).
Qed.

(** ** Truth value *)
Lemma init_bool a x m : meta_init_x a x = Ok m ->
  meta_bool m = true <-> (exists f, a f <> PNone /\ (f = Ferrors -> truthy (a f) = true)) \/ x <> [].
Proof.
  intro H. unfold meta_init_x in H.
  destruct (negb _ && negb _ && negb _)%bool; [discriminate|].
  destruct (match a Fid with PNone | PStr _ => false | _ => true end); [discriminate|].
  destruct (match a Fsize with PNone => Ok PNone | v => filesize v end) as [sz|] eqn:S; [|discriminate].
  cbn [rbind] in H. destruct (errors_tuple (a Ferrors)) as [er|] eqn:E; [|discriminate].
  cbn [rbind] in H. apply Ok_inj in H. subst m.
  assert (S' : is_none sz = is_none (a Fsize)).
  { destruct (a Fsize); simpl in S; try (injection S as <-; reflexivity); try discriminate.
    - destruct (py_int s); [injection S as <-; reflexivity|discriminate].
    - destruct (py_int (map Byte.to_N b)); [injection S as <-; reflexivity|discriminate]. }
  assert (E' : truthy (PStrs er) = truthy (a Ferrors)).
  { unfold errors_tuple in E. destruct (truthy (a Ferrors)) eqn:T.
    - destruct (a Ferrors); simpl in T; try discriminate.
      + injection E as <-. destruct s; [discriminate|reflexivity].
      + injection E as <-. destruct l; [discriminate|reflexivity].
    - injection E as <-. reflexivity. }
  set (P := fun f => match f with Ferrors => truthy (a Ferrors) | _ => negb (is_none (a f)) end).
  assert (R : meta_bool (mkMeta (a Fname) sz
          (if stamp_ok (a Fcreated) then PNone else a Fcreated) (if stamp_ok (a Fcreated) then Some (a Fcreated) else None)
          (if stamp_ok (a Fupdated) then PNone else a Fupdated) (if stamp_ok (a Fupdated) then Some (a Fupdated) else None)
          (a Fchecksum) (a Fchecksum_cypher) (a Fetag) (a Fchunksize) (a Fmulti)
          (a Fparent_id) (a Fid) (a Ffile_id) (a Fold_id) (a Fgid) (a Fuser_id)
          (a Fmode) er x) = (existsb P item_fields || match x with [] => false | _ => true end)%bool).
  { unfold meta_bool, dict, item_fields.
    cbn [m_name m_size m_created m_created_ok m_updated m_updated_ok m_checksum m_checksum_cypher
         m_etag m_chunksize m_multi m_parent_id m_id m_file_id m_old_id m_gid m_user_id m_mode m_errors m_kwargs].
    assert (N : forall v, dval_none (DV v) = is_none v) by (now intros []).
    rewrite !existsb_app. cbn [existsb app]. rewrite !N, S', E'.
    unfold P. clear S' E' N P S E.
    generalize (is_none (a Fname)) (is_none (a Fsize)) (is_none (a Fchecksum)) (is_none (a Fchecksum_cypher))
      (is_none (a Fetag)) (is_none (a Fchunksize)) (is_none (a Fmulti)) (is_none (a Fparent_id)) (is_none (a Fid))
      (is_none (a Ffile_id)) (is_none (a Fold_id)) (is_none (a Fgid)) (is_none (a Fuser_id)) (is_none (a Fmode))
      (truthy (a Ferrors)).
    intros b1 b2 b3 b4 b5 b6 b7 b8 b9 c1 c2 c3 c4 c5 c6.
    destruct (a Fcreated) as [| | |[]|[]| |[]|]; destruct (a Fupdated) as [| | |[]|[]| |[]|];
    destruct x; simpl; repeat (match goal with |- context [negb ?b] => destruct b; simpl; [|reflexivity] end);
    destruct c6; reflexivity. }
  rewrite R, orb_true_iff, existsb_exists. split.
  - intros [(f & _ & F)|F].
    + left. exists f. unfold P in F. destruct f; split; intro K;
        try (rewrite K in F; discriminate); try discriminate; assumption.
    + right. destruct x; congruence.
  - intros [(f & F & G)|F].
    + left. exists f. split; [destruct f; simpl; tauto|]. unfold P.
      destruct f; try (now apply G);
      match goal with |- negb ?b = true => destruct b eqn:Q; [apply is_none_iff in Q; contradiction|reflexivity] end.
    + right. destruct x; congruence.
Qed.

(** ** Equality *)
Lemma eq_loop_found l other (w : attr -> dval) :
  (forall a v, In (a, v) l -> exists a', find (fun p => attr_eqb a (fst p)) other = Some (a', w a)) ->
  eq_loop l other = Ok (forallb (fun p => dval_eq (snd p) (w (fst p))) l).
Proof.
  induction l as [|[a v] l IH]; intro H; [reflexivity|].
  cbn [eq_loop]. destruct (H a v (or_introl eq_refl)) as [a' E]. rewrite E. cbn [forallb fst snd].
  destruct (dval_eq v (w a)); [|reflexivity]. cbn [andb]. apply IH. intros. eapply H. right. eassumption.
Qed.

Lemma dict_init a m : plain a -> meta_init a = Ok m ->
  exists sz l, a Ferrors = PStrs l /\ (forall v, py_eq sz v = py_eq (a Fsize) v) /\ (forall v, py_eq v sz = py_eq v (a Fsize)) /\
  dict m =
  (if stamp_ok (a Fcreated) then [(A_created_ok, DV (a Fcreated))] else []) ++
  (if stamp_ok (a Fupdated) then [(A_updated_ok, DV (a Fupdated))] else []) ++
  [(A Fname, DV (a Fname)); (A Fsize, DV sz);
   (A_created, DV (if stamp_ok (a Fcreated) then PNone else a Fcreated));
   (A_updated, DV (if stamp_ok (a Fupdated) then PNone else a Fupdated));
   (A Fchecksum, DV (a Fchecksum)); (A Fchecksum_cypher, DV (a Fchecksum_cypher));
   (A Fetag, DV (a Fetag)); (A Fchunksize, DV (a Fchunksize)); (A Fmulti, DV (a Fmulti));
   (A Fparent_id, DV (a Fparent_id)); (A Fid, DV (a Fid)); (A Ffile_id, DV (a Ffile_id));
   (A Fold_id, DV (a Fold_id)); (A Fgid, DV (a Fgid)); (A Fuser_id, DV (a Fuser_id));
   (A Fmode, DV (a Fmode)); (A Ferrors, DV (PStrs l))].
Proof.
  intros [[l E] S] H. unfold meta_init, meta_init_x in H.
  destruct (negb _ && negb _ && negb _)%bool; [discriminate|].
  destruct (match a Fid with PNone | PStr _ => false | _ => true end); [discriminate|].
  destruct (match a Fsize with PNone => Ok PNone | v => filesize v end) as [sz|] eqn:Q; [|discriminate].
  cbn [rbind] in H. assert (Se : errors_tuple (a Ferrors) = Ok l) by (rewrite E; destruct l; reflexivity).
  rewrite Se in H. cbn [rbind] in H. apply Ok_inj in H. subst m. exists sz, l.
  split; [assumption|]. split; [|split].
  - intro v. destruct S as [S|[z [S|S]]]; rewrite S in Q |- *; injection Q as <-; destruct v; reflexivity.
  - intro v. destruct S as [S|[z [S|S]]]; rewrite S in Q |- *; injection Q as <-; destruct v; reflexivity.
  - unfold dict. cbn [m_name m_size m_created m_created_ok m_updated m_updated_ok m_checksum m_checksum_cypher
         m_etag m_chunksize m_multi m_parent_id m_id m_file_id m_old_id m_gid m_user_id m_mode m_errors m_kwargs].
    destruct (a Fcreated), (a Fupdated); reflexivity.
Qed.

Theorem eq_fields a b m n : plain a -> plain b ->
  same_kind (a Fcreated) (b Fcreated) -> same_kind (a Fupdated) (b Fupdated) ->
  meta_init a = Ok m -> meta_init b = Ok n ->
  exists r, meta_eq m n = Ok r /\ (r = true <-> forall f, py_eq (a f) (b f) = true).
Proof.
  intros Pa Pb Kc Ku Ha Hb.
  destruct (dict_init a m Pa Ha) as (sa & la & Ea & Sa & _ & Da).
  destruct (dict_init b n Pb Hb) as (sb & lb & Eb & _ & Sb & Db).
  unfold same_kind in Kc, Ku. unfold meta_eq.
  set (w := fun x => match x with
    | A Fsize => DV sb | A Ferrors => DV (PStrs lb) | A f => DV (b f)
    | A_created => DV (if stamp_ok (b Fcreated) then PNone else b Fcreated)
    | A_updated => DV (if stamp_ok (b Fupdated) then PNone else b Fupdated)
    | A_created_ok => DV (b Fcreated) | A_updated_ok => DV (b Fupdated)
    | A_kwargs => DV PNone end).
  exists (forallb (fun p => dval_eq (snd p) (w (fst p))) (dict m)). split.
  - apply eq_loop_found. intros x v Hin. rewrite Da in Hin. rewrite Db.
    rewrite Kc, Ku in Hin.
    destruct (stamp_ok (b Fcreated)) eqn:C, (stamp_ok (b Fupdated)) eqn:U;
      cbn [app In] in Hin;
      repeat (destruct Hin as [Hin|Hin]; [injection Hin as <- <-; eexists; cbn; rewrite ?C, ?U; reflexivity|]);
      destruct Hin.
  - rewrite Da, forallb_app, forallb_app. rewrite Kc, Ku. cbn [forallb fst snd w dval_eq].
    rewrite Sa, Sb. rewrite <- Ea, <- Eb.
    rewrite !andb_true_iff. split.
    + intros (C & U & R).
      repeat match goal with H : _ /\ _ |- _ => destruct H end.
      intros []; try assumption.
      * destruct (stamp_ok (b Fcreated)); [|assumption]. simpl in C. now apply andb_true_iff in C.
      * destruct (stamp_ok (b Fupdated)); [|assumption]. simpl in U. now apply andb_true_iff in U.
    + intro H. repeat split; try apply H; try reflexivity.
      * destruct (stamp_ok (b Fcreated)); [|reflexivity]. simpl. now rewrite H.
      * destruct (stamp_ok (b Fupdated)); [|reflexivity]. simpl. now rewrite H.
      * destruct (stamp_ok (b Fcreated)); [reflexivity|apply H].
      * destruct (stamp_ok (b Fupdated)); [reflexivity|apply H].
Qed.

(** Text stamps against real ones. *)
Theorem eq_mixed a b m n : plain a -> plain b ->
  stamp_ok (a Fcreated) = true -> stamp_ok (b Fcreated) = false ->
  meta_init a = Ok m -> meta_init b = Ok n ->
  meta_eq m n = Err AttributeError.
Proof.
  intros Pa Pb Ka Kb Ha Hb.
  destruct (dict_init a m Pa Ha) as (sa & la & Ea & Sa & _ & Da).
  destruct (dict_init b n Pb Hb) as (sb & lb & Eb & _ & Sb & Db).
  unfold meta_eq. rewrite Da, Db, Ka, Kb. cbn [app eq_loop].
  destruct (stamp_ok (b Fupdated)); reflexivity.
Qed.

Lemma eq_loop_false l other x v w a' : In (x, v) l ->
  find (fun p => attr_eqb x (fst p)) other = Some (a', w) -> dval_eq v w = false ->
  (forall y u, In (y, u) l -> exists p, find (fun p => attr_eqb y (fst p)) other = Some p) ->
  eq_loop l other = Ok false.
Proof.
  induction l as [|[y u] l IH]; intros Hin F E Al; [destruct Hin|].
  cbn [eq_loop]. destruct (Al y u (or_introl eq_refl)) as [[q r] Q]. rewrite Q.
  destruct (dval_eq u r) eqn:D; [|reflexivity].
  destruct Hin as [Hin|Hin].
  - injection Hin as -> ->. rewrite F in Q. injection Q as -> ->. congruence.
  - apply IH; try assumption. intros. eapply Al. right. eassumption.
Qed.

Theorem eq_mixed_sym a b m n : plain a -> plain b ->
  stamp_ok (a Fcreated) = true -> stamp_ok (b Fcreated) = false -> same_kind (a Fupdated) (b Fupdated) ->
  meta_init a = Ok m -> meta_init b = Ok n ->
  meta_eq n m = Ok false.
Proof.
  intros Pa Pb Ka Kb Ku Ha Hb.
  destruct (dict_init a m Pa Ha) as (sa & la & Ea & Sa & _ & Da).
  destruct (dict_init b n Pb Hb) as (sb & lb & Eb & _ & Sb & Db).
  unfold meta_eq, same_kind in *. rewrite Da, Db, Ka, Kb, Ku.
  eapply eq_loop_false with (x := A_created) (v := DV (b Fcreated)) (w := DV PNone).
  - rewrite !in_app_iff. right. right. simpl. tauto.
  - destruct (stamp_ok (b Fupdated)); reflexivity.
  - destruct (b Fcreated); try discriminate Kb; reflexivity.
  - intros y u Hin. destruct (stamp_ok (b Fupdated));
    cbn [app In] in Hin;
    repeat (destruct Hin as [Hin|Hin]; [injection Hin as <- <-; eexists; reflexivity|]); destruct Hin.
Qed.

(** Unknown values make equality one-sided. *)
Theorem eq_extra_ignored a b m n n' k x :
  meta_init a = Ok m -> meta_init b = Ok n -> meta_init_x b (k :: x) = Ok n' ->
  meta_eq m n' = meta_eq m n.
Proof.
  intros Ha Hb Hb'. unfold meta_init, meta_init_x in Hb, Hb'.
  destruct (negb _ && negb _ && negb _)%bool; [discriminate|].
  destruct (match b Fid with PNone | PStr _ => false | _ => true end); [discriminate|].
  destruct (match b Fsize with PNone => Ok PNone | v => filesize v end) as [sz|] eqn:Q; [|discriminate].
  cbn [rbind] in Hb, Hb'. destruct (errors_tuple (b Ferrors)) as [er|]; [|discriminate].
  cbn [rbind] in Hb, Hb'. apply Ok_inj in Hb, Hb'. subst n n'.
  assert (M : m_kwargs m = []).
  { unfold meta_init, meta_init_x in Ha.
    destruct (negb _ && negb _ && negb _)%bool; [discriminate|].
    destruct (match a Fid with PNone | PStr _ => false | _ => true end); [discriminate|].
    destruct (match a Fsize with PNone => Ok PNone | v => filesize v end) as [sz'|]; [|discriminate].
    cbn [rbind] in Ha. destruct (errors_tuple (a Ferrors)) as [er'|]; [|discriminate].
    cbn [rbind] in Ha. apply Ok_inj in Ha. now subst m. }
  unfold meta_eq.
  match goal with |- eq_loop _ (dict ?d) = eq_loop _ (dict ?e) =>
    assert (D : forall y, y <> A_kwargs -> find (fun p => attr_eqb y (fst p)) (dict d) = find (fun p => attr_eqb y (fst p)) (dict e)) end.
  { intros y Hy. unfold dict.
    cbn [m_name m_size m_created m_created_ok m_updated m_updated_ok m_checksum m_checksum_cypher
         m_etag m_chunksize m_multi m_parent_id m_id m_file_id m_old_id m_gid m_user_id m_mode m_errors m_kwargs].
    assert (FA : forall P (l1 l2 : list (attr * dval)), find P (l1 ++ l2) = match find P l1 with Some z => Some z | None => find P l2 end).
    { intros P l1. induction l1 as [|z l1 IH]; intro l2; [reflexivity|]. simpl. destruct (P z); auto. }
    rewrite !FA. cbn [find]. destruct y; try congruence; reflexivity. }
  assert (N : forall v, ~ In (A_kwargs, v) (dict m)).
  { intro v. unfold dict. rewrite M. rewrite !in_app_iff. intro K.
    repeat match goal with K : _ \/ _ |- _ => destruct K as [K|K] end.
    all: try (destruct (m_created m), (m_created_ok m); simpl in K; destruct K as [K|[]]; discriminate K).
    all: try (destruct (m_created m), (m_created_ok m); simpl in K; contradiction).
    all: try (destruct (m_updated m), (m_updated_ok m); simpl in K; destruct K as [K|[]]; discriminate K).
    all: try (destruct (m_updated m), (m_updated_ok m); simpl in K; contradiction).
    all: try (simpl in K; repeat (destruct K as [K|K]; [discriminate K|]); contradiction).
    all: try (destruct (m_created m); destruct (m_created_ok m); simpl in K; intuition discriminate).
    all: try (destruct (m_updated m); destruct (m_updated_ok m); simpl in K; intuition discriminate). }
  revert N. generalize (dict m). intros l N.
  induction l as [|[y u] l IH]; [reflexivity|]. cbn [eq_loop].
  rewrite D by (intro; subst; apply (N u); now left).
  destruct (find _ _) as [[]|]; [|reflexivity]. destruct (dval_eq u _); [|reflexivity].
  apply IH. intros v K. apply (N v). now right.
Qed.

(** ** content_different *)
Lemma content_by_checksum dp m n :
  blank (m_checksum m) = false -> blank (m_checksum n) = false -> forall a b,
  m_checksum m = PBytes a -> m_checksum n = PBytes b ->
  exists r, content_different dp m n = Ok r /\ (r = true <-> a <> b).
Proof.
  intros Ba Bb a b Ma Mb. unfold content_different. rewrite Ma, Mb in *.
  destruct a as [|x a]; [discriminate|]. destruct b as [|y b]; [discriminate|].
  eexists. split; [reflexivity|]. cbn [py_eq]. rewrite negb_true_iff.
  destruct (bytes_eqb (x :: a) (y :: b)) eqn:E.
  - apply bytes_eqb_eq in E. split; [discriminate|congruence].
  - split; [|reflexivity]. intros _ K. apply bytes_eqb_eq in K. congruence.
Qed.

Lemma content_otherwise dp m n a b :
  describes dp m a -> describes dp n b -> kinds a -> kinds b ->
  blank (a Fchecksum) = true \/ blank (b Fchecksum) = true ->
  (forall r, content_different dp m n = Ok r ->
     (r = true <-> a Fsize <> b Fsize \/ before (a Fupdated) (b Fupdated))) /\
  ((exists e, content_different dp m n = Err e) <-> a Fsize = b Fsize /\ ~ comparable (a Fupdated) (b Fupdated)).
Proof.
  intros Da Db Ka Kb C.
  assert (Ca := Da Fchecksum). assert (Cb := Db Fchecksum). assert (Sa := Da Fsize). assert (Sb := Db Fsize).
  assert (Ua := Da Fupdated). assert (Ub := Db Fupdated). cbn [getf] in *.
  apply Ok_inj in Ca, Cb, Sa, Sb. unfold content_different. rewrite Ca, Cb, Sa, Sb.
  assert (T : (truthy (a Fchecksum) && truthy (b Fchecksum))%bool = false).
  { destruct C as [C|C].
    - destruct (Ka Fchecksum) as [Q|[[|x l] Q]]; rewrite Q in *; try reflexivity; discriminate.
    - destruct (Kb Fchecksum) as [Q|[[|x l] Q]]; rewrite Q in *; rewrite ?andb_false_r; try reflexivity; discriminate. }
  rewrite T.
  assert (Se : py_eq (a Fsize) (b Fsize) = true <-> a Fsize = b Fsize).
  { destruct (Ka Fsize) as [Q|[z Q]], (Kb Fsize) as [Q'|[z' Q']]; rewrite Q, Q'; simpl; try (split; congruence).
    rewrite Z.eqb_eq. split; congruence. }
  destruct (py_eq (a Fsize) (b Fsize)) eqn:E; cbn [negb].
  - assert (E' := proj1 Se eq_refl). rewrite Ua, Ub. cbn [rbind].
    destruct (Ka Fupdated) as [Q|[d Q]], (Kb Fupdated) as [Q'|[d' Q']]; rewrite Q, Q'; cbn [py_lt comparable before].
    1-3: split; [intros r K; discriminate K|split; [intros _; split; [assumption|intros []]|intros _; now eexists]].
    destruct (Bool.eqb (dt_aware d) (dt_aware d')) eqn:W.
    + apply eqb_prop in W. split.
      * intros r K. apply Ok_inj in K. subst r. rewrite Z.ltb_lt. tauto.
      * split; [intros [e K]; discriminate K|]. tauto.
    + split; [intros r K; discriminate K|]. split; [|intros _; now eexists].
      intros _. split; [assumption|]. intro K. rewrite K, eqb_reflx in W. discriminate.
  - assert (E' : a Fsize <> b Fsize) by (intro K; apply Se in K; congruence).
    split; [intros r K; apply Ok_inj in K; subst; split; [now left|reflexivity]|].
    split; [intros [e K]; discriminate K|tauto].
Qed.

(** ** Statements about the whole method *)
Lemma upd_both dp o n : meta_bool o = true -> meta_bool n = true ->
  update_meta dp (Some o) (Some n) = do r <- merge dp o n ; Ok (fst r, Some (snd r)).
Proof. intros H K. unfold update_meta. now rewrite H, K. Qed.

Lemma differs_false old new : ~ other_file old new -> differs old new = false.
Proof. intro H. destruct (differs old new) eqn:E; [|reflexivity]. now apply differs_iff in E. Qed.

Section Claims.
Variable dp : pyval -> res pyval.
Variables (o n : pathmeta) (old new : args).
Hypotheses (Bo : meta_bool o = true) (Bn : meta_bool n = true)
  (Do : describes dp o old) (Dn : describes dp n new) (Ko : kinds old) (Kn : kinds new).

Lemma keeps : ~ other_file old new ->
  exists m res, update_meta dp (Some o) (Some n) = Ok (false, Some m) /\ describes dp m res /\
    forall f, f <> Fold_id \/ py_eq (old Fid) (new Fid) = true ->
      res f = if blank (new f) then old f else new f.
Proof.
  intro H. apply differs_false in H. destruct (merge_spec dp o n old new Do Dn Ko Kn) as (m & E & D & _).
  exists m, (merged old new). rewrite upd_both, E, H by assumption. split; [reflexivity|]. split; [assumption|].
  intros f Hf. unfold merged. rewrite H. cbn [andb]. destruct (blank (new f)); [|reflexivity].
  destruct f; try reflexivity. destruct Hf as [Hf|Hf]; [congruence|]. now rewrite Hf.
Qed.

Lemma flag : exists d m res, update_meta dp (Some o) (Some n) = Ok (d, Some m) /\ describes dp m res /\
  (d = true <-> other_file old new) /\
  (d = true -> forall f, f <> Fold_id -> new f = PNone -> res f = PNone) /\
  (forall f, blank (new f) = false -> res f = new f) /\
  (blank (new Fold_id) = true -> py_eq (old Fid) (new Fid) = false -> res Fold_id = old Fid).
Proof.
  destruct (merge_spec dp o n old new Do Dn Ko Kn) as (m & E & D & _).
  exists (differs old new), m, (merged old new). rewrite upd_both, E by assumption.
  split; [reflexivity|]. split; [assumption|]. split; [apply differs_iff|]. split; [|split].
  - intros T f Hf N. unfold merged. rewrite N, T. cbn [blank is_none].
    destruct (field_eqb f Fold_id) eqn:Q; [apply field_eqb_eq in Q; contradiction|reflexivity].
  - intros f B. unfold merged. now rewrite B.
  - intros B I'. unfold merged. rewrite B, I'. cbn [field_eqb negb]. now rewrite andb_false_r.
Qed.

Lemma inherits_errors : other_file old new -> new Ferrors = PStrs [] ->
  exists m, update_meta dp (Some o) (Some n) = Ok (true, Some m) /\ PStrs (m_errors m) = old Ferrors.
Proof.
  intros H E. apply differs_iff in H. destruct (merge_spec dp o n old new Do Dn Ko Kn) as (m & R & D & _).
  exists m. rewrite upd_both, R, H by assumption. split; [reflexivity|].
  specialize (D Ferrors). cbn [getf] in D. apply Ok_inj in D. rewrite D. unfold merged. rewrite E. cbn [blank is_none].
  now rewrite !andb_false_r.
Qed.

Lemma own_errors : forall e l, new Ferrors = PStrs (e :: l) ->
  exists d m, update_meta dp (Some o) (Some n) = Ok (d, Some m) /\ m_errors m = e :: l.
Proof.
  intros e l E. destruct (merge_spec dp o n old new Do Dn Ko Kn) as (m & R & D & _).
  exists (differs old new), m. rewrite upd_both, R by assumption. split; [reflexivity|].
  specialize (D Ferrors). cbn [getf] in D. apply Ok_inj in D. unfold merged in D. rewrite E in D. cbn [blank] in D.
  now injection D.
Qed.

Lemma old_id_lost : ~ other_file old new -> py_eq (old Fid) (new Fid) = false -> blank (new Fold_id) = true ->
  exists m, update_meta dp (Some o) (Some n) = Ok (false, Some m) /\ m_old_id m = old Fid.
Proof.
  intros H I' B. apply differs_false in H. destruct (merge_spec dp o n old new Do Dn Ko Kn) as (m & R & D & _).
  exists m. rewrite upd_both, R, H by assumption. split; [reflexivity|].
  specialize (D Fold_id). cbn [getf] in D. apply Ok_inj in D. rewrite D. unfold merged. rewrite B, I', H. reflexivity.
Qed.

Lemma unknown_lost :
  exists d m, update_meta dp (Some o) (Some n) = Ok (d, Some m) /\ m_kwargs m = [].
Proof.
  destruct (merge_spec dp o n old new Do Dn Ko Kn) as (m & R & _ & K).
  exists (differs old new), m. rewrite upd_both, R by assumption. now split.
Qed.
End Claims.

Lemma no_old dp o n : o = None \/ (exists m, o = Some m /\ meta_bool m = false) ->
  update_meta dp o n = Ok (false, n).
Proof. intros [->|(m & -> & B)]; unfold update_meta; [reflexivity|now rewrite B]. Qed.
Lemma no_new dp o n : meta_bool o = true -> n = None \/ (exists m, n = Some m /\ meta_bool m = false) ->
  update_meta dp (Some o) n = Ok (false, Some o).
Proof. intros B [->|(m & -> & B')]; unfold update_meta; rewrite B; [reflexivity|now rewrite B']. Qed.

Lemma bool_informative a m : plain a -> meta_init a = Ok m -> (meta_bool m = true <-> informative a).
Proof.
  intros [[l E] _] H. rewrite (init_bool a [] m H). split.
  - intros [(f & N & T)|N]; [|congruence]. exists f. split; [assumption|]. intros -> K.
    specialize (T eq_refl). rewrite K in T. discriminate.
  - intros (f & N & T). left. exists f. split; [assumption|]. intros ->. specialize (T eq_refl). rewrite E in *. destruct l; [congruence|reflexivity].
Qed.
