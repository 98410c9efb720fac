(** * Attributes half written can be read *)
From Coq Require Import String NArith ZArith Bool List Lia.
From Verif Require Import Model.Py Model.PurePath Model.Meta Model.MetaEncode Model.MetaXattr Model.MetaSymlink Model.MetaUpdate Model.Access
  Model.Fs Model.PathOps Model.Sparse Model.Copy Model.Cache
  Spec.FsSpec Spec.LoopSpec Spec.CopySpec Spec.CacheSpec Spec.XattrSpec
  Proofs.PyLemmas Proofs.PathLemmas Proofs.MetaXattrProofs Proofs.MetaSymlinkProofs Proofs.FsLemmas Proofs.SlotLemmas Proofs.CacheLemmas Proofs.CacheOps Proofs.AttrLemmas.
Import ListNotations.

Lemma rsplit1_tail c s a b : rsplit1 c s = Some (a, b) -> ~ In c b.
Proof.
  revert a b. induction s as [|y s IH]; intros a b H; [discriminate|]. cbn [rsplit1] in H. destruct (rsplit1 c s) as [[a' b']|] eqn:E.
  - injection H as _ <-. now apply (IH a').
  - destruct (N.eqb y c) eqn:Ey; [|discriminate]. injection H as _ <-. intro I. clear IH Ey.
    induction s as [|z s IH]; [contradiction|]. cbn [rsplit1] in E. destruct (rsplit1 c s) as [[? ?]|]; [discriminate|]. destruct (N.eqb z c) eqn:Ez; [discriminate|].
    destruct I as [->|I]; [now rewrite N.eqb_refl in Ez|now apply IH].
Qed.
Lemma lstrip_in s c : In c (lstrip s) -> In c s.
Proof. induction s as [|y s IH]; intro I; [contradiction|]. cbn [lstrip] in I. destruct (is_space y); [right; now apply IH|assumption]. Qed.
Lemma strip_in s c : In c (strip s) -> In c s.
Proof. unfold strip. rewrite <- in_rev. intro I. apply lstrip_in in I. rewrite <- in_rev in I. now apply lstrip_in. Qed.
Lemma py_int_pos s z : py_int s = Some z -> ~ In 45%N s -> (0 <= z)%Z.
Proof.
  intros H N. unfold py_int in H. destruct (strip s) as [|c r] eqn:E; [discriminate|]. destruct (N.eqb c 45) eqn:Ec.
  - apply N.eqb_eq in Ec. subst c. exfalso. apply N. apply strip_in. rewrite E. now left.
  - destruct (N.eqb c 43).
    + destruct (pnat r); [|discriminate]. injection H as <-. apply N2Z.is_nonneg.
    + destruct (pnat (c :: r)); [|discriminate]. injection H as <-. apply N2Z.is_nonneg.
Qed.

Section Reads.
Variables (K : conf) (xs : Fs.xattrs) (m nm : pathmeta) (l : MetaXattr.xattrs) (n : nat).
Hypothesis Hp : prefix_ok (c_prefix K).
Hypothesis Hd : gives_dates K.
Hypothesis Em : from_xattrs (c_legacy K) (user_attrs xs) (c_prefix K) = Ok m.
Hypothesis En : with_mismatch K m = Ok nm.
Hypothesis El : as_xattrs (c_dateparse K) nm (c_prefix K) = Ok l.

Definition raw (f : field) (v : pyval) : Prop := v = no_args f \/ exists b, x_decode (c_legacy K) f b = Ok v.
Lemma raw_args ys k f : x_kwargs (c_legacy K) (c_prefix K) ys = Ok k -> raw f (kw_args k f).
Proof.
  intro E. destruct (key_ok (c_prefix K) f Hp) as (kb & _ & Dk). pose proof (kw_field K f kb ys k Dk E) as Q. unfold raw.
  destruct (first kb ys); eauto.
Qed.
Lemma raw_plain f v : plain f = true -> raw f v -> writable f (shown_as f v).
Proof.
  intros Hf [->|(b & E)]; [destruct f; try discriminate; cbn [writable shown_as no_args]; auto|].
  destruct f; try discriminate; cbn [x_decode] in E; cbn [writable shown_as]; try exact Logic.I;
    try (destruct (dec b) as [s|]; [|discriminate]; cbn [rbind] in E; apply Ok_inj in E; subst v; right; eauto; fail);
    destruct (int_bytes b) as [z|]; try discriminate; apply Ok_inj in E; subst v; right; eauto.
Qed.
Lemma raw_etag v : raw Fetag v -> writable Fetag v.
Proof.
  intros [->|(b & E)]; [now left|]. cbn [x_decode] in E. destruct (dec b) as [s|]; [|discriminate]. cbn [rbind] in E. change (chr "-") with 45%N in E.
  destruct (rsplit1 45%N s) as [[c t]|] eqn:Er; [|discriminate]. destruct (py_int t) as [z|] eqn:Ez; [|discriminate]. destruct (fromhex c) as [h|]; [|discriminate].
  apply Ok_inj in E. subst v. right. exists h, z. split; [reflexivity|]. apply rsplit1_tail in Er. now apply (py_int_pos t).
Qed.
Lemma raw_user v : raw Fuser_id v -> writable Fuser_id v.
Proof.
  intros [->|(b & E)]; [now left|]. cbn [x_decode] in E. destruct (int_bytes b) as [z|].
  - apply Ok_inj in E. subst v. right. left. eauto.
  - destruct (dec b) as [s|]; [|discriminate]. cbn [rbind] in E. apply Ok_inj in E. subst v. right. right. eauto.
Qed.
Lemma raw_date f v : f = Fcreated \/ f = Fupdated -> raw f v -> v = PNone \/ (exists d, v = PDt d) \/ exists s, v = PStr s.
Proof.
  intros Hf [->|(b & E)]; [left; destruct Hf as [-> | ->]; reflexivity|]. right. destruct Hd as [_ Hl].
  assert (E' : (if Nat.eqb (length b) 8 then c_legacy K b else do s <- dec b ; Ok (PStr s)) = Ok v) by (destruct Hf as [-> | ->]; exact E).
  destruct (Nat.eqb (length b) 8); [left; eauto|]. destruct (dec b) as [s|]; [|discriminate]. cbn [rbind] in E'. apply Ok_inj in E'. right. eauto.
Qed.
Lemma raw_errors v : raw Ferrors v -> exists e, v = PStrs e.
Proof.
  intros [->|(b & E)]; [now exists []|]. cbn [x_decode] in E. destruct (dec b) as [s|]; [|discriminate]. cbn [rbind] in E. apply Ok_inj in E. eauto.
Qed.

(** the fields of metadata and of its arguments *)
Lemma init_fields a e m0 : meta_init_x a e = Ok m0 ->
  m_etag m0 = a Fetag /\ m_user_id m0 = a Fuser_id /\
  (m_created_ok m0 = Some (a Fcreated) /\ stamp_ok (a Fcreated) = true \/ m_created_ok m0 = None /\ stamp_ok (a Fcreated) = false /\ m_created m0 = a Fcreated) /\
  (m_updated_ok m0 = Some (a Fupdated) /\ stamp_ok (a Fupdated) = true \/ m_updated_ok m0 = None /\ stamp_ok (a Fupdated) = false /\ m_updated m0 = a Fupdated).
Proof.
  unfold meta_init_x. intro H. repeat (match type of H with (if ?b then _ else _) = _ => destruct b; [discriminate|] end).
  destruct (match a Fsize with PNone => Ok PNone | v => filesize v end) as [sz|]; [|discriminate]. cbn [rbind] in H.
  destruct (errors_tuple (a Ferrors)) as [er|]; [|discriminate]. cbn [rbind] in H. apply Ok_inj in H. subst m0. cbn [m_etag m_user_id m_created_ok m_created m_updated_ok m_updated].
  split; [reflexivity|]. split; [reflexivity|]. split.
  - destruct (stamp_ok (a Fcreated)); [left; now split|right; repeat split].
  - destruct (stamp_ok (a Fupdated)); [left; now split|right; repeat split].
Qed.
Lemma date_read a e m0 c : meta_init_x a e = Ok m0 -> (a Fcreated = PNone \/ (exists d, a Fcreated = PDt d) \/ exists s, a Fcreated = PStr s) ->
  get_created (c_dateparse K) m0 = Ok c -> c = PNone \/ exists d, c = PDt d.
Proof.
  intros H Ha Hc. destruct (init_fields _ _ _ H) as (_ & _ & I & _). unfold get_created in Hc. destruct I as [[I S]|(I & S & I')]; rewrite I in Hc.
  - apply Ok_inj in Hc. subst c. destruct Ha as [->|[(d & ->)|(s & E)]]; [now left|right; eauto|rewrite E in S; discriminate].
  - right. destruct Hd as [Hd1 _]. eauto.
Qed.
Lemma date_read' a e m0 c : meta_init_x a e = Ok m0 -> (a Fupdated = PNone \/ (exists d, a Fupdated = PDt d) \/ exists s, a Fupdated = PStr s) ->
  get_updated (c_dateparse K) m0 = Ok c -> c = PNone \/ exists d, c = PDt d.
Proof.
  intros H Ha Hc. destruct (init_fields _ _ _ H) as (_ & _ & _ & I). unfold get_updated in Hc. destruct I as [[I S]|(I & S & I')]; rewrite I in Hc.
  - apply Ok_inj in Hc. subst c. destruct Ha as [->|[(d & ->)|(s & E)]]; [now left|right; eauto|rewrite E in S; discriminate].
  - right. destruct Hd as [Hd1 _]. eauto.
Qed.

Lemma nm_writable f v : getf (c_dateparse K) nm f = Ok v -> writable f v.
Proof.
  destruct (from_inv _ _ _ _ Em) as (kws & Ek & _ & Ei). intro G.
  destruct (plain f) eqn:Hf.
  { rewrite (same_value K xs m nm kws Hp Ek Ei En f Hf) in G. apply Ok_inj in G. subst v. apply raw_plain; [assumption|]. now apply (raw_args (user_attrs xs)). }
  pose proof En as En'. unfold with_mismatch in En'. destruct (items (c_dateparse K) m) as [it|] eqn:Ei1; [|discriminate]. cbn [rbind] in En'.
  set (a1 := set_arg Ferrors (PStrs (m_errors m ++ [mismatch])) (MetaUpdate.item_args it)) in En'.
  assert (E1 : f <> Ferrors -> Ok (a1 f) = getf (c_dateparse K) m f).
  { intro Nf. unfold a1. rewrite set_arg_other by congruence. unfold items, item_fields in Ei1. cbn [rmap getf rbind] in Ei1.
    destruct (get_created (c_dateparse K) m) eqn:Ec; [|discriminate]. cbn [rbind] in Ei1. destruct (get_updated (c_dateparse K) m) eqn:Eu; [|discriminate]. cbn [rbind] in Ei1.
    apply Ok_inj in Ei1. subst it. destruct f; try discriminate; try contradiction; cbn [getf]; rewrite ?Ec, ?Eu; reflexivity. }
  clearbody a1. unfold meta_init in En'. destruct (init_fields _ _ _ Ei) as (F1 & F2 & _). destruct (init_fields _ _ _ En') as (N1 & N2 & _).
  destruct f; try discriminate; cbn [writable].
  - apply (date_read _ _ _ _ En'); [|exact G]. specialize (E1 ltac:(discriminate)). cbn [getf] in E1. symmetry in E1.
    destruct (date_read _ _ _ _ Ei (raw_date Fcreated _ (or_introl eq_refl) (raw_args _ _ Fcreated Ek)) E1) as [Q|Q]; [now left|right; now left].
  - apply (date_read' _ _ _ _ En'); [|exact G]. specialize (E1 ltac:(discriminate)). cbn [getf] in E1. symmetry in E1.
    destruct (date_read' _ _ _ _ Ei (raw_date Fupdated _ (or_intror eq_refl) (raw_args _ _ Fupdated Ek)) E1) as [Q|Q]; [now left|right; now left].
  - specialize (E1 ltac:(discriminate)). cbn [getf] in E1, G. apply Ok_inj in E1, G. subst v. rewrite N1, E1, F1. apply raw_etag. now apply (raw_args (user_attrs xs)).
  - specialize (E1 ltac:(discriminate)). cbn [getf] in E1, G. apply Ok_inj in E1, G. subst v. rewrite N2, E1, F2. apply raw_user. now apply (raw_args (user_attrs xs)).
  - cbn [getf] in G. apply Ok_inj in G. eauto.
Qed.

Lemma still_reads : exists m', from_xattrs (c_legacy K) (user_attrs (setall (firstn n l) xs)) (c_prefix K) = Ok m'.
Proof.
  destruct (from_inv _ _ _ _ Em) as (kws & Ek & Es & Ei).
  assert (Il : forall k b, In (k, b) (firstn n l) -> exists f v, getf (c_dateparse K) nm f = Ok v /\ enc (x_key (c_prefix K) (field_name f)) = Ok k /\ x_encode f v = Ok (PBytes b)).
  { intros k b I. apply firstn_In in I. apply (write_inv (c_dateparse K) _ _ _ _ El) in I as (g & v & _ & Eg & _ & Eg' & Ex). eauto. }
  destruct (decodes_kwargs (c_legacy K) (c_prefix K) (user_attrs (setall (firstn n l) xs))) as (kws' & Ek').
  { intros [k b] I. apply in_user_setall in I as [I|I]; [eapply kwargs_decodes; eassumption|]. destruct (Il k b I) as (f & v & Eg & Ef & Ex).
    apply enc_inv in Ef as (_ & Dk & _). exists (x_key (c_prefix K) (field_name f)). split; [assumption|]. intros k' E. rewrite deprefix_key in E. injection E as <-.
    rewrite field_of_name. cbn [snd]. apply (write_read (c_legacy K) f v); [now apply nm_writable|assumption]. }
  unfold from_xattrs. rewrite Ek'. cbn [rbind]. unfold call_pathmeta.
  destruct (existsb (fun p => str_eqb (fst p) $"self") kws') eqn:Es'.
  - exfalso. apply existsb_exists in Es' as ([t w] & I & E1). cbn [fst] in E1. apply str_eqb_eq in E1. subst t.
    destruct (proj1 (kwargs_names _ _ _ _ Ek' $"self") (ex_intro _ w I)) as (k & b & k0 & I1 & D1 & D2).
    apply in_user_setall in I1 as [I1|I1].
    + destruct (proj2 (kwargs_names _ _ _ _ Ek $"self")) as (w' & I2); [now exists k, b, k0|].
      assert (existsb (fun p => str_eqb (fst p) $"self") kws = true) by (apply existsb_exists; exists ($"self", w'); split; [assumption|apply str_eqb_refl]). congruence.
    + destruct (Il k b I1) as (f & v & _ & Ef & _). apply enc_inv in Ef as (_ & Dk & _). rewrite Dk in D1. apply Ok_inj in D1. subst k0.
      rewrite deprefix_key in D2. injection D2 as D2. destruct f; discriminate.
  - pose proof (args_kept K xs m nm l n kws Hp Ek Ei En El kws' Ek') as A. unfold meta_init_x in Ei |- *.
    rewrite (A Ffile_id eq_refl), (A Fid eq_refl), (A Fsize eq_refl).
    repeat (match type of Ei with (if ?b then _ else _) = _ => destruct b; [discriminate|] end).
    destruct (match kw_args kws Fsize with PNone => Ok PNone | v => filesize v end) as [sz|]; [|discriminate]. cbn [rbind].
    destruct (raw_errors _ (raw_args _ _ Ferrors Ek')) as (e & ->). unfold errors_tuple. destruct (truthy (PStrs e)); cbn [rbind]; eauto.
Qed.
End Reads.
