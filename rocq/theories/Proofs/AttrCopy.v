(** * Metadata that was read and is stored elsewhere *)
From Coq Require Import String NArith ZArith Bool List Lia.
From Verif Require Import Model.Py Model.PurePath Model.Meta Model.MetaEncode Model.MetaXattr Model.MetaSymlink Model.MetaUpdate Model.Access
  Model.Fs Model.PathOps Model.Sparse Model.Copy Model.Cache
  Spec.FsSpec Spec.LoopSpec Spec.CopySpec Spec.MetaSpec Spec.XattrSpec Spec.CacheSpec Spec.CopyMetaSpec
  Proofs.PyLemmas Proofs.PathLemmas Proofs.MetaXattrProofs Proofs.MetaSymlinkProofs Proofs.FsLemmas Proofs.SlotLemmas Proofs.CacheLemmas Proofs.CacheOps
  Proofs.AttrLemmas Proofs.AttrRead.
Import ListNotations.

Lemma blank_is v : (is_none v || empty_iterable v)%bool = blank v.
Proof. destruct v as [| | |[]|[]| |[]|]; reflexivity. Qed.

Lemma low_scalar c : (c < 2048)%N -> scalar c = true.
Proof. intro H. unfold scalar, surrogate. destruct (N.ltb_spec c 1114112); [|lia]. destruct (N.leb_spec 55296 c); [lia|reflexivity]. Qed.

(** text that was decoded can be encoded *)
Lemma dec_enc b s : dec b = Ok s -> enc s = Ok b.
Proof.
  intro D. unfold dec in D. destruct (utf8_dec b) as [t|] eqn:E; [|discriminate]. apply Ok_inj in D. subst t.
  assert (Q : encodable s).
  { apply encodable_scalar. apply forallb_forall. intros c I. unfold utf8_dec in E. revert E I. generalize (map Byte.to_N b). intros n E I.
    assert (Z : forall k n s, (length n <= k)%nat -> utf8_dec_N n = Some s -> In c s -> scalar c = true); [|exact (Z (length n) n s (le_n _) E I)].
    clear. intro k. induction k as [|k IH]; intros n s Ln E I.
    - destruct n; [|cbn [length] in Ln; lia]. injection E as <-. contradiction.
    - destruct n as [|a r]; [injection E as <-; contradiction|]. cbn [utf8_dec_N] in E. cbn [length] in Ln.
      assert (Step : forall v t, (length t <= k)%nat -> option_map (cons v) (utf8_dec_N t) = Some s -> scalar v = true -> scalar c = true).
      { intros v t Lt Et Sv. destruct (utf8_dec_N t) as [u|] eqn:Eu; [|discriminate]. injection Et as <-. destruct I as [<-|I]; [exact Sv|]. exact (IH t u Lt Eu I). }
      destruct (N.ltb_spec a 128). { apply (Step a r); [lia|exact E|]. apply low_scalar. lia. }
      destruct ((194 <=? a)%N && (a <=? 223)%N)%bool eqn:B2.
      { destruct r as [|b r]; [discriminate|]. destruct (cont b) eqn:Cb; [|discriminate]. apply cont_spec in Cb. apply andb_true_iff in B2. rewrite !N.leb_le in B2.
        apply (Step ((a - 192) * 64 + (b - 128))%N r); [cbn [length] in Ln; lia|exact E|]. apply low_scalar. lia. }
      destruct ((224 <=? a)%N && (a <=? 239)%N)%bool.
      { destruct r as [|b [|e r]]; try discriminate. destruct (_ && scalar _)%bool eqn:C in E; [|discriminate]. apply andb_true_iff in C as [_ C].
        apply (Step _ r) in E; [exact E|cbn [length] in Ln; lia|exact C]. }
      destruct ((240 <=? a)%N && (a <=? 244)%N)%bool; [|discriminate].
      destruct r as [|b [|e [|g r]]]; try discriminate. destruct (_ && scalar _)%bool eqn:C in E; [|discriminate]. apply andb_true_iff in C as [_ C].
      apply (Step _ r) in E; [exact E|cbn [length] in Ln; lia|exact C]. }
  destruct (enc_ok s Q) as (b' & E1 & E2 & _). rewrite E1. f_equal. apply (dec_inj b' b s E2). unfold dec. now rewrite E.
Qed.

Lemma put_text s b : (do c <- enc s ; Ok (PBytes c)) = Ok (PBytes b) -> enc s = Ok b /\ dec b = Ok s.
Proof. intro E. destruct (enc s) as [c|] eqn:En; [|discriminate]. cbn [rbind] in E. apply Ok_inj in E. injection E as ->. split; [reflexivity|]. now apply enc_inv in En. Qed.
Lemma split_chars c s : forall x d, In x (split c s) -> In d x -> In d s.
Proof.
  induction s as [|y s IH]; intros x d I J; cbn [split] in I.
  - destruct I as [<-|[]]. contradiction.
  - destruct (N.eqb y c).
    + destruct I as [<-|I]; [contradiction|]. right. exact (IH x d I J).
    + destruct (split c s) as [|z r] eqn:Es.
      * destruct I as [<-|[]]. destruct J as [<-|[]]. now left.
      * destruct I as [<-|I]; [destruct J as [<-|J]; [now left|]|]; right; [exact (IH z d (or_introl eq_refl) J)|exact (IH x d (or_intror I) J)].
Qed.

(** ** The fields and the arguments *)
Section Arg.
Variable dp : pyval -> res pyval.
Definition arg_value (f : field) (v : pyval) : res pyval :=
  match f with
  | Fcreated | Fupdated => if stamp_ok v then Ok v else dp v
  | _ => Ok (shown_as f v)
  end.
Lemma getf_arg a e m f : meta_init_x a e = Ok m -> (a Fsize = PNone \/ exists z, a Fsize = PInt z) -> (exists l, a Ferrors = PStrs l) ->
  getf dp m f = arg_value f (a f).
Proof.
  unfold meta_init_x. intros H Hs (l & He). repeat (match type of H with (if ?b then _ else _) = _ => destruct b; [discriminate|] end).
  destruct (match a Fsize with PNone => Ok PNone | v => filesize v end) as [sz|] eqn:Es; [cbn [rbind] in H|discriminate].
  rewrite He in H. destruct (errors_tuple (PStrs l)) as [er|] eqn:Ee; [|discriminate]. cbn [rbind] in H. apply Ok_inj in H. subst m.
  destruct f; try reflexivity; cbn [getf m_size m_errors arg_value]; unfold get_created, get_updated; cbn [m_created m_created_ok m_updated m_updated_ok].
  - f_equal. destruct Hs as [E|(z & E)]; rewrite E in Es |- *; apply Ok_inj in Es; subst sz; reflexivity.
  - destruct (stamp_ok (a Fcreated)); reflexivity.
  - destruct (stamp_ok (a Fupdated)); reflexivity.
  - rewrite He. cbn [shown_as]. f_equal. f_equal. unfold errors_tuple in Ee. destruct (truthy (PStrs l)) eqn:T; [now apply Ok_inj in Ee|]. apply Ok_inj in Ee. subst er.
    destruct l; [reflexivity|discriminate T].
Qed.
End Arg.

Section Copy.
Variables (K : conf) (xs : Fs.xattrs) (m : pathmeta) (kws : list (str * pyval)).
Notation dp := (c_dateparse K).
Notation legacy := (c_legacy K).
Notation prefix := (c_prefix K).
Hypothesis Hp : prefix_ok prefix.
Hypothesis Hd : gives_dates K.
Hypothesis Ek : x_kwargs legacy prefix (user_attrs xs) = Ok kws.
Hypothesis Ei : meta_init_x (kw_args kws) (extras kws) = Ok m.

Lemma arg_errors ys k : x_kwargs legacy prefix ys = Ok k -> exists l, kw_args k Ferrors = PStrs l.
Proof. intro E. apply (raw_errors K). now apply (raw_args K Hp ys). Qed.
Lemma getf_of f : getf dp m f = arg_value dp f (kw_args kws f).
Proof. apply (getf_arg dp _ _ m f Ei); [now apply (arg_size K Hp (user_attrs xs))|now apply (arg_errors (user_attrs xs))]. Qed.

Lemma read_writable f v : getf dp m f = Ok v -> writable f v.
Proof.
  intro G. rewrite getf_of in G. pose proof (raw_args K Hp (user_attrs xs) kws f Ek) as R.
  destruct (plain f) eqn:Pf.
  - assert (E : arg_value dp f (kw_args kws f) = Ok (shown_as f (kw_args kws f))) by (destruct f; try discriminate Pf; reflexivity).
    rewrite E in G. apply Ok_inj in G. subst v. now apply (raw_plain K).
  - destruct f; try discriminate Pf; cbn [arg_value shown_as] in G.
    + destruct (raw_date K Hd Fcreated _ (or_introl eq_refl) R) as [E|[(d & E)|(s & E)]]; rewrite E in G; cbn [stamp_ok] in G; [left; congruence|right; exists d; congruence|].
      right. destruct Hd as [Hd1 _]. exact (Hd1 _ _ G).
    + destruct (raw_date K Hd Fupdated _ (or_intror eq_refl) R) as [E|[(d & E)|(s & E)]]; rewrite E in G; cbn [stamp_ok] in G; [left; congruence|right; exists d; congruence|].
      right. destruct Hd as [Hd1 _]. exact (Hd1 _ _ G).
    + apply Ok_inj in G. subst v. now apply (raw_etag K).
    + apply Ok_inj in G. subst v. now apply (raw_user K).
    + apply Ok_inj in G. subst v. cbn [writable]. now apply (raw_errors K).
Qed.

(** what is written for a field is read as the same argument *)
Lemma read_again f v b : is_stamp f = false -> getf dp m f = Ok v -> blank v = false -> x_encode f v = Ok (PBytes b) -> x_decode legacy f b = Ok (kw_args kws f).
Proof.
  intros Sf G Bv E. rewrite getf_of in G. pose proof (raw_args K Hp (user_attrs xs) kws f Ek) as R.
  destruct R as [R|(b0 & R)].
  { rewrite R in G. destruct f; try discriminate Sf; cbn [arg_value shown_as no_args] in G; apply Ok_inj in G; subst v; discriminate Bv. }
  destruct (plain f) eqn:Pf.
  { assert (E1 : arg_value dp f (kw_args kws f) = Ok (shown_as f (kw_args kws f))) by (destruct f; try discriminate Pf; reflexivity).
    rewrite E1 in G. apply Ok_inj in G. subst v. apply (decode_plain legacy f b0); try assumption. now rewrite blank_is. }
  destruct f; try discriminate Pf; try discriminate Sf; cbn [arg_value shown_as] in G; apply Ok_inj in G; subst v.
  - destruct (raw_etag K (kw_args kws Fetag)) as [Q|(h & z & Q & Hz)]; [now right; exists b0|rewrite Q in Bv; discriminate|].
    rewrite Q in E |- *. unfold x_encode in E. rewrite blank_is in E. cbn [blank bytes_encode str_encode rbind] in E. apply put_text in E as [_ Db].
    cbn [x_decode]. rewrite Db. cbn [rbind]. change (chr "-") with 45%N. rewrite rsplit_etag_pos by assumption. now rewrite py_int_dec, fromhex_hex.
  - cbn [x_decode] in R |- *. destruct (int_bytes b0) as [z|] eqn:Eb.
    + apply Ok_inj in R. rewrite <- R in E |- *. unfold x_encode in E. rewrite blank_is in E. cbn [blank bytes_encode str_encode py_str rbind] in E.
      apply put_text in E as [En _]. apply enc_inv in En as (_ & _ & En). now rewrite (int_bytes_enc _ _ En), py_int_dec.
    + destruct (dec b0) as [s|] eqn:Db; [|discriminate]. cbn [rbind] in R. apply Ok_inj in R. rewrite <- R in E, Bv |- *. unfold x_encode in E. rewrite blank_is, Bv in E.
      cbn [bytes_encode str_encode rbind] in E. apply put_text in E as [En _]. rewrite (dec_enc _ _ Db) in En. apply Ok_inj in En. subst b. rewrite Eb, Db. reflexivity.
  - cbn [x_decode] in R |- *. destruct (dec b0) as [s|] eqn:Db; [|discriminate]. cbn [rbind] in R. apply Ok_inj in R. rewrite <- R in E, Bv |- *.
    set (l := filter (fun x => negb (str_eqb x [])) (split (chr ";") s)) in *. unfold x_encode in E. rewrite blank_is, Bv in E.
    cbn [bytes_encode str_encode join_semi rbind] in E. apply put_text in E as [_ Dc]. rewrite Dc. cbn [rbind]. f_equal. f_equal.
    assert (Hl : forall y, In y l -> y <> [] /\ ~ In (chr ";") y).
    { intros y I. apply filter_In in I as [I N]. split; [intros ->; discriminate N|]. now apply (split_parts (chr ";") s). }
    change $";" with [chr ";"]. rewrite split_join; [|destruct l; [discriminate Bv|discriminate]|intros y I; now apply Hl].
    clear - Hl. induction l as [|y l IH]; [reflexivity|]. cbn [filter]. destruct (str_eqb y []) eqn:Ey.
    + apply str_eqb_eq in Ey. subst y. destruct (Hl [] (or_introl eq_refl)) as [N _]. congruence.
    + cbn [negb]. f_equal. apply IH. intros z I. apply Hl. now right.
Qed.
Lemma date_again f v b : is_stamp f = true -> reparses K v -> getf dp m f = Ok v -> blank v = false -> x_encode f v = Ok (PBytes b) ->
  exists w, x_decode legacy f b = Ok w /\ arg_value dp f w = Ok v.
Proof.
  intros Sf Rp G Bv E.
  assert (V : exists d, v = PDt d).
  { pose proof (read_writable f v G) as W. destruct f; try discriminate Sf; (destruct W as [->|W]; [discriminate Bv|exact W]). }
  destruct V as (d & ->). unfold x_encode in E. rewrite blank_is in E. cbn [blank bytes_encode] in E.
  assert (E1 : (do c <- enc (isoformat d) ; Ok (PBytes c)) = Ok (PBytes b)) by (destruct f; try discriminate Sf; exact E).
  apply put_text in E1 as [En Dc]. apply enc_inv in En as (_ & _ & En).
  assert (L8 : Nat.eqb (length b) 8 = false) by (apply Nat.eqb_neq; rewrite (enc_ascii_len _ _ (iso_ascii d) En); pose proof (iso_length d); lia).
  exists (PStr (isoformat d)). destruct f; try discriminate Sf; cbn [x_decode arg_value stamp_ok]; rewrite L8, Dc; cbn [rbind]; (split; [reflexivity|now apply Rp]).
Qed.

(** what was read can be written *)
Lemma encodes f v : getf dp m f = Ok v -> blank v = false -> exists b, x_encode f v = Ok (PBytes b).
Proof.
  intros G Bv. pose proof (read_writable f v G) as W. unfold x_encode. rewrite blank_is, Bv.
  assert (T : forall s, encodable s -> exists b, (do c <- enc s ; Ok (PBytes c)) = Ok (PBytes b)).
  { intros s Q. destruct (enc_ok s Q) as (b & E & _). rewrite E. now exists b. }
  assert (Tz : forall z, encodable (dec_Z z)) by (intro z; apply encodable_ascii, dec_Z_ascii).
  assert (Td : forall b s, dec b = Ok s -> encodable s) by (intros b s D; apply dec_enc in D; now apply enc_inv in D).
  pose proof (raw_args K Hp (user_attrs xs) kws f Ek) as R. rewrite getf_of in G.
  destruct R as [R|(b0 & R)].
  { rewrite R in G. destruct f; cbn [arg_value shown_as no_args stamp_ok] in G; apply Ok_inj in G; subst v; discriminate Bv. }
  destruct f; cbn [writable] in W; cbn [arg_value shown_as] in G;
    try (destruct W as [->|(d & ->)]; [discriminate Bv|]; apply (T (isoformat d)), encodable_ascii, iso_ascii);
    try (destruct W as [->|[(z & ->)|(z & ->)]]; [discriminate Bv| |]; apply (T (dec_Z z)), Tz);
    cbn [x_decode] in R;
    try (apply Ok_inj in R, G; rewrite <- R in G; subst v; cbn [bytes_encode]; eauto; fail).
  all: try (destruct (dec b0) as [s|] eqn:Db; [|discriminate]; cbn [rbind] in R; apply Ok_inj in R, G; rewrite <- R in G; subst v; cbn [bytes_encode str_encode rbind]; apply T; exact (Td _ _ Db)).
  - destruct W as [->|(c & z & -> & _)]; [discriminate Bv|]. cbn [bytes_encode str_encode rbind]. apply T, encodable_ascii. rewrite !ascii_app, hex_ascii, dec_Z_ascii. reflexivity.
  - apply Ok_inj in G. subst v. destruct (int_bytes b0) as [z|].
    + apply Ok_inj in R. rewrite <- R. cbn [bytes_encode str_encode py_str rbind]. apply T, Tz.
    + destruct (dec b0) as [s|] eqn:Db; [|discriminate]. cbn [rbind] in R. apply Ok_inj in R. rewrite <- R. cbn [bytes_encode str_encode rbind]. apply T. exact (Td _ _ Db).
  - destruct (dec b0) as [s|] eqn:Db; [|discriminate]. cbn [rbind] in R. apply Ok_inj in R, G. rewrite <- R in G. subst v. cbn [bytes_encode str_encode join_semi rbind].
    apply T, encodable_join. intros e I. apply filter_In in I as [I _]. apply Td in Db. apply encodable_scalar in Db. apply encodable_scalar.
    rewrite forallb_forall in Db |- *. intros c J. apply Db. exact (split_chars _ _ _ _ I J).
Qed.
Lemma lists_of : dated K m -> exists l, as_xattrs dp m prefix = Ok l.
Proof.
  intros ((c & Ec) & (u & Eu)). apply write_ok; [exact Hp|]. intros f _.
  assert (G : exists v, getf dp m f = Ok v) by (destruct f; cbn [getf]; eauto). destruct G as (v & G). exists v. split; [exact G|]. rewrite blank_is. now apply encodes.
Qed.
End Copy.

(** ** Metadata that is none *)
Lemma lists_getf K m l f : as_xattrs (c_dateparse K) m (c_prefix K) = Ok l -> exists v, getf (c_dateparse K) m f = Ok v.
Proof.
  intro E. unfold as_xattrs in E. assert (I := x_fields_all f). revert l E I. generalize x_fields. intro F. induction F as [|g F IH]; intros l E I; [contradiction|].
  cbn [as_xattrs_from] in E. destruct (getf (c_dateparse K) m g) as [v|] eqn:G; [|discriminate]. cbn [rbind] in E. destruct I as [->|I]; [eauto|].
  destruct (is_none v || empty_iterable v)%bool; [exact (IH l E I)|].
  destruct (x_encode g v); [|discriminate]. cbn [rbind] in E. destruct (enc (x_key (c_prefix K) (field_name g))); [|discriminate]. cbn [rbind] in E.
  destruct a; try discriminate. destruct (as_xattrs_from (c_dateparse K) F m (c_prefix K)) as [o|] eqn:Eo; [|discriminate]. exact (IH o eq_refl I).
Qed.
Section NoneValue.
Variables (K : conf) (ys : Fs.xattrs) (m0 : pathmeta).
Hypothesis E0 : from_xattrs (c_legacy K) (user_attrs ys) (c_prefix K) = Ok m0.
Hypothesis B0 : meta_bool m0 = false.
Lemma none_value f : getf (c_dateparse K) m0 f = Ok (no_args f).
Proof.
  unfold meta_bool in B0.
  assert (Z : forall p, In p (dict m0) -> match p with (A Ferrors, DV v) => truthy v | (_, v) => negb (dval_none v) end = false).
  { intros p I. destruct (match p with (A Ferrors, DV v) => truthy v | (_, v) => negb (dval_none v) end) eqn:E; [|reflexivity].
    rewrite (proj2 (existsb_exists _ (dict m0)) (ex_intro _ p (conj I E))) in B0. discriminate. }
  destruct (from_inv _ _ _ _ E0) as (kw0 & Ek0 & _ & Ei0).
  assert (Y : forall v, negb (dval_none (DV v)) = false -> v = PNone) by (intros []; intro Q; try discriminate; reflexivity).
  assert (Inn : forall p, In p [(A Fname, DV (m_name m0)); (A Fsize, DV (m_size m0));
   (A_created, DV (m_created m0)); (A_updated, DV (m_updated m0));
   (A Fchecksum, DV (m_checksum m0)); (A Fchecksum_cypher, DV (m_checksum_cypher m0));
   (A Fetag, DV (m_etag m0)); (A Fchunksize, DV (m_chunksize m0)); (A Fmulti, DV (m_multi m0));
   (A Fparent_id, DV (m_parent_id m0)); (A Fid, DV (m_id m0)); (A Ffile_id, DV (m_file_id m0));
   (A Fold_id, DV (m_old_id m0)); (A Fgid, DV (m_gid m0)); (A Fuser_id, DV (m_user_id m0));
   (A Fmode, DV (m_mode m0)); (A Ferrors, DV (PStrs (m_errors m0)))] -> In p (dict m0)).
  { intros p I. unfold dict. rewrite !in_app_iff. auto. }
  assert (Z' := fun p I => Z p (Inn p I)). clear Inn.
  pose proof (Z' (A_created, DV (m_created m0)) ltac:(cbn; tauto)) as Zc. apply Y in Zc.
  pose proof (Z' (A_updated, DV (m_updated m0)) ltac:(cbn; tauto)) as Zu. apply Y in Zu.
  destruct (init_fields _ _ _ Ei0) as (_ & _ & Ic & Iu).
  destruct f; cbn [getf no_args];
    try (match goal with |- Ok (?g m0) = _ => f_equal; apply Y; first [exact (Z' (A Fname, DV (g m0)) ltac:(cbn; tauto))|exact (Z' (A Fsize, DV (g m0)) ltac:(cbn; tauto))
     |exact (Z' (A Fchecksum, DV (g m0)) ltac:(cbn; tauto))|exact (Z' (A Fchecksum_cypher, DV (g m0)) ltac:(cbn; tauto))|exact (Z' (A Fetag, DV (g m0)) ltac:(cbn; tauto))
     |exact (Z' (A Fchunksize, DV (g m0)) ltac:(cbn; tauto))|exact (Z' (A Fmulti, DV (g m0)) ltac:(cbn; tauto))|exact (Z' (A Fparent_id, DV (g m0)) ltac:(cbn; tauto))
     |exact (Z' (A Fid, DV (g m0)) ltac:(cbn; tauto))|exact (Z' (A Ffile_id, DV (g m0)) ltac:(cbn; tauto))|exact (Z' (A Fold_id, DV (g m0)) ltac:(cbn; tauto))
     |exact (Z' (A Fgid, DV (g m0)) ltac:(cbn; tauto))|exact (Z' (A Fuser_id, DV (g m0)) ltac:(cbn; tauto))|exact (Z' (A Fmode, DV (g m0)) ltac:(cbn; tauto))] end; fail).
  - unfold get_created. destruct Ic as [[I Q]|(I & Q & I')]; rewrite I.
    + f_equal. apply Y. apply (Z (A_created_ok, DV (kw_args kw0 Fcreated))). unfold dict. rewrite Zc, I. left. reflexivity.
    + rewrite <- I', Zc in Q. discriminate Q.
  - unfold get_updated. destruct Iu as [[I Q]|(I & Q & I')]; rewrite I.
    + f_equal. apply Y. apply (Z (A_updated_ok, DV (kw_args kw0 Fupdated))). unfold dict. rewrite Zu, I. apply in_or_app. right. left. reflexivity.
    + rewrite <- I', Zu in Q. discriminate Q.
  - f_equal. f_equal. pose proof (Z' (A Ferrors, DV (PStrs (m_errors m0))) ltac:(cbn; tauto)) as Q. cbn in Q. now destruct (m_errors m0).
Qed.
End NoneValue.

(** ** Stored where there was none *)
Section Stored.
Variables (K : conf) (xs : Fs.xattrs) (m : pathmeta) (l : MetaXattr.xattrs) (ys : Fs.xattrs) (m0 : pathmeta).
Hypothesis Hp : prefix_ok (c_prefix K).
Hypothesis Hd : gives_dates K.
Hypothesis Em : from_xattrs (c_legacy K) (user_attrs xs) (c_prefix K) = Ok m.
Hypothesis El : as_xattrs (c_dateparse K) m (c_prefix K) = Ok l.
Hypothesis E0 : from_xattrs (c_legacy K) (user_attrs ys) (c_prefix K) = Ok m0.
Hypothesis B0 : meta_bool m0 = false.

Lemma stored_arg f kws k0 k' : x_kwargs (c_legacy K) (c_prefix K) (user_attrs xs) = Ok kws -> meta_init_x (kw_args kws) (extras kws) = Ok m ->
  x_kwargs (c_legacy K) (c_prefix K) (user_attrs ys) = Ok k0 -> x_kwargs (c_legacy K) (c_prefix K) (user_attrs (setall l ys)) = Ok k' ->
  (exists v, getf (c_dateparse K) m f = Ok v /\ blank v = true /\ kw_args k' f = kw_args k0 f) \/
  (exists v b, getf (c_dateparse K) m f = Ok v /\ blank v = false /\ x_encode f v = Ok (PBytes b) /\ x_decode (c_legacy K) f b = Ok (kw_args k' f)).
Proof.
  intros Ek Ei Ek0 Ek'. destruct (key_ok (c_prefix K) f Hp) as (kb & Ekb & Dk).
  pose proof (kw_field K f kb _ _ Dk Ek0) as Q0. rewrite first_user in Q0. pose proof (kw_field K f kb _ _ Dk Ek') as Q'. rewrite first_user in Q'.
  assert (ND : NoDup (map fst l)). { apply (write_nodup (c_dateparse K) x_fields m (c_prefix K)); [|exact El]. repeat (constructor; [cbn; intuition discriminate|]). constructor. }
  assert (G : exists v, getf (c_dateparse K) m f = Ok v).
  { apply (lists_getf K m l f El). }
  destruct G as (v & G). destruct (blank v) eqn:Bv.
  - left. exists v. split; [exact G|]. split; [exact Bv|]. rewrite setall_other in Q'.
    + destruct (xget (xkey (key_text kb)) ys); [rewrite Q0 in Q'; now apply Ok_inj in Q'|congruence].
    + intros k b I Ekk. apply xkey_inj, key_text_inj in Ekk. subst k. apply (write_inv (c_dateparse K) _ _ _ _ El) in I as (g & w & _ & Eg & Bl & Eg' & _).
      assert (g = f) by (eapply enc_key_inj; eassumption). subst g. rewrite G in Eg. apply Ok_inj in Eg. subst w. rewrite blank_is in Bl. congruence.
  - right. destruct (encodes K xs m kws Hp Hd Ek Ei f v G Bv) as (b & Eb). exists v, b. split; [exact G|]. split; [exact Bv|]. split; [exact Eb|].
    assert (I : In (kb, b) l). { apply (write_inv (c_dateparse K) _ _ _ _ El). exists f, v. rewrite blank_is. split; [apply x_fields_all|auto]. }
    rewrite (setall_in l kb b ys ND I) in Q'. exact Q'.
Qed.
Lemma stored_value m' f v : from_xattrs (c_legacy K) (user_attrs (setall l ys)) (c_prefix K) = Ok m' ->
  reparses K v -> getf (c_dateparse K) m f = Ok v -> getf (c_dateparse K) m' f = Ok (if blank v then no_args f else v).
Proof.
  intros E' Rp G. destruct (from_inv _ _ _ _ Em) as (kws & Ek & _ & Ei). destruct (from_inv _ _ _ _ E0) as (k0 & Ek0 & _ & Ei0). destruct (from_inv _ _ _ _ E') as (k' & Ek' & _ & Ei').
  rewrite (getf_of K (setall l ys) m' k' Hp Ek' Ei').
  destruct (stored_arg f kws k0 k' Ek Ei Ek0 Ek') as [(w & Gw & Bw & A)|(w & b & Gw & Bw & Eb & A)]; rewrite G in Gw; apply Ok_inj in Gw; subst w; rewrite Bw.
  - rewrite A. rewrite <- (getf_of K ys m0 k0 Hp Ek0 Ei0). now apply (none_value K ys m0 E0 B0).
  - destruct (is_stamp f) eqn:Sf.
    + destruct (date_again K xs m kws Hp Hd Ek Ei f v b Sf Rp G Bw Eb) as (w & Dw & Aw). rewrite A in Dw. apply Ok_inj in Dw. now subst w.
    + rewrite (read_again K xs m kws Hp Ek Ei f v b Sf G Bw Eb) in A. apply Ok_inj in A. rewrite <- A. now rewrite <- (getf_of K xs m kws Hp Ek Ei).
Qed.
Lemma stored_reads n : exists m', from_xattrs (c_legacy K) (user_attrs (setall (firstn n l) ys)) (c_prefix K) = Ok m'.
Proof.
  destruct (from_inv _ _ _ _ Em) as (kws & Ek & _ & Ei). destruct (from_inv _ _ _ _ E0) as (k0 & Ek0 & Es & Ei0).
  assert (Il : forall k b, In (k, b) (firstn n l) -> exists f v, getf (c_dateparse K) m f = Ok v /\ blank v = false /\ enc (x_key (c_prefix K) (field_name f)) = Ok k /\ x_encode f v = Ok (PBytes b)).
  { intros k b I. apply firstn_In in I. apply (write_inv (c_dateparse K) _ _ _ _ El) in I as (g & v & _ & Eg & Bl & Eg' & Ex). rewrite blank_is in Bl. exists g, v. auto. }
  destruct (decodes_kwargs (c_legacy K) (c_prefix K) (user_attrs (setall (firstn n l) ys))) as (k' & Ek').
  { intros [k b] I. apply in_user_setall in I as [I|I]; [eapply kwargs_decodes; eassumption|]. destruct (Il k b I) as (f & v & Eg & _ & Ef & Ex).
    apply enc_inv in Ef as (_ & Dk & _). exists (x_key (c_prefix K) (field_name f)). split; [assumption|]. intros kk E. rewrite deprefix_key in E. injection E as <-.
    rewrite field_of_name. cbn [snd]. apply (write_read (c_legacy K) f v); [exact (read_writable K xs m kws Hp Hd Ek Ei f v Eg)|assumption]. }
  assert (A : forall f, is_stamp f = false -> kw_args k' f = kw_args k0 f \/ kw_args k' f = kw_args kws f).
  { intros f Sf. destruct (key_ok (c_prefix K) f Hp) as (kb & Ekb & Dk).
    pose proof (kw_field K f kb _ _ Dk Ek0) as Q0. rewrite first_user in Q0. pose proof (kw_field K f kb _ _ Dk Ek') as Q'. rewrite first_user in Q'.
    destruct (setall_part l kb n ys) as [E|(b & Ib & E)]; rewrite E in Q'.
    - left. destruct (xget (xkey (key_text kb)) ys); [rewrite Q0 in Q'; now apply Ok_inj in Q'|congruence].
    - right. apply (write_inv (c_dateparse K) _ _ _ _ El) in Ib as (g & v & _ & Eg & Bl & Eg' & Ex). rewrite blank_is in Bl.
      assert (g = f) by (eapply enc_key_inj; eassumption). subst g. rewrite (read_again K xs m kws Hp Ek Ei f v b Sf Eg Bl Ex) in Q'. now apply Ok_inj in Q'. }
  unfold from_xattrs. rewrite Ek'. cbn [rbind]. unfold call_pathmeta.
  destruct (existsb (fun p => str_eqb (fst p) $"self") k') eqn:Es'.
  - exfalso. apply existsb_exists in Es' as ([t w] & I & E1). cbn [fst] in E1. apply str_eqb_eq in E1. subst t.
    destruct (proj1 (kwargs_names _ _ _ _ Ek' $"self") (ex_intro _ w I)) as (k & b & kk & I1 & D1 & D2).
    apply in_user_setall in I1 as [I1|I1].
    + destruct (proj2 (kwargs_names _ _ _ _ Ek0 $"self")) as (w' & I2); [now exists k, b, kk|].
      assert (existsb (fun p => str_eqb (fst p) $"self") k0 = true) by (apply existsb_exists; exists ($"self", w'); split; [assumption|apply str_eqb_refl]). congruence.
    + destruct (Il k b I1) as (f & v & _ & _ & Ef & _). apply enc_inv in Ef as (_ & Dk & _). rewrite Dk in D1. apply Ok_inj in D1. subst kk.
      rewrite deprefix_key in D2. injection D2 as D2. destruct f; discriminate.
  - unfold meta_init_x in Ei, Ei0 |- *.
    destruct (negb (truthy (kw_args k' Ffile_id)) && negb (is_none (kw_args k' Ffile_id)) && negb (py_eq (kw_args k' Ffile_id) (PInt 0)))%bool eqn:C1.
    { exfalso. destruct (A Ffile_id eq_refl) as [Q|Q]; rewrite Q in C1; [rewrite C1 in Ei0|rewrite C1 in Ei]; discriminate. }
    destruct (match kw_args k' Fid with PNone | PStr _ => false | _ => true end) eqn:C2.
    { exfalso. destruct (A Fid eq_refl) as [Q|Q]; rewrite Q in C2; [rewrite C2 in Ei0|rewrite C2 in Ei];
        match goal with H : (if ?b then _ else _) = Ok _ |- _ => destruct b; discriminate end. }
    destruct (arg_size K Hp _ _ Ek') as [Q|(z & Q)]; rewrite Q;
      (destruct (raw_errors K _ (raw_args K Hp _ _ Ferrors Ek')) as (e & Q2); rewrite Q2; unfold errors_tuple; cbn [filesize rbind]; destruct (truthy (PStrs e)); cbn [rbind]; eauto).
Qed.
End Stored.
