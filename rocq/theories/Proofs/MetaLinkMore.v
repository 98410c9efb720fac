(** Layout and old versions of the symbolic link format. *)
From Coq Require Import String NArith ZArith Bool List Lia.
From Verif Require Import Model.Py Model.PurePath Model.Meta Model.MetaEncode Model.MetaSymlink.
From Verif Require Import Spec.MetaSpec Proofs.PyLemmas Proofs.PathLemmas Proofs.MetaSymlinkProofs.
Import ListNotations.

Lemma lacks_b c s : has (chr c) s = false -> lacks c s.
Proof. intro H. unfold lacks. now apply has_false. Qed.
Ltac lacks_tac := repeat match goal with
  | |- lacks _ _ => apply lacks_b; reflexivity
  | |- _ /\ _ => split
  | |- _ <> _ => discriminate
  end.

(** ** Ids *)
Lemma id_survives_iff s :
  (exists t, encode (EF Fid) (PStr s) = Ok t /\ decode Fid t 6 = Ok (PStr s)) <->
  s <> $"#" /\ lacks "|" s /\ lacks "!" s.
Proof.
  split.
  - intros (t & H1 & H2). apply (weak_bwd Fid (PStr s) t); [right; now exists s|exact H1|exact H2].
  - intro H. destruct (weak_fwd Fid (PStr s)) as (t & H1 & H2); [right; now exists s|exact H|].
    exists t. auto.
Qed.

Lemma enc_str_accepts s :
  (exists t, enc_str false s = Ok t) <->
  ~ (In 47%N s /\ In 124%N s) /\ ~ (In 46%N s /\ In 33%N s).
Proof.
  split.
  - intros [t H]. apply enc_str_inv in H as (_ & A & B). tauto.
  - intros [A B]. unfold enc_str.
    destruct (has 47 s) eqn:E1; cbn [rbind].
    + destruct (has 124 s) eqn:E2; [apply has_In in E1, E2; tauto|]. cbn [rbind].
      destruct (has 46 (replace1 47 124 s)) eqn:E3; [|eexists; reflexivity].
      destruct (has 33 (replace1 47 124 s)) eqn:E4; [|eexists; reflexivity].
      exfalso. apply B. apply has_In in E3, E4.
      apply replace1_In in E3 as [E3|[E3 _]]; [discriminate|].
      apply replace1_In in E4 as [E4|[E4 _]]; [discriminate|]. tauto.
    + destruct (has 46 s) eqn:E3; [|eexists; reflexivity].
      destruct (has 33 s) eqn:E4; [|eexists; reflexivity]. apply has_In in E3, E4. tauto.
Qed.

Lemma id_accepted_iff s :
  (exists t, encode (EF Fid) (PStr s) = Ok t) <->
  ~ (In (chr "/") s /\ In (chr "|") s) /\ ~ (In (chr ".") s /\ In (chr "!") s).
Proof. rewrite encode_str_case by discriminate. apply enc_str_accepts. Qed.

Lemma id_changed s t :
  encode (EF Fid) (PStr s) = Ok t ->
  s = $"#" \/ In (chr "|") s \/ In (chr "!") s ->
  exists v, decode Fid t 6 = Ok v /\ v <> PStr s.
Proof.
  intros H1 H2. pose proof H1 as H1'.
  rewrite encode_str_case in H1 by discriminate. apply enc_str_inv in H1 as (-> & _).
  rewrite decode_idlike by tauto. eexists. split; [reflexivity|].
  intro K. assert (G : s <> $"#" /\ lacks "|" s /\ lacks "!" s).
  { apply id_survives_iff. eexists. split; [exact H1'|]. rewrite decode_idlike by tauto. now rewrite K. }
  unfold lacks in G. tauto.
Qed.

(** ** Layout *)
Lemma layout dp m ln p :
  file_name ln -> as_symlink dp m (Some ln) = Ok p ->
  (forall e, In e (m_errors m) -> lacks "." e /\ lacks "/" e) ->
  exists fs,
    Forall2 (fun ef s => exists v, get_e dp m ef = Ok v /\ encode ef v = Ok s) order_all fs /\
    (exists ide, encode (EF Fid) (m_id m) = Ok ide /\
      parts p = (match ide with [] => [$"/"] | _ => [ln; ide] end)
                ++ [$".mdv6." ++ join $"." fs]) /\
    split (chr ".") (last (parts p) []) = [] :: $"mdv6" :: fs.
Proof.
  intros FN Hp He. unfold as_symlink, symlink_text in Hp.
  destruct (encode (EF Fid) (m_id m)) as [ide|] eqn:Ei; [|discriminate]. cbn [rbind] in Hp.
  destruct (rmap _ order_all) as [fs|] eqn:Er; [|discriminate]. cbn [rbind] in Hp.
  rewrite text_split in Hp. apply Ok_inj in Hp. apply rmap_inv in Er.
  assert (Ci : clean ide) by (eapply encode_clean; [|exact Ei]; discriminate).
  assert (F : Forall2 (fun ef s => exists v, get_e dp m ef = Ok v /\ encode ef v = Ok s) order_all fs).
  { clear - Er. induction Er as [|ef s l l' H _ IH]; constructor; [|assumption].
    destruct (get_e dp m ef) as [v|]; [|discriminate]. now exists v. }
  assert (Cf : Forall clean fs).
  { clear - F He. induction F as [|ef s l l' (v & Hv & Hs) _ IH]; constructor; [|assumption].
    destruct ef as [f|]; [|eapply encode_clean; [|exact Hs]; discriminate].
    destruct (field_eqb f Ferrors) eqn:E.
    - apply field_eqb_eq in E. subst f. cbn in Hv. apply Ok_inj in Hv. subst v. cbn in Hs. apply Ok_inj in Hs. subst s.
      nums. split; intro K; apply join_In in K as [[K|[]]|[x [K1 K2]]]; try discriminate; apply He in K1; tauto.
    - eapply encode_clean; [|exact Hs]. intro K. inversion K; subst. discriminate. }
  assert (NL : norm_part ln) by now apply file_name_norm.
  assert (ND : norm_part (data_of fs)) by (apply norm_data, clean_join, Cf).
  rewrite (pp_parse_part ln NL) in Hp.
  assert (PP : parts p = (match ide with [] => [$"/"] | _ => [ln; ide] end) ++ [data_of fs]).
  { subst p. destruct ide as [|c ide].
    - cbn [app]. pose proof (parse_cat [] (data_of fs)) as K. cbn [app] in K. rewrite K.
      rewrite (comps_one (data_of fs)) by assumption. reflexivity.
    - rewrite parse_text by (assumption || now apply clean_norm). reflexivity. }
  exists fs. split; [exact F|]. split; [exists ide; split; [reflexivity|exact PP]|].
  assert (L : last (parts p) [] = data_of fs) by (rewrite PP; destruct ide; reflexivity).
  rewrite L. change (chr ".") with 46%N. rewrite split_data. f_equal. f_equal.
  apply split_join.
  - intros ->. inversion F.
  - intros x Hx. rewrite Forall_forall in Cf. now apply Cf in Hx as [Hx _].
Qed.

(** ** Versions *)
Lemma written_clean n f v raw : written n f v raw -> clean raw.
Proof.
  assert (H0 : clean $"#") by (split; intros [K|[]]; discriminate).
  assert (R : forall a b s, clean s \/ True -> (a = 46 \/ a = 47)%N -> b <> 46%N -> b <> 47%N ->
     (forall c, (c = 46 \/ c = 47)%N -> c <> a -> ~ In c s) -> clean (replace1 a b s)).
  { intros a b s _ Ha Hb1 Hb2 Hc. split; intro I; apply replace1_In in I as [I|[I N]]; try congruence;
      revert I; apply Hc; try tauto; congruence. }
  intro H. destruct f; destruct v; simpl in H; try contradiction; try (subst; assumption);
    try (subst; apply clean_dec); try (subst; apply clean_hex);
    try (destruct H as (-> & _ & H1 & H2); split; nums; tauto).
  all: first
   [ destruct H as [_ ->]; apply clean_etag
   | nums; destruct H as (-> & _ & H1 & H2 & _); split; assumption
   | nums; destruct H as (_ & H1 & H2 & H3); destruct (n <? 5)%N;
       [subst|destruct H3 as [_ ->]]; apply R; auto; try discriminate; intros c [->| ->]; congruence
   | nums; destruct H as (_ & H1 & H3); destruct (n <? 5)%N; [destruct H3 as [H3 ->]|destruct H3 as [_ ->]];
       [ apply R; auto; try discriminate; intros c [->| ->]; congruence
       | apply R; auto; try discriminate; intros c [->| ->] N; try congruence; apply replace1_no; discriminate]
   | destruct H as (-> & _ & H); nums; split; intro K; apply join_In in K as [[K|[]]|[x [K1 K2]]];
      try discriminate; apply H in K1; tauto ].
Qed.

Lemma z5 n : (5 <=? Z.of_N n)%Z = negb (n <? 5)%N.
Proof.
  destruct (N.ltb_spec n 5); simpl; [apply Z.leb_gt|apply Z.leb_le]; lia.
Qed.

Lemma replace1_hash a b s : a <> 35%N -> b <> 35%N -> replace1 a b s = $"#" -> s = $"#".
Proof.
  intros Ha Hb H. destruct s as [|c [|d s]]; try discriminate. unfold replace1 in H. simpl in H.
  destruct (N.eqb_spec c a); [|exact H]. inversion H. congruence.
Qed.

Lemma written_decode n f v raw : written n f v raw -> decode f raw (Z.of_N n) = Ok v.
Proof.
  assert (N : forall f, decode f $"#" (Z.of_N n) = Ok PNone) by (intros []; reflexivity).
  assert (Q : forall s, s <> $"#" -> str_eqb s empty = false) by (intros; now apply str_eqb_neq).
  assert (ID : forall f s, f = Fid \/ f = Fparent_id \/ f = Fold_id \/ f = Fmode ->
    written n f (PStr s) raw -> decode f raw (Z.of_N n) = Ok (PStr s)).
  { clear f v. intros f s Hf H.
    assert (H' : s <> $"#" /\ lacks "|" s /\
      (if N.ltb n 5 then lacks "." s /\ raw = replace1 47 124 s
       else lacks "!" s /\ raw = replace1 46 33 (replace1 47 124 s)))
      by (destruct Hf as [->|[->|[->| ->]]]; exact H).
    clear H. destruct H' as (H1 & H2 & H3). nums.
    assert (D : decode f raw (Z.of_N n) = if str_eqb raw empty then Ok PNone else
       Ok (PStr (if (n <? 5)%N then replace1 124 47 raw else replace1 33 46 (replace1 124 47 raw)))).
    { unfold decode. nums. rewrite z5.
      destruct (str_eqb raw empty); [destruct Hf as [->|[->|[->| ->]]]; reflexivity|].
      destruct (has 124 raw) eqn:E.
      - destruct Hf as [->|[->|[->| ->]]]; cbn [rbind]; destruct (n <? 5)%N; reflexivity.
      - rewrite (replace1_id 124 47 raw) by now apply has_false.
        destruct Hf as [->|[->|[->| ->]]]; cbn [rbind]; destruct (n <? 5)%N; reflexivity. }
    rewrite D. destruct (n <? 5)%N; destruct H3 as [H3 ->].
    - rewrite Q by (intro K; apply H1; eapply replace1_hash; [| |exact K]; discriminate).
      now rewrite replace1_inv.
    - rewrite enc_hash'. apply str_eqb_neq in H1. rewrite H1.
      f_equal. f_equal. now apply dec_enc. }
  intro H. destruct f; destruct v; simpl in H; try contradiction; try (subst; apply N);
    try (subst; unfold decode; rewrite not_empty_dec, py_int_dec; reflexivity);
    try (apply ID; [tauto|exact H]).
  - (* name *) destruct H as (H1 & H2 & H3 & H4). nums. unfold decode. rewrite z5. nums.
    destruct (n <? 5)%N; cbn [negb].
    + subst raw. rewrite Q by (intro K; apply H1; eapply replace1_hash; [| |exact K]; discriminate).
      destruct (has 124 (replace1 46 124 s)) eqn:E; cbn [rbind].
      * now rewrite replace1_inv.
      * f_equal. f_equal. apply replace1_id. intro I. apply has_false in E. apply E. now apply replace1_hit.
    + destruct H4 as [H4 ->]. rewrite Q by (intro K; apply H1; eapply replace1_hash; [| |exact K]; discriminate).
      assert (E : has 124 (replace1 46 33 s) = false).
      { apply has_false. intro I. apply replace1_In in I as [I|[I _]]; [discriminate|contradiction]. }
      rewrite E. cbn [rbind]. now rewrite replace1_inv.
  - destruct H as (-> & H & _). unfold decode. now rewrite Q.
  - destruct H as (-> & H & _). unfold decode. now rewrite Q.
  - subst. unfold decode. now rewrite not_empty_hex, fromhex_hex.
  - destruct H as (-> & H & _). unfold decode. now rewrite Q.
  - destruct H as (H & ->). unfold decode. change (45%N :: dec_Z n0) with ($"-" ++ dec_Z n0). rewrite not_empty_etag. change (chr "-") with 45%N.
    rewrite rsplit_etag_pos by assumption. now rewrite py_int_dec, fromhex_hex.
  - destruct H as (-> & H & _ & _ & K). unfold decode. now rewrite Q, K.
  - destruct H as (-> & H & K). unfold decode. rewrite Q by assumption. nums.
    f_equal. f_equal. change $";" with [59%N]. destruct l as [|x l]; [reflexivity|].
    rewrite split_join; [|discriminate|intros y Hy; apply K in Hy; tauto].
    clear H ID. induction (x :: l) as [|y r IH]; [reflexivity|]. simpl.
    destruct (K y) as [K1 _]; [now left|]. apply str_eqb_neq in K1. rewrite K1. cbn [negb]. f_equal.
    apply IH. intros; apply K; now right.
Qed.

Lemma published_version n o : published n = Some o ->
  lookup_version ($"mdv" ++ dec_N n) = Some o /\ NoDup o /\ ~ In Fid o /\
  py_int (dec_N n) = Some (Z.of_N n) /\ ~ In 46%N (dec_N n) /\ ~ In 47%N (dec_N n).
Proof.
  intro H.
  assert (E : (n = 1 \/ n = 2 \/ n = 3 \/ n = 4 \/ n = 5 \/ n = 6)%N).
  { destruct n as [|p]; [discriminate|]. simpl in H.
    repeat (destruct p as [p|p|]; try discriminate; try (now auto 10)); auto 10. }
  assert (ND : NoDup o /\ ~ In Fid o).
  { destruct E as [->|[->|[->|[->|[->| ->]]]]]; apply (f_equal (fun x => match x with Some y => y | None => [] end)) in H;
      cbn in H; subst o; (split; [repeat constructor; simpl; intuition discriminate|simpl; intuition discriminate]). }
  destruct ND as [N1 N2]. split; [|split; [assumption|split; [assumption|]]].
  - rewrite <- H. destruct E as [->|[->|[->|[->|[->| ->]]]]]; reflexivity.
  - split; [|split].
    + pose proof (py_int_dec (Z.of_N n)) as K. destruct n; exact K.
    + intro I. apply dec_N_digits in I. discriminate.
    + intro I. apply dec_N_digits in I. discriminate.
Qed.

Lemma decode_shape f s v w : decode f s v = Ok w ->
  match f with
  | Ffile_id | Fsize => w = PNone \/ exists z, w = PInt z
  | Fid => w = PNone \/ exists t, w = PStr t
  | Ferrors => w = PNone \/ exists l, w = PStrs l
  | Fcreated | Fupdated => w = PNone \/ exists t, w = PStr t
  | _ => True
  end.
Proof.
  unfold decode. destruct (str_eqb s empty).
  - intro H. apply Ok_inj in H. subst. destruct f; auto.
  - destruct f; auto; intro H;
      try (destruct (py_int s); [|discriminate]; apply Ok_inj in H; subst; eauto);
      try (apply Ok_inj in H; subst; eauto).
    destruct (has c_pathsep s); cbn [rbind] in H; apply Ok_inj in H; subst; eauto.
Qed.

Lemma init_holds a :
  (a Ffile_id = PNone \/ exists z, a Ffile_id = PInt z) ->
  (a Fsize = PNone \/ exists z, a Fsize = PInt z) ->
  (a Fid = PNone \/ exists z, a Fid = PStr z) ->
  (a Ferrors = PNone \/ exists z, a Ferrors = PStrs z) ->
  (a Fcreated = PNone \/ exists z, a Fcreated = PStr z) ->
  (a Fupdated = PNone \/ exists z, a Fupdated = PStr z) ->
  exists m, meta_init a = Ok m /\ (forall f, holds m f (a f)) /\ m_kwargs m = [].
Proof.
  intros H1 H2 H3 H4 H5 H6. unfold meta_init, meta_init_x.
  assert (E1 : (negb (truthy (a Ffile_id)) && negb (is_none (a Ffile_id))
      && negb (py_eq (a Ffile_id) (PInt 0)))%bool = false).
  { destruct H1 as [->|[z ->]]; [reflexivity|]. simpl. now destruct (z =? 0)%Z. }
  rewrite E1.
  assert (E2 : match a Fid with PNone | PStr _ => false | _ => true end = false)
    by (destruct H3 as [->|[s ->]]; reflexivity).
  rewrite E2.
  assert (E3 : match a Fsize with PNone => Ok PNone | v => filesize v end
               = Ok (match a Fsize with PInt z => PSize z | v => v end))
    by (destruct H2 as [->|[z ->]]; reflexivity).
  rewrite E3. cbn [rbind].
  assert (E4 : errors_tuple (a Ferrors) = Ok (match a Ferrors with PStrs l => l | _ => [] end))
    by (destruct H4 as [->|[[|x l] ->]]; reflexivity).
  rewrite E4. cbn [rbind]. eexists. split; [reflexivity|]. split; [|reflexivity].
  intro f. destruct f; try (intro dp; reflexivity); try reflexivity; unfold holds; cbn [m_created m_created_ok m_updated m_updated_ok].
  - destruct H2 as [->|[z ->]]; reflexivity.
  - destruct H5 as [->|[t ->]]; split; reflexivity.
  - destruct H6 as [->|[t ->]]; split; reflexivity.
Qed.

Lemma read_version n o k (w : field -> pyval) (raw : field -> str) extra ide idv :
  published n = Some o -> (1 <= k <= length o) -> (k < length o -> extra = []) ->
  (forall f, In f (firstn k o) -> written n f (w f) (raw f)) ->
  (forall s, In s extra -> lacks "." s /\ lacks "/" s) ->
  written n Fid idv ide -> ide <> [] ->
  exists m,
    from_parts [ide; $".mdv" ++ dec_N n ++ $"." ++ join $"." (map raw (firstn k o) ++ extra)] = Ok m /\
    holds m Fid idv /\
    (forall f, In f (firstn k o) -> holds m f (w f)) /\
    (forall f, f <> Fid -> ~ In f (firstn k o) -> holds m f PNone).
Proof.
  intros Hp Hk Hx Hw He Hi Ni. destruct (published_version n o Hp) as (V1 & V2 & V3 & V4 & V5 & V6).
  set (fs := map raw (firstn k o) ++ extra).
  assert (Cf : Forall clean fs).
  { apply Forall_forall. intros x Hin. apply in_app_or in Hin as [Hin|Hin].
    - apply in_map_iff in Hin as (f & <- & Hin). eapply written_clean, Hw, Hin.
    - apply He in Hin. exact Hin. }
  assert (Nf : fs <> []).
  { intro K. apply app_eq_nil in K as [K _]. apply map_eq_nil in K.
    apply (f_equal (@length field)) in K. rewrite firstn_length in K. simpl in K. lia. }
  assert (D : $".mdv" ++ dec_N n ++ $"." ++ join $"." fs
              = 46%N :: ($"mdv" ++ dec_N n) ++ 46%N :: join [46%N] fs)
    by (rewrite <- app_assoc; reflexivity).
  rewrite D.
  assert (NDt : norm_part (46%N :: ($"mdv" ++ dec_N n) ++ 46%N :: join [46%N] fs)).
  { split; [reflexivity|]. change slash with 47%N. intros [K|K]; [discriminate|].
    rewrite !in_app_iff in K. destruct K as [[K|K]|[K|K]]; try discriminate.
    - simpl in K. intuition discriminate.
    - contradiction.
    - now apply clean_join in K. }
  assert (NIi : norm_part ide) by (apply clean_norm; [eapply written_clean; exact Hi|assumption]).
  unfold from_parts.
  change (last [ide; 46%N :: ($"mdv" ++ dec_N n) ++ 46%N :: join [46%N] fs] [])
    with (46%N :: ($"mdv" ++ dec_N n) ++ 46%N :: join [46%N] fs).
  change c_fieldsep with 46%N. cbn [split N.eqb Pos.eqb].
  rewrite split_app.
  2:{ intro K. apply in_app_or in K as [K|K]; [simpl in K; intuition discriminate|contradiction]. }
  rewrite split_join; [|assumption|intros x Hin; rewrite Forall_forall in Cf; now apply Cf in Hin as [Hin _]].
  change (skipn 3 ($"mdv" ++ dec_N n)) with (dec_N n). rewrite V4, V1.
  assert (CB : combine o fs = combine (firstn k o) (map raw (firstn k o))).
  { unfold fs. clear - Hk Hx. 
    assert (G : forall (o' rest : list field) (e : list str), (rest <> [] -> e = []) ->
       combine (o' ++ rest) (map raw o' ++ e) = combine o' (map raw o')).
    { induction o' as [|f o' IH]; intros rest e H.
      - cbn. destruct rest; [reflexivity|]. rewrite H by discriminate. reflexivity.
      - cbn. f_equal. now apply IH. }
    rewrite <- (firstn_skipn k o) at 1. apply G. intro H. apply Hx.
    destruct (Nat.lt_ge_cases k (length o)); [assumption|]. exfalso. apply H. now apply skipn_all2. }
  rewrite CB.
  assert (NDk : NoDup (firstn k o)).
  { rewrite <- (firstn_skipn k o) in V2. revert V2. generalize (skipn k o). clear.
    induction (firstn k o) as [|x l IH]; intros r H; [constructor|].
    inversion H as [|? ? H1 H2]; subst. constructor; [|eapply IH; exact H2].
    intro K. apply H1. apply in_or_app. now left. }
  assert (MF : map fst (combine (firstn k o) (map raw (firstn k o))) = firstn k o)
    by (apply map_fst_combine; rewrite map_length; lia).
  destruct (decode_all_ok (combine (firstn k o) (map raw (firstn k o))) (Z.of_N n) w no_args) as (a' & A1 & A2 & A3).
  - now rewrite MF.
  - intros f s Hin. rewrite <- (app_nil_r (map raw (firstn k o))) in Hin.
    pose proof (in_combine_l _ _ _ _ Hin) as Hl. apply in_combine_map in Hin as ->.
    now apply written_decode, Hw.
  - rewrite MF in *. rewrite A1. cbn [rbind].
    rewrite pp_of_list_rel by (repeat constructor; try apply NIi; try apply NDt).
    change (pp_str (pp_parent (mkPP false [ide; 46%N :: ($"mdv" ++ dec_N n) ++ 46%N :: join [46%N] fs]))) with ide.
    rewrite (written_decode n Fid idv ide Hi). cbn [rbind].
    assert (Sh : forall f, f <> Fid -> (exists s, decode f s (Z.of_N n) = Ok (a' f)) \/ a' f = no_args f).
    { intros f Hf. destruct (in_dec (fun x y : field => ltac:(decide equality)) f (firstn k o)).
      - left. exists (raw f). rewrite A2 by assumption. now apply written_decode, Hw.
      - right. now apply A3. }
    destruct (init_holds (set_arg Fid idv a')) as (m & M1 & M2 & _);
      rewrite ?set_arg_same; rewrite ?set_arg_other by discriminate;
      try (match goal with |- a' ?f = PNone \/ _ =>
         destruct (Sh f) as [[s K]|K]; [discriminate|apply decode_shape in K; exact K|rewrite K; simpl; eauto] end).
    + apply (decode_shape Fid ide (Z.of_N n)). now apply written_decode.
    + exists m. split; [exact M1|]. split; [|split].
      * specialize (M2 Fid). now rewrite set_arg_same in M2.
      * intros f Hf. specialize (M2 f). rewrite set_arg_other in M2.
        -- now rewrite A2 in M2.
        -- intros <-. apply V3. rewrite <- (firstn_skipn k o). apply in_or_app. now left.
      * intros f Hf1 Hf2. specialize (M2 f). rewrite set_arg_other in M2 by congruence.
        rewrite A3 in M2 by assumption. destruct f; exact M2.
Qed.

Lemma read_meta_version ide rest :
  from_parts [ide; $".meta." ++ rest] = Err ValueError.
Proof.
  unfold from_parts. change (last [ide; $".meta." ++ rest] []) with ($".meta." ++ rest).
  change ($".meta." ++ rest) with (46%N :: $"meta" ++ 46%N :: rest).
  change c_fieldsep with 46%N. cbn [split N.eqb Pos.eqb].
  rewrite split_app by (simpl; intuition discriminate). reflexivity.
Qed.
