(** Proofs about the extended attribute format. *)
From Coq Require Import String NArith ZArith Bool List Lia Permutation.
From Verif Require Import Model.Py Model.Meta Model.MetaEncode Model.MetaXattr Model.MetaSymlink.
From Verif Require Import Spec.MetaSpec Spec.XattrSpec Proofs.PyLemmas Proofs.MetaSymlinkProofs.
Import ListNotations.

(** ** UTF-8 *)
Lemma encodable_scalar s : encodable s <-> forallb scalar s = true.
Proof.
  rewrite forallb_forall. unfold encodable, scalar, surrogate. split; intros H c Hc; apply H in Hc.
  - apply andb_true_iff. split; [apply N.ltb_lt; lia|]. apply negb_true_iff, andb_false_iff.
    destruct Hc; [left|right]; apply N.leb_gt; lia.
  - apply andb_true_iff in Hc as [H1 H2]. apply N.ltb_lt in H1.
    apply negb_true_iff, andb_false_iff in H2 as [H2|H2]; apply N.leb_gt in H2; lia.
Qed.

Lemma enc_ok s : encodable s -> exists b, enc s = Ok b /\ dec b = Ok s /\ utf8_enc s = Some b.
Proof.
  intro H. apply encodable_scalar in H. unfold enc, dec.
  destruct (utf8_enc s) as [b|] eqn:E.
  - exists b. apply utf8_roundtrip in E as ->. auto.
  - unfold utf8_enc in E. now rewrite H in E.
Qed.

Lemma enc_inv s b : enc s = Ok b -> encodable s /\ dec b = Ok s /\ utf8_enc s = Some b.
Proof.
  unfold enc, dec. destruct (utf8_enc s) as [b'|] eqn:E; [|discriminate]. intro H.
  apply Ok_inj in H. subst b'. split.
  - apply encodable_scalar. unfold utf8_enc in E. now destruct (forallb scalar s).
  - now apply utf8_roundtrip in E as ->.
Qed.

Lemma lstrip_chars s c : In c s -> is_space c = true \/ In c (lstrip s).
Proof.
  induction s as [|x s IH]; intros H; [destruct H|]. simpl.
  destruct (is_space x) eqn:E; [|now right]. destruct H as [->|H]; auto.
Qed.

Lemma strip_chars s c : In c s -> is_space c = true \/ In c (strip s).
Proof.
  intro H. apply lstrip_chars in H as [H|H]; [now left|].
  apply in_rev in H. apply lstrip_chars in H as [H|H]; [now left|].
  right. unfold strip. now rewrite <- in_rev.
Qed.

Lemma digit_lt c : is_digit c = true -> (c < 128)%N.
Proof. unfold is_digit. rewrite andb_true_iff, !N.leb_le. lia. Qed.
Lemma space_lt c : is_space c = true -> (c < 128)%N.
Proof.
  unfold is_space. rewrite orb_true_iff, andb_true_iff, N.eqb_eq, !N.leb_le. lia.
Qed.

Lemma pdigits_ascii s : forall acc z, pdigits acc s = Some z -> forall c, In c s -> (c < 128)%N.
Proof.
  assert (G : forall n s, length s <= n -> forall acc z, pdigits acc s = Some z -> forall c, In c s -> (c < 128)%N).
  { clear s. induction n as [|n IH]; intros s L acc z H c Hc.
    - destruct s; [destruct Hc|simpl in L; lia].
    - destruct s as [|x s]; [destruct Hc|]. simpl in H, L. destruct (is_digit x) eqn:E.
      + destruct Hc as [<-|Hc]; [now apply digit_lt|]. eapply IH; [|exact H|exact Hc]. lia.
      + destruct (N.eqb_spec x 95) as [->|]; [|discriminate].
        destruct s as [|d s]; [discriminate|]. destruct (is_digit d) eqn:E2; [|discriminate].
        destruct Hc as [<-|[<-|Hc]]; [reflexivity|now apply digit_lt|].
        eapply IH; [|exact H|exact Hc]. simpl in L. lia. }
  intros acc z. now apply (G (length s)).
Qed.

Lemma pnat_ascii s z : pnat s = Some z -> forall c, In c s -> (c < 128)%N.
Proof.
  destruct s as [|x s]; [discriminate|]. simpl. destruct (is_digit x) eqn:E; [|discriminate].
  intros H c [<-|Hc]; [now apply digit_lt|]. eapply pdigits_ascii; eauto.
Qed.

Lemma py_int_ascii s z : py_int s = Some z -> ascii_str s = true.
Proof.
  intro H. apply forallb_forall. intros c Hc. apply N.ltb_lt.
  apply strip_chars in Hc as [Hc|Hc]; [now apply space_lt|].
  unfold py_int in H. destruct (strip s) as [|x r]; [destruct Hc|].
  destruct (N.eqb_spec x 45) as [->|].
  - destruct (pnat r) eqn:E; [|discriminate]. destruct Hc as [<-|Hc]; [reflexivity|]. eapply pnat_ascii; eauto.
  - destruct (N.eqb_spec x 43) as [->|].
    + destruct (pnat r) eqn:E; [|discriminate]. destruct Hc as [<-|Hc]; [reflexivity|]. eapply pnat_ascii; eauto.
    + destruct (pnat (x :: r)) eqn:E; [|discriminate]. eapply pnat_ascii; eauto.
Qed.

Lemma enc1_head c : (128 <= c)%N -> exists x r, utf8_enc1 c = x :: r /\ (128 <= x)%N.
Proof.
  intro H. unfold utf8_enc1. destruct (N.ltb_spec c 128); [lia|].
  destruct (N.ltb c 2048); [|destruct (N.ltb c 65536)];
    (eexists _, _; split; [reflexivity|]; generalize (c / 64)%N, (c / 4096)%N, (c / 262144)%N; lia).
Qed.

Lemma utf8_bytes s b : utf8_enc s = Some b -> map Byte.to_N b = flat_map utf8_enc1 s.
Proof.
  unfold utf8_enc. destruct (forallb scalar s) eqn:E; [|discriminate]. intro H.
  assert (K : b = map byte_of (flat_map utf8_enc1 s)) by congruence. rewrite K. clear H K.
  rewrite map_map, (map_ext_in _ (fun x => x)), map_id; [reflexivity|].
  intros x Hx. apply byte_of_to_N. apply in_flat_map in Hx as (c & Hc & Hx).
  eapply utf8_enc1_lt; [|exact Hx]. rewrite forallb_forall in E. now apply E.
Qed.

Lemma int_bytes_enc s b : utf8_enc s = Some b -> int_bytes b = py_int s.
Proof.
  intro H. unfold int_bytes. destruct (ascii_str s) eqn:A.
  - rewrite (utf8_enc_ascii s A) in H. assert (K : b = map byte_of s) by congruence.
    rewrite K, bytes_to_str_ascii; auto.
  - destruct (py_int s) eqn:P; [apply py_int_ascii in P; congruence|].
    rewrite (utf8_bytes s b H). destruct (py_int (flat_map utf8_enc1 s)) eqn:Q; [|reflexivity].
    exfalso. apply py_int_ascii in Q. apply not_true_iff_false in A. apply A.
    unfold ascii_str in *. rewrite forallb_forall in *. intros c Hc. apply N.ltb_lt.
    destruct (N.lt_ge_cases c 128) as [|G]; [assumption|].
    destruct (enc1_head c G) as (x & r & E & Hx). exfalso.
    assert (I : In x (flat_map utf8_enc1 s)) by (apply in_flat_map; exists c; split; [assumption|rewrite E; now left]).
    apply Q, N.ltb_lt in I. lia.
Qed.

Lemma iso_ascii d : ascii_str (isoformat d) = true.
Proof.
  apply forallb_forall. intros c Hc. apply isoformat_chars in Hc. apply N.ltb_lt.
  unfold iso_char in Hc. rewrite !orb_true_iff, !N.eqb_eq in Hc.
  destruct Hc as [[[[[[H|H]|H]|H]|H]|H]|H]; try lia. now apply digit_lt.
Qed.

Lemma replace_fuel_prefix o old new a : forall n s, ~ In o a ->
  replace_fuel (length a + n) (o :: old) new (a ++ s) = a ++ replace_fuel n (o :: old) new s.
Proof.
  induction a as [|x a IH]; intros n s H; [reflexivity|].
  cbn [length app Nat.add]. cbn [replace_fuel].
  assert (E : startswith (x :: a ++ s) (o :: old) = false).
  { unfold startswith. cbn [prefixb]. destruct (N.eqb_spec o x); [subst; exfalso; apply H; now left|reflexivity]. }
  rewrite E, IH; [reflexivity|]. intro; apply H; now right.
Qed.

Lemma pad_len n v : length (pad n v) = n.
Proof. unfold pad. rewrite rev_length. revert v. induction n; intro v; [reflexivity|]. simpl. now rewrite IHn. Qed.

Lemma iso_length d : 10 <= length (isoformat d).
Proof.
  unfold isoformat.
  set (a := pad 4 (dt_year d) ++ $"-" ++ pad 2 (dt_month d) ++ $"-" ++ pad 2 (dt_day d)).
  assert (E : exists r, dt_isoformat d = a ++ r).
  { unfold dt_isoformat, a. eexists. rewrite <- !app_assoc. reflexivity. }
  destruct E as [r E]. rewrite E. unfold replace. unfold replace1. rewrite map_app, app_length.
  fold (replace1 (chr ".") (chr ",") a). fold (replace1 (chr ".") (chr ",") r).
  assert (N : ~ In 43%N (replace1 (chr ".") (chr ",") a)).
  { intro K. apply replace1_In in K as [K|[K _]]; [discriminate|]. unfold a in K. rewrite !in_app_iff in K.
    destruct K as [K|[K|[K|[K|K]]]]; try (apply pad_digits in K; discriminate); simpl in K; intuition discriminate. }
  change $"+00:00" with (43%N :: $"00:00").
  rewrite replace_fuel_prefix by assumption. rewrite app_length, replace1_length.
  unfold a. rewrite !app_length, !pad_len. simpl. lia.
Qed.

Lemma enc_ascii_len s b : ascii_str s = true -> utf8_enc s = Some b -> length b = length s.
Proof.
  intros A H. rewrite (utf8_enc_ascii s A) in H. assert (K : b = map byte_of s) by congruence.
  rewrite K. apply map_length.
Qed.

(** ** One field *)
Section Codec.
Variable dp : pyval -> res pyval.
Variable legacy : bytes -> res pyval.

Lemma blank_mval f v : (is_none (mval f v) || empty_iterable (mval f v))%bool = blank v.
Proof. destruct f, v as [| | |[]|[]| |[]|]; reflexivity. Qed.

Lemma encodable_join l : (forall e, In e l -> encodable e) -> encodable (join $";" l).
Proof.
  intros H c Hc. apply join_In in Hc as [[<-|[]]|[x [H1 H2]]]; [left; reflexivity|]. now apply (H x).
Qed.

Lemma encodable_ascii s : ascii_str s = true -> encodable s.
Proof. unfold ascii_str. rewrite forallb_forall. intros H c Hc. apply H, N.ltb_lt in Hc. left. lia. Qed.

Lemma dec_Z_ascii z : ascii_str (dec_Z z) = true.
Proof.
  apply forallb_forall. intros c Hc. apply N.ltb_lt. apply dec_Z_chars in Hc as [Hc| ->]; [now apply digit_lt|reflexivity].
Qed.

Lemma hex_ascii b : ascii_str (hex b) = true.
Proof.
  apply forallb_forall. intros c Hc. apply N.ltb_lt. apply hex_chars in Hc. unfold is_hexdigit in Hc.
  apply orb_true_iff in Hc as [Hc|Hc]; [now apply digit_lt|].
  apply andb_true_iff in Hc as [_ Hc]. apply N.leb_le in Hc. lia.
Qed.

Lemma ascii_app a b : ascii_str (a ++ b) = (ascii_str a && ascii_str b)%bool.
Proof. apply forallb_app. Qed.

Lemma x_enc_str f s : s <> [] -> x_encode f (PStr s) = do b <- enc s ; Ok (PBytes b).
Proof. intro H. destruct s; [congruence|]. unfold x_encode, bytes_encode. destruct f; reflexivity. Qed.

Lemma field_fwd f v : typed_field f v -> xattr_safe_field f v -> blank v = false ->
  exists b, x_encode f (mval f v) = Ok (PBytes b) /\ x_decode legacy f b = Ok (stored f v).
Proof.
  assert (Z1 : forall z, exists b, enc (dec_Z z) = Ok b /\ int_bytes b = Some z).
  { intro z. destruct (enc_ok (dec_Z z)) as (b & E1 & _ & E3); [apply encodable_ascii, dec_Z_ascii|].
    exists b. split; [assumption|]. now rewrite (int_bytes_enc _ _ E3), py_int_dec. }
  assert (S1 : forall f s, match f with Fname | Fid | Fparent_id | Fold_id | Fmode | Fchecksum_cypher => True | _ => False end ->
     encodable s -> s <> [] ->
     exists b, x_encode f (PStr s) = Ok (PBytes b) /\ x_decode legacy f b = Ok (PStr s)).
  { intros g s Hg He Hs. destruct (enc_ok s He) as (b & E1 & E2 & _). exists b.
    rewrite x_enc_str, E1 by assumption. split; [reflexivity|].
    destruct g; try contradiction; cbn [x_decode]; rewrite E2; reflexivity. }
  assert (D1 : forall d, exists b, enc (isoformat d) = Ok b /\ dec b = Ok (isoformat d) /\ Nat.eqb (length b) 8 = false).
  { intro d. destruct (enc_ok (isoformat d)) as (b & E1 & E2 & E3); [apply encodable_ascii, iso_ascii|].
    exists b. repeat split; auto. apply Nat.eqb_neq. rewrite (enc_ascii_len _ _ (iso_ascii d) E3).
    pose proof (iso_length d). lia. }
  intros T S B. destruct f; simpl in T.
  all: try (destruct T as [->|T]; [discriminate|]).
  all: try (destruct T as [s ->]; simpl in S; apply S1; [exact I|exact S|intros ->; discriminate]).
  all: try (destruct T as [z ->]; destruct (Z1 z) as (b & E1 & E2); exists b;
            unfold x_encode, bytes_encode; cbn; rewrite E1; cbn; rewrite E2; auto; fail).
  - destruct T as [z [-> _]]; destruct (Z1 z) as (b & E1 & E2); exists b;
            unfold x_encode, bytes_encode; cbn; rewrite E1; cbn; rewrite E2; auto.
  - destruct T as [d ->]. destruct (D1 d) as (b & E1 & E2 & E3). exists b.
    unfold x_encode, bytes_encode. cbn [is_none orb empty_iterable iterable andb mval str_encode rbind].
    rewrite E1. split; [reflexivity|]. cbn [x_decode]. rewrite E3, E2. reflexivity.
  - destruct T as [d ->]. destruct (D1 d) as (b & E1 & E2 & E3). exists b.
    unfold x_encode, bytes_encode. cbn [is_none orb empty_iterable iterable andb mval str_encode rbind].
    rewrite E1. split; [reflexivity|]. cbn [x_decode]. rewrite E3, E2. reflexivity.
  - destruct T as [b ->]. exists b. destruct b; [discriminate|]. split; reflexivity.
  - destruct T as [c [n ->]]. simpl in S. destruct (enc_ok (hex c ++ $"-" ++ dec_Z n)) as (b & E1 & E2 & E3).
    + apply encodable_ascii. rewrite !ascii_app, hex_ascii, dec_Z_ascii. reflexivity.
    + exists b. unfold x_encode, bytes_encode. cbn [is_none orb empty_iterable iterable andb truthy negb mval str_encode rbind].
      rewrite E1. split; [reflexivity|]. cbn [x_decode]. rewrite E2. cbn [rbind]. change (chr "-") with 45%N.
      rewrite rsplit_etag_pos by assumption. now rewrite py_int_dec, fromhex_hex.
  - destruct T as [[z ->]|[s ->]].
    + destruct (Z1 z) as (b & E1 & E2); exists b;
            unfold x_encode, bytes_encode; cbn; rewrite E1; cbn; rewrite E2; auto.
    + simpl in S. destruct S as [S1' S2]. destruct (enc_ok s S1') as (b & E1 & E2 & E3). exists b.
      cbn [mval]. rewrite x_enc_str, E1 by (intros ->; discriminate). split; [reflexivity|].
      cbn [x_decode]. rewrite (int_bytes_enc _ _ E3), S2, E2. reflexivity.
  - destruct T as [l ->]. simpl in S.
    destruct (enc_ok (join $";" l)) as (b & E1 & E2 & E3).
    + apply encodable_join. intros e He. now apply S.
    + exists b. unfold x_encode, bytes_encode. destruct l as [|x l]; [discriminate|].
      cbn [is_none orb empty_iterable iterable andb truthy negb mval str_encode join_semi rbind].
      rewrite E1. split; [reflexivity|]. cbn [x_decode]. rewrite E2. cbn [rbind stored].
      f_equal. f_equal. change (chr ";") with 59%N. change $";" with [59%N].
      rewrite split_join; [|discriminate|intros y Hy; now apply S in Hy].
      clear E1 E2 E3 B. induction (x :: l) as [|y r IH]; [reflexivity|]. simpl.
      destruct (S y) as (_ & K & _); [now left|]. apply str_eqb_neq in K. rewrite K. cbn [negb]. f_equal.
      apply IH. intros e He. apply S. now right.
Qed.

Lemma field_bwd f v b : typed_field f v -> blank v = false ->
  x_encode f (mval f v) = Ok (PBytes b) ->
  (f = Fuser_id \/ f = Fetag \/ f = Ferrors -> x_decode legacy f b = Ok (stored f v)) ->
  xattr_safe_field f v.
Proof.
  assert (S1 : forall f s b, s <> [] -> x_encode f (PStr s) = Ok (PBytes b) ->
     encodable s /\ dec b = Ok s /\ utf8_enc s = Some b).
  { intros g s c Hs H. rewrite x_enc_str in H by assumption. destruct (enc s) as [c'|] eqn:E; [|discriminate].
    cbn [rbind] in H. assert (c' = c) by congruence. subst. now apply enc_inv. }
  intros T B E D. destruct f; simpl in T.
  all: try (destruct T as [->|T]; [exact I|]).
  all: try (destruct T as [s ->]; apply S1 in E; [exact (proj1 E)|intros ->; discriminate]).
  all: try (destruct v; exact I).
  - destruct T as [c [n ->]]. destruct n as [|p|p]; simpl; try lia. exfalso.
    unfold x_encode, bytes_encode in E. cbn [is_none orb empty_iterable iterable andb truthy negb mval str_encode rbind] in E.
    destruct (enc _) as [b'|] eqn:E1 in E; [|discriminate]. cbn [rbind] in E. assert (b' = b) by congruence. subst b'.
    apply enc_inv in E1 as (_ & E2 & _). specialize (D (or_intror (or_introl eq_refl))).
    cbn [x_decode] in D. rewrite E2 in D. cbn [rbind] in D. change (chr "-") with 45%N in D.
    rewrite rsplit_etag_neg in D. rewrite fromhex_hex_app in D. destruct (py_int _); discriminate.
  - destruct T as [[z ->]|[s ->]]; [exact I|].
    apply S1 in E as (E1 & E2 & E3); [|intros ->; discriminate]. simpl. split; [assumption|].
    specialize (D (or_introl eq_refl)). cbn [x_decode] in D. rewrite (int_bytes_enc _ _ E3) in D.
    destruct (py_int s); [discriminate|reflexivity].
  - destruct T as [l ->]. destruct l as [|x l]; [discriminate|].
    unfold x_encode, bytes_encode in E. cbn [is_none orb empty_iterable iterable andb truthy negb mval str_encode join_semi rbind] in E.
    destruct (enc _) as [b'|] eqn:E1 in E; [|discriminate]. cbn [rbind] in E. assert (b' = b) by congruence. subst b'.
    apply enc_inv in E1 as (E1 & E2 & _). specialize (D (or_intror (or_intror eq_refl))).
    cbn [x_decode] in D. rewrite E2 in D. cbn [rbind stored] in D.
    assert (K : filter (fun x => negb (str_eqb x [])) (split (chr ";") (join $";" (x :: l))) = x :: l) by congruence.
    intros e He. rewrite <- K in He. apply filter_In in He as [He1 He2]. split; [|split].
    + intros c Hc. apply E1. rewrite <- (join_split (chr ";") (join $";" (x :: l))).
      revert He1 Hc. generalize (split (chr ";") (join $";" (x :: l))). clear.
      induction l as [|y r IH]; intros H1 H2; [destruct H1|]. destruct H1 as [->|H1].
      * destruct r; [assumption|]. rewrite join_cons. apply in_or_app. now left.
      * destruct r as [|z r]; [destruct H1|]. rewrite join_cons. apply in_or_app. right. apply in_or_app. right. auto.
    + intros ->. discriminate.
    + eapply split_parts. exact He1.
Qed.

(** ** Keys *)
Lemma x_key_under p k : x_key p k = under p k.
Proof. destruct p as [[|c p]|]; reflexivity. Qed.

Lemma field_name_ascii f : ascii_str (field_name f) = true.
Proof. destruct f; reflexivity. Qed.

Lemma key_ok prefix f : prefix_ok prefix ->
  exists kb, enc (x_key prefix (field_name f)) = Ok kb /\ dec kb = Ok (x_key prefix (field_name f)).
Proof.
  intro P. destruct (enc_ok (x_key prefix (field_name f))) as (b & E1 & E2 & _); [|eauto].
  destruct prefix as [[|c p]|]; cbn [x_key]; try (apply encodable_ascii, field_name_ascii).
  intros x Hx. rewrite !in_app_iff in Hx. destruct Hx as [Hx|[Hx|Hx]].
  - now apply P.
  - destruct Hx as [<-|[]]. left. reflexivity.
  - revert Hx. apply encodable_ascii, field_name_ascii.
Qed.

Lemma deprefix_key prefix k : deprefix prefix (x_key prefix k) = Some k.
Proof.
  destruct prefix as [[|c p]|]; try reflexivity. cbn [x_key deprefix].
  rewrite app_assoc. rewrite startswith_app, skipn_app_exact. reflexivity.
Qed.

Lemma deprefix_some prefix k k' : deprefix prefix k = Some k' -> k = x_key prefix k'.
Proof.
  destruct prefix as [[|c p]|]; cbn [deprefix x_key]; try congruence.
  destruct (startswith k ((c :: p) ++ $".")) eqn:E; [|discriminate]. intro H.
  apply startswith_spec in E as [r ->]. rewrite skipn_app_exact in H. rewrite app_assoc. congruence.
Qed.

Lemma deprefix_foreign prefix kb : foreign prefix kb <->
  exists k, dec kb = Ok k /\ deprefix prefix k = None.
Proof.
  unfold foreign, dec. split; intros (k & H1 & H2); exists k.
  - rewrite H1. split; [reflexivity|]. destruct (deprefix prefix k) as [k'|] eqn:E; [|reflexivity].
    apply deprefix_some in E. rewrite x_key_under in E. now apply H2 in E.
  - destruct (utf8_dec kb) as [k0|]; [|discriminate]. apply Ok_inj in H1. subst k0. split; [reflexivity|].
    intros k' ->. rewrite <- x_key_under, deprefix_key in H2. discriminate.
Qed.

Lemma field_of_name f : field_of (field_name f) = Some f.
Proof. destruct f; reflexivity. Qed.

Lemma name_inj f g : field_name f = field_name g -> f = g.
Proof. intro H. pose proof (field_of_name f) as K. rewrite H, field_of_name in K. congruence. Qed.

(** ** Reading *)
Definition own_key prefix f kb := dec kb = Ok (x_key prefix (field_name f)).

Lemma read_map prefix ys (g : field -> option bytes) (w : field -> pyval) :
  (forall k b, In (k, b) ys -> foreign prefix k \/ exists f, own_key prefix f k /\ g f = Some b) ->
  (forall f b, g f = Some b -> exists k, own_key prefix f k /\ In (k, b) ys) ->
  (forall f b, g f = Some b -> x_decode legacy f b = Ok (w f)) ->
  from_xattrs legacy ys prefix
  = meta_init (fun f => match g f with Some _ => w f | None => no_args f end).
Proof.
  intros H1 H2 H3.
  assert (G : exists kws, x_kwargs legacy prefix ys = Ok kws /\
    (forall k v, In (k, v) kws -> exists f b, k = field_name f /\ v = w f /\ g f = Some b) /\
    (forall f k b, own_key prefix f k -> In (k, b) ys -> In (field_name f, w f) kws)).
  { clear H2. induction ys as [|[k b] ys IH].
    - exists []. split; [reflexivity|]. split; intros; contradiction.
    - destruct IH as (kws & K1 & K2 & K3). { intros; apply H1; now right. }
      cbn [x_kwargs]. destruct (H1 k b) as [F|(f & O & E)]; [now left| |].
      + apply deprefix_foreign in F as (k0 & F1 & F2). rewrite F1. cbn [rbind]. rewrite F2.
        exists kws. split; [assumption|]. split; [assumption|].
        intros f k' b' O [I|I]; [|eauto]. exfalso. inversion I; subst. unfold own_key in O. rewrite F1 in O.
        apply Ok_inj in O. subst. rewrite deprefix_key in F2. discriminate.
      + unfold own_key in O. rewrite O. cbn [rbind]. rewrite deprefix_key, field_of_name, (H3 f b E), K1. cbn [rbind].
        eexists. split; [reflexivity|]. split.
        * intros k' v [I|I]; [inversion I; subst; eauto|eauto].
        * intros f' k' b' O' [I|I]; [|right; eauto]. left. inversion I; subst. unfold own_key in O'.
          rewrite O in O'. apply Ok_inj in O'. apply (f_equal (deprefix prefix)) in O'.
          rewrite !deprefix_key in O'. injection O' as O'. apply name_inj in O'. now subst. }
  destruct G as (kws & K1 & K2 & K3). unfold from_xattrs. rewrite K1. cbn [rbind]. unfold call_pathmeta.
  assert (NS : existsb (fun p => str_eqb (fst p) $"self") kws = false).
  { apply not_true_iff_false. intro C. apply existsb_exists in C as ([k v] & I & C). cbn [fst] in C.
    apply str_eqb_eq in C. apply K2 in I as (f & b & I & _). rewrite I in C. destruct f; discriminate. }
  assert (NX : extras kws = []).
  { clear NS K1 K3. induction kws as [|[k v] kws IH]; [reflexivity|].
    unfold extras. cbn [flat_map]. fold (extras kws). rewrite IH by (intros; apply K2; now right).
    destruct (K2 k v) as (f & b & -> & _); [now left|]. cbn [fst]. now rewrite field_of_name. }
  rewrite NS, NX. apply meta_init_ext. intro f. unfold kw_args, lookup.
  destruct (find (fun p => str_eqb (fst p) (field_name f)) kws) as [[k v]|] eqn:E.
  - cbn [option_map snd]. apply find_some in E as [E1 E2]. cbn [fst] in E2. apply str_eqb_eq in E2. subst k.
    apply K2 in E1 as (f' & b & N & -> & E). apply name_inj in N. subst f'. now rewrite E.
  - cbn [option_map]. destruct (g f) as [b|] eqn:Eg; [|reflexivity]. exfalso.
    destruct (H2 f b Eg) as (k & O & I). pose proof (K3 f k b O I) as J.
    apply (find_none _ _ E) in J. cbn [fst] in J. rewrite str_eqb_refl in J. discriminate.
Qed.

(** ** Writing *)
Lemma write_inv l m prefix xs : as_xattrs_from dp l m prefix = Ok xs ->
  (forall k b, In (k, b) xs <-> exists f v, In f l /\ getf dp m f = Ok v /\
      (is_none v || empty_iterable v)%bool = false /\
      enc (x_key prefix (field_name f)) = Ok k /\ x_encode f v = Ok (PBytes b)).
Proof.
  revert xs. induction l as [|f l IH]; intros xs H k b; cbn [as_xattrs_from] in H.
  - apply Ok_inj in H. subst. split; [intros []|]. intros (f & v & [] & _).
  - destruct (getf dp m f) as [v|] eqn:E1; [|discriminate]. cbn [rbind] in H.
    destruct (is_none v || empty_iterable v)%bool eqn:E2.
    + rewrite (IH xs H k b). split; intros (f' & v' & I & J).
      * exists f', v'. split; [now right|assumption].
      * destruct I as [->|I]; [|now exists f', v'].
        exfalso. destruct J as (J1 & J2 & _). congruence.
    + destruct (x_encode f v) as [w|] eqn:E3; [|discriminate]. cbn [rbind] in H.
      destruct (enc (x_key prefix (field_name f))) as [kb|] eqn:E4; [|discriminate]. cbn [rbind] in H.
      destruct w as [| | | |b0| | |]; try discriminate.
      destruct (as_xattrs_from dp l m prefix) as [out|] eqn:E5; [|discriminate]. cbn [rbind] in H.
      apply Ok_inj in H. subst xs. split.
      * intros [I|I].
        -- inversion I; subst. exists f, v. repeat split; auto. now left.
        -- apply (IH out eq_refl) in I as (f' & v' & I & J). exists f', v'. split; [now right|assumption].
      * intros (f' & v' & [->|I] & J1 & J2 & J3 & J4).
        -- left. congruence.
        -- right. apply (IH out eq_refl). now exists f', v'.
Qed.

Lemma write_ok l m prefix : prefix_ok prefix ->
  (forall f, In f l -> exists v, getf dp m f = Ok v /\
     ((is_none v || empty_iterable v)%bool = false -> exists b, x_encode f v = Ok (PBytes b))) ->
  exists xs, as_xattrs_from dp l m prefix = Ok xs.
Proof.
  intros P. induction l as [|f l IH]; intros H; cbn [as_xattrs_from]; [eauto|].
  destruct (H f) as (v & H1 & H2); [now left|]. rewrite H1. cbn [rbind].
  destruct IH as [xs IH]; [intros; apply H; now right|].
  destruct (is_none v || empty_iterable v)%bool; [eauto|].
  destruct (H2 eq_refl) as [b Hb]. rewrite Hb. cbn [rbind].
  destruct (key_ok prefix f P) as (kb & K & _). rewrite K. cbn [rbind]. rewrite IH. cbn [rbind]. eauto.
Qed.

Lemma x_fields_all f : In f x_fields.
Proof. destruct f; simpl; tauto. Qed.

(** the bytes written for each field *)
Definition wr (a : args) (f : field) : option bytes :=
  if blank (a f) then None
  else match x_encode f (mval f (a f)) with Ok (PBytes b) => Some b | _ => None end.

Lemma wr_safe a f : typed a -> xattr_safe a ->
  forall b, wr a f = Some b -> x_decode legacy f b = Ok (stored f (shown a f)).
Proof.
  intros T S b H. unfold wr in H. unfold shown. destruct (blank (a f)) eqn:B; [discriminate|].
  destruct (field_fwd f (a f) (T f) (S f) B) as (b' & E1 & E2). rewrite E1 in H. congruence.
Qed.

Lemma wr_none a f : typed a -> xattr_safe a -> wr a f = None <-> blank (a f) = true.
Proof.
  intros T S. unfold wr. destruct (blank (a f)) eqn:B; [tauto|].
  destruct (field_fwd f (a f) (T f) (S f) B) as (b' & E1 & E2). rewrite E1. split; discriminate.
Qed.

Lemma shown_typed a : typed a -> typed (shown a).
Proof.
  intros T f. unfold shown. specialize (T f). destruct (blank (a f)) eqn:B; [|assumption].
  destruct f; simpl; auto. now exists [].
Qed.

Lemma written_xs a m prefix : typed a -> meta_init a = Ok m -> xattr_safe a -> prefix_ok prefix ->
  exists xs, as_xattrs dp m prefix = Ok xs /\
    forall k b, In (k, b) xs <-> exists f, enc (x_key prefix (field_name f)) = Ok k /\ wr a f = Some b.
Proof.
  intros T I S P. destruct (init_typed a T) as (m0 & I0 & G & _). assert (m0 = m) by congruence. subst m0.
  destruct (write_ok x_fields m prefix P) as [xs Hx].
  { intros f _. exists (mval f (a f)). split; [apply G|]. rewrite blank_mval. intro B.
    destruct (field_fwd f (a f) (T f) (S f) B) as (b & E & _). eauto. }
  exists xs. split; [exact Hx|]. intros k b. rewrite (write_inv _ _ _ _ Hx k b). split.
  - intros (f & v & _ & J1 & J2 & J3 & J4). exists f. split; [assumption|]. rewrite G in J1.
    apply Ok_inj in J1. subst v. rewrite blank_mval in J2. unfold wr. now rewrite J2, J4.
  - intros (f & J1 & J2). exists f, (mval f (a f)). split; [apply x_fields_all|]. split; [apply G|].
    unfold wr in J2. rewrite blank_mval. destruct (blank (a f)); [discriminate|]. split; [reflexivity|].
    split; [assumption|]. destruct (x_encode f (mval f (a f))) as [[]|]; congruence.
Qed.

Lemma init_wr a (g : field -> option bytes) : typed a ->
  (forall f, g f = None <-> blank (a f) = true) ->
  exists m', meta_init (fun f => match g f with Some _ => stored f (shown a f) | None => no_args f end) = Ok m' /\
    carries m' (shown a).
Proof.
  intros T H. apply init_stored; [now apply shown_typed|]. intro f. unfold shown.
  destruct (g f) eqn:E.
  - reflexivity.
  - apply H in E. rewrite E. destruct f; reflexivity.
Qed.

Theorem xattr_round_trip a m prefix :
  typed a -> meta_init a = Ok m -> prefix_ok prefix -> xattr_safe a ->
  exists xs m', as_xattrs dp m prefix = Ok xs /\ carries m' (shown a) /\
    forall others ys,
      (forall k b, In (k, b) others -> foreign prefix k) -> Permutation ys (xs ++ others) ->
      from_xattrs legacy ys prefix = Ok m'.
Proof.
  intros T I P S. destruct (written_xs a m prefix T I S P) as (xs & Hx & Hin).
  destruct (init_wr a (wr a) T (fun f => wr_none a f T S)) as (m' & M1 & M2).
  exists xs, m'. split; [assumption|]. split; [assumption|]. intros others ys Ho Hp.
  rewrite <- M1. apply read_map.
  - intros k b Hk. apply (Permutation_in _ Hp) in Hk. apply in_app_or in Hk as [Hk|Hk]; [|left; eauto].
    right. apply Hin in Hk as (f & K1 & K2). exists f. split; [|assumption]. now apply enc_inv in K1.
  - intros f b Hf. destruct (key_ok prefix f P) as (kb & K1 & K2). exists kb. split; [assumption|].
    apply (Permutation_in _ (Permutation_sym Hp)). apply in_or_app. left. apply Hin. eauto.
  - intros f b Hf. now apply wr_safe.
Qed.

(** ** Only these values survive *)
Theorem xattr_round_trip_safe a m prefix xs m' :
  typed a -> meta_init a = Ok m -> prefix_ok prefix ->
  as_xattrs dp m prefix = Ok xs -> from_xattrs legacy xs prefix = Ok m' ->
  carries m' (shown a) -> xattr_safe a.
Proof.
  intros T I P Hx Hf Hc f. destruct (init_typed a T) as (m0 & I0 & G & _). assert (m0 = m) by congruence. subst m0.
  pose proof (write_inv _ _ _ _ Hx) as W.
  destruct (blank (a f)) eqn:B.
  { specialize (T f). destruct f; simpl in T; destruct (a _) as [| | |[]|[]| |[]|]; try discriminate B; simpl; auto;
      try (intros c []); try (intros e []). split; [intros c []|reflexivity]. }
  assert (E : exists kb b, In (kb, b) xs /\ enc (x_key prefix (field_name f)) = Ok kb /\ x_encode f (mval f (a f)) = Ok (PBytes b)).
  { clear - Hx G B W.
    assert (K : forall l out, as_xattrs_from dp l m prefix = Ok out -> In f l ->
       exists kb b, enc (x_key prefix (field_name f)) = Ok kb /\ x_encode f (mval f (a f)) = Ok (PBytes b)).
    { induction l as [|g l IH]; intros out H Hf; [destruct Hf|]. cbn [as_xattrs_from] in H.
      rewrite G in H. cbn [rbind] in H. rewrite blank_mval in H. destruct Hf as [->|Hf].
      - rewrite B in H. destruct (x_encode f (mval f (a f))) as [w|]; [|discriminate]. cbn [rbind] in H.
        destruct (enc _) as [kb|]; [|discriminate]. cbn [rbind] in H. destruct w; try discriminate. eauto.
      - destruct (blank (a g)); [eauto|]. destruct (x_encode g _) as [w|]; [|discriminate]. cbn [rbind] in H.
        destruct (enc (x_key prefix (field_name g))); [|discriminate]. cbn [rbind] in H.
        destruct w; try discriminate. destruct (as_xattrs_from dp l m prefix) eqn:E5; [|discriminate]. eauto. }
    destruct (K x_fields xs Hx (x_fields_all f)) as (kb & b & K1 & K2). exists kb, b. split; [|auto].
    apply W. exists f, (mval f (a f)). rewrite blank_mval. repeat split; auto. apply x_fields_all. }
  destruct E as (kb & b & E1 & E2 & E3). eapply field_bwd; [apply T|exact B|exact E3|]. intro C.
  (* what was read for f *)
  unfold from_xattrs in Hf. destruct (x_kwargs legacy prefix xs) as [kws|] eqn:K; [|discriminate]. cbn [rbind] in Hf.
  assert (R : exists w, x_decode legacy f b = Ok w /\ lookup (field_name f) kws = Some w).
  { assert (U : forall b', In (kb, b') xs -> b' = b).
    { intros b' I'. apply W in I' as (f' & v' & _ & J1 & _ & J3 & J4).
      assert (f' = f). { apply enc_inv in J3 as (_ & J3 & _). apply enc_inv in E2 as (_ & E2 & _).
        rewrite E2 in J3. apply Ok_inj in J3. apply (f_equal (deprefix prefix)) in J3. rewrite !deprefix_key in J3.
        injection J3 as J3. now apply name_inj in J3. }
      subst f'. rewrite G in J1. apply Ok_inj in J1. subst v'. congruence. }
    assert (V : forall k' b', In (k', b') xs -> exists f', enc (x_key prefix (field_name f')) = Ok k').
    { intros k' b' I'. apply W in I' as (f' & _ & _ & _ & _ & J3 & _). now exists f'. }
    clear - K E1 E2 U V. revert kws K. induction xs as [|[k0 b0] xs IH]; intros kws K; [destruct E1|].
    cbn [x_kwargs] in K. destruct (V k0 b0) as [f0 V0]; [now left|].
    pose proof (enc_inv _ _ V0) as (_ & V1 & _). rewrite V1 in K. cbn [rbind] in K.
    rewrite deprefix_key, field_of_name in K. destruct (x_decode legacy f0 b0) as [w0|] eqn:D0; [|discriminate]. cbn [rbind] in K.
    destruct (x_kwargs legacy prefix xs) as [ws|]; [|discriminate]. cbn [rbind] in K. apply Ok_inj in K. subst kws.
    destruct (str_eqb (field_name f0) (field_name f)) eqn:Q.
    - apply str_eqb_eq, name_inj in Q. subst f0.
      destruct E1 as [E1|E1].
      + inversion E1; subst. exists w0. split; [assumption|]. unfold lookup. cbn [find fst]. now rewrite str_eqb_refl.
      + assert (k0 = kb) by congruence. subst k0. rewrite (U b0) in D0 by now left.
        exists w0. split; [assumption|]. unfold lookup. cbn [find fst]. now rewrite str_eqb_refl.
    - destruct E1 as [E1|E1].
      + inversion E1; subst. apply enc_inv in E2 as (_ & E2 & _). rewrite E2 in V1. apply Ok_inj in V1. rename V1 into V0'. clear V0. rename V0' into V0. apply (f_equal (deprefix prefix)) in V0.
        rewrite !deprefix_key in V0. injection V0 as V0. rewrite V0, str_eqb_refl in Q. discriminate.
      + destruct (IH E1) with (kws := ws) as (w & D1 & D2); auto.
        * intros; apply U; now right.
        * intros; eapply V; right; eassumption.
        * exists w. split; [assumption|]. unfold lookup in *. cbn [find fst]. now rewrite Q. }
  destruct R as (w & R1 & R2). rewrite R1. f_equal. unfold call_pathmeta in Hf.
  destruct (existsb _ kws); [discriminate|].
  assert (A : kw_args kws f = w) by (unfold kw_args; now rewrite R2).
  assert (J : exists m'', meta_init (kw_args kws) = Ok m'' /\ (forall dp' g, getf dp' m'' g = getf dp' m' g)
     /\ m_errors m'' = m_errors m').
  { clear - Hf. unfold meta_init, meta_init_x in *. destruct (_ && _)%bool; [discriminate|].
    destruct (match kw_args kws Fid with PNone | PStr _ => false | _ => true end); [discriminate|].
    destruct (match kw_args kws Fsize with PNone => Ok PNone | v => filesize v end); [|discriminate].
    cbn [rbind] in *. destruct (errors_tuple _); [|discriminate]. cbn [rbind] in *. eexists. split; [reflexivity|].
    apply Ok_inj in Hf. rewrite <- Hf. split; [|reflexivity]. intros dp' []; reflexivity. }
  destruct J as (m'' & J1 & J2 & J3). apply init_get in J1 as (J4 & _ & J5 & _).
  destruct Hc as [Hc _]. unfold shown in Hc.
  destruct C as [->|[->| ->]].
  - specialize (J4 dp Fuser_id eq_refl ltac:(discriminate) ltac:(discriminate)).
    rewrite J2, Hc, B in J4 by reflexivity. cbn [stored]. congruence.
  - specialize (J4 dp Fetag eq_refl ltac:(discriminate) ltac:(discriminate)).
    rewrite J2, Hc, B in J4 by reflexivity. cbn [stored]. congruence.
  - cbn [stored]. specialize (Hc dp Ferrors eq_refl). rewrite B in Hc. cbn [getf] in Hc. rewrite A, J3 in J5.
    assert (Hw : exists l, w = PStrs l).
    { cbn [x_decode] in R1. destruct (dec b); [|discriminate]. cbn [rbind] in R1. apply Ok_inj in R1. eauto. }
    destruct Hw as [l ->]. assert (l = m_errors m').
    { unfold errors_tuple in J5. destruct l; cbn [truthy] in J5; congruence. }
    subst l. congruence.
Qed.

(** ** Foreign attributes *)
Lemma foreign_ignored prefix k b : foreign prefix k -> forall xs1 xs2,
  from_xattrs legacy (xs1 ++ (k, b) :: xs2) prefix = from_xattrs legacy (xs1 ++ xs2) prefix.
Proof.
  intros F xs1 xs2. unfold from_xattrs. f_equal. apply deprefix_foreign in F as (k0 & F1 & F2).
  induction xs1 as [|[k1 b1] xs1 IH]; cbn [app x_kwargs].
  - now rewrite F1; cbn [rbind]; rewrite F2.
  - destruct (dec k1) as [k2|]; [|reflexivity]. cbn [rbind]. rewrite IH. reflexivity.
Qed.

Lemma undecodable_fails prefix k b xs : utf8_dec k = None -> In (k, b) xs ->
  exists e, from_xattrs legacy xs prefix = Err e.
Proof.
  intros U I. unfold from_xattrs.
  assert (K : exists e, x_kwargs legacy prefix xs = Err e).
  { induction xs as [|[k1 b1] xs IH]; [destruct I|]. cbn [x_kwargs]. destruct I as [I|I].
    - inversion I; subst. unfold dec. rewrite U. cbn [rbind]. eauto.
    - destruct (IH I) as [e E]. rewrite E. destruct (dec k1) as [k2|e1]; cbn [rbind]; [|eauto].
      destruct (deprefix prefix k2) as [k3|]; [|eauto].
      destruct (match field_of k3 with Some f => x_decode legacy f b1 | None => Ok (PBytes b1) end); cbn [rbind]; eauto. }
  destruct K as [e ->]. cbn [rbind]. eauto.
Qed.

Lemma lookup_app {B} k (l l' : list (str * B)) :
  lookup k (l ++ l') = match lookup k l with Some v => Some v | None => lookup k l' end.
Proof.
  unfold lookup. induction l as [|[x y] l IH]; [reflexivity|]. cbn [app find fst].
  destruct (str_eqb x k); [reflexivity|exact IH].
Qed.

Lemma init_extra a x m : meta_init_x a x = Ok m -> forall y,
  exists m', meta_init_x a y = Ok m' /\ (forall dp' f, getf dp' m' f = getf dp' m f) /\
    m_kwargs m = x /\ m_kwargs m' = y.
Proof.
  intros H y. unfold meta_init_x in *. destruct (_ && _)%bool; [discriminate|].
  destruct (match a Fid with PNone | PStr _ => false | _ => true end); [discriminate|].
  destruct (match a Fsize with PNone => Ok PNone | v => filesize v end); [|discriminate].
  cbn [rbind] in *. destruct (errors_tuple _); [|discriminate]. cbn [rbind] in *. eexists. split; [reflexivity|].
  apply Ok_inj in H. rewrite <- H. split; [|split; reflexivity]. intros dp' []; reflexivity.
Qed.

Lemma meta_init_x_ext a b x : (forall f, a f = b f) -> meta_init_x a x = meta_init_x b x.
Proof. intro H. unfold meta_init_x. now rewrite !H. Qed.

Lemma unknown_kept prefix k k' b xs m :
  utf8_dec k = Some (under prefix k') -> (forall f, field_name f <> k') -> k' <> $"self" ->
  from_xattrs legacy xs prefix = Ok m ->
  exists m', from_xattrs legacy (xs ++ [(k, b)]) prefix = Ok m' /\
    (forall dp' f, getf dp' m' f = getf dp' m f) /\ m_kwargs m' = m_kwargs m ++ [(k', b)].
Proof.
  intros U N NS H. rewrite <- x_key_under in U. unfold from_xattrs in *.
  destruct (x_kwargs legacy prefix xs) as [kws|] eqn:K; [|discriminate]. cbn [rbind] in H.
  assert (FO : field_of k' = None).
  { destruct (field_of k') as [f|] eqn:E; [|reflexivity]. unfold field_of in E. apply find_some in E as [_ E].
    apply str_eqb_eq in E. now apply N in E. }
  assert (K' : x_kwargs legacy prefix (xs ++ [(k, b)]) = Ok (kws ++ [(k', PBytes b)])).
  { clear H. revert kws K. induction xs as [|[k1 b1] xs IH]; intros kws K.
    - cbn [x_kwargs] in K. apply Ok_inj in K. subst kws. cbn [app x_kwargs]. unfold dec. rewrite U. cbn [rbind].
      now rewrite deprefix_key, FO.
    - cbn [app x_kwargs] in *. destruct (dec k1) as [k2|]; [|discriminate]. cbn [rbind] in *.
      destruct (deprefix prefix k2) as [k3|]; [|now apply IH].
      destruct (match field_of k3 with Some f => x_decode legacy f b1 | None => Ok (PBytes b1) end) as [w|]; [|discriminate].
      cbn [rbind] in *. destruct (x_kwargs legacy prefix xs) as [ws|]; [|discriminate]. cbn [rbind] in K.
      apply Ok_inj in K. subst kws. rewrite (IH ws eq_refl). reflexivity. }
  rewrite K'. cbn [rbind]. unfold call_pathmeta in *. rewrite existsb_app.
  destruct (existsb _ kws) eqn:E; [discriminate|]. cbn [orb existsb fst].
  apply str_eqb_neq in NS. rewrite NS. cbn [orb].
  assert (X : extras (kws ++ [(k', PBytes b)]) = extras kws ++ [(k', b)]).
  { unfold extras. rewrite flat_map_app. cbn [flat_map fst snd]. now rewrite FO. }
  rewrite X.
  assert (A : forall f, kw_args (kws ++ [(k', PBytes b)]) f = kw_args kws f).
  { intro f. unfold kw_args. rewrite lookup_app. destruct (lookup (field_name f) kws); [reflexivity|].
    unfold lookup. cbn [find fst]. assert (Q : str_eqb k' (field_name f) = false).
    { apply str_eqb_neq. intro Q. symmetry in Q. now apply N in Q. }
    now rewrite Q. }
  rewrite (meta_init_x_ext _ _ _ A).
  destruct (init_extra _ _ _ H (extras kws ++ [(k', b)])) as (m' & M1 & M2 & M3 & M4).
  exists m'. split; [assumption|]. split; [assumption|]. now rewrite M3.
Qed.

Lemma self_fails prefix k b xs m :
  utf8_dec k = Some (under prefix $"self") ->
  from_xattrs legacy xs prefix = Ok m ->
  from_xattrs legacy ((k, b) :: xs) prefix = Err TypeError.
Proof.
  intros U H. rewrite <- x_key_under in U. unfold from_xattrs in *. cbn [x_kwargs]. unfold dec. rewrite U. cbn [rbind].
  rewrite deprefix_key. change (field_of $"self") with (@None field). cbn [rbind].
  destruct (x_kwargs legacy prefix xs) as [kws|]; [|discriminate]. cbn [rbind]. reflexivity.
Qed.

(** ** Writing over older metadata *)
Lemma set1_In k v xs k' v' :
  In (k', v') (set1 k v xs) <-> (k' = k /\ v' = v) \/ (k' <> k /\ In (k', v') xs).
Proof.
  unfold set1. destruct (existsb (fun p => bytes_eqb (fst p) k) xs) eqn:E.
  - apply existsb_exists in E as ([k0 v0] & E1 & E2). cbn [fst] in E2. apply bytes_eqb_eq in E2. subst k0.
    rewrite in_map_iff. split.
    + intros ([k1 v1] & H1 & H2). cbn [fst] in H1. destruct (bytes_eqb k1 k) eqn:Q.
      * left. inversion H1. auto.
      * right. inversion H1; subst. split; [|assumption]. intros ->. rewrite bytes_eqb_refl in Q. discriminate.
    + intros [[-> ->]|[N I]].
      * exists (k, v0). cbn [fst]. now rewrite bytes_eqb_refl.
      * exists (k', v'). split; [|assumption]. cbn [fst]. destruct (bytes_eqb k' k) eqn:Q; [|reflexivity].
        apply bytes_eqb_eq in Q. contradiction.
  - rewrite in_app_iff. split.
    + intros [I|[I|[]]].
      * right. split; [|assumption]. intros ->. apply not_true_iff_false in E. apply E. apply existsb_exists.
        exists (k, v'). split; [assumption|]. apply bytes_eqb_refl.
      * left. inversion I. auto.
    + intros [[-> ->]|[N I]]; [right; now left|now left].
Qed.

Lemma setxattrs_In new : NoDup (map fst new) -> forall xs k v,
  In (k, v) (setxattrs new xs) <-> In (k, v) new \/ (~ In k (map fst new) /\ In (k, v) xs).
Proof.
  unfold setxattrs. induction new as [|[k0 v0] new IH]; intros N xs k v; cbn [fold_left fst snd map].
  - simpl. tauto.
  - inversion N as [|? ? N1 N2]; subst. rewrite IH by assumption. rewrite set1_In. simpl. split.
    + intros [H|[H [[-> ->]|[H1 H2]]]]; [tauto|left; now left|right]. split; [|assumption]. intros [K|K]; congruence.
    + intros [[H|H]|[H1 H2]].
      * inversion H; subst. right. split; [assumption|]. left. auto.
      * now left.
      * right. split; [tauto|]. right. split; [|assumption]. intros ->. tauto.
Qed.

Lemma enc_key_inj prefix f g k : enc (x_key prefix (field_name f)) = Ok k ->
  enc (x_key prefix (field_name g)) = Ok k -> f = g.
Proof.
  intros H1 H2. apply enc_inv in H1 as (_ & H1 & _). apply enc_inv in H2 as (_ & H2 & _).
  rewrite H1 in H2. apply Ok_inj in H2. apply (f_equal (deprefix prefix)) in H2. rewrite !deprefix_key in H2.
  injection H2 as H2. now apply name_inj.
Qed.

Lemma write_nodup l m prefix xs : NoDup l -> as_xattrs_from dp l m prefix = Ok xs -> NoDup (map fst xs).
Proof.
  revert xs. induction l as [|f l IH]; intros xs N H; cbn [as_xattrs_from] in H.
  - apply Ok_inj in H. subst. constructor.
  - inversion N as [|? ? N1 N2]; subst. destruct (getf dp m f) as [v|] eqn:E1; [|discriminate]. cbn [rbind] in H.
    destruct (is_none v || empty_iterable v)%bool; [now apply IH|].
    destruct (x_encode f v) as [w|]; [|discriminate]. cbn [rbind] in H.
    destruct (enc (x_key prefix (field_name f))) as [kb|] eqn:E4; [|discriminate]. cbn [rbind] in H.
    destruct w; try discriminate. destruct (as_xattrs_from dp l m prefix) as [out|] eqn:E5; [|discriminate].
    cbn [rbind] in H. apply Ok_inj in H. subst xs. cbn [map fst]. constructor; [|now apply IH].
    intro K. apply in_map_iff in K as ([k b'] & K1 & K2). cbn [fst] in K1. subst k.
    apply (write_inv _ _ _ _ E5) in K2 as (g & v' & G1 & _ & _ & G2 & _).
    apply N1. now rewrite (enc_key_inj prefix f g kb E4 G2).
Qed.

Lemma x_fields_nodup : NoDup x_fields.
Proof. repeat constructor; simpl; intuition discriminate. Qed.

Lemma overlay_typed a b : typed a -> typed b -> typed (overlay a b).
Proof. intros H1 H2 f. unfold overlay. destruct (blank (b f)); auto. Qed.
Lemma overlay_safe a b : xattr_safe a -> xattr_safe b -> xattr_safe (overlay a b).
Proof. intros H1 H2 f. unfold overlay. destruct (blank (b f)); auto. Qed.

Lemma wr_overlay a b f : wr (overlay a b) f = if blank (b f) then wr a f else wr b f.
Proof. unfold wr, overlay. destruct (blank (b f)) eqn:E; [reflexivity|]. now rewrite E. Qed.

Theorem overwrite_reads old new mo mn prefix others xo xn :
  typed old -> typed new -> xattr_safe old -> xattr_safe new -> prefix_ok prefix ->
  meta_init old = Ok mo -> meta_init new = Ok mn ->
  (forall k b, In (k, b) others -> foreign prefix k) ->
  as_xattrs dp mo prefix = Ok xo -> as_xattrs dp mn prefix = Ok xn ->
  exists m', carries m' (shown (overlay old new)) /\
    forall xs ys, Permutation xs (xo ++ others) -> Permutation ys (setxattrs xn xs) ->
      from_xattrs legacy ys prefix = Ok m'.
Proof.
  intros To Tn So Sn P Io In' Ho Xo Xn.
  destruct (written_xs old mo prefix To Io So P) as (xo' & Xo' & Ino). assert (xo' = xo) by congruence. subst xo'.
  destruct (written_xs new mn prefix Tn In' Sn P) as (xn' & Xn' & Inn). assert (xn' = xn) by congruence. subst xn'.
  pose proof (write_nodup _ _ _ _ x_fields_nodup Xn) as ND.
  set (o := overlay old new).
  assert (T : typed o) by now apply overlay_typed. assert (S : xattr_safe o) by now apply overlay_safe.
  destruct (init_wr o (wr o) T (fun f => wr_none o f T S)) as (m' & M1 & M2).
  exists m'. split; [assumption|]. intros xs ys Px Py. rewrite <- M1.
  assert (KN : forall f k, enc (x_key prefix (field_name f)) = Ok k -> In k (map fst xn) <-> blank (new f) = false).
  { intros f k K. rewrite in_map_iff. split.
    - intros ([k' b] & <- & I). cbn [fst] in K. apply Inn in I as (g & G1 & G2). assert (g = f) by (eapply enc_key_inj; eauto). subst g.
      unfold wr in G2. now destruct (blank (new f)).
    - intro B. destruct (wr new f) as [b|] eqn:W; [|apply wr_none in W; auto; congruence].
      exists (k, b). split; [reflexivity|]. apply Inn. eauto. }
  apply read_map.
  - intros k b I. apply (Permutation_in _ Py) in I. apply (setxattrs_In xn ND) in I as [I|[I1 I2]].
    + apply Inn in I as (f & F1 & F2). right. exists f. split; [now apply enc_inv in F1|].
      unfold o. rewrite wr_overlay. unfold wr in F2. destruct (blank (new f)) eqn:B; [discriminate|]. unfold wr. now rewrite B.
    + apply (Permutation_in _ Px) in I2. apply in_app_or in I2 as [I2|I2]; [|left; eauto].
      apply Ino in I2 as (f & F1 & F2). right. exists f. split; [now apply enc_inv in F1|].
      unfold o. rewrite wr_overlay. destruct (blank (new f)) eqn:B; [assumption|].
      exfalso. apply I1. now apply (KN f k F1).
  - intros f b W. destruct (key_ok prefix f P) as (kb & K1 & K2). exists kb. split; [assumption|].
    apply (Permutation_in _ (Permutation_sym Py)). apply (setxattrs_In xn ND). unfold o in W. rewrite wr_overlay in W.
    destruct (blank (new f)) eqn:B.
    + right. split; [rewrite (KN f kb K1); congruence|].
      apply (Permutation_in _ (Permutation_sym Px)). apply in_or_app. left. apply Ino. eauto.
    + left. apply Inn. eauto.
  - intros f b W. now apply wr_safe.
Qed.

Lemma carries_unique m' a b : typed a -> typed b -> carries m' a -> carries m' b ->
  forall f, is_stamp f = false -> a f = b f.
Proof.
  intros Ta Tb (A & _) (B & _) f Hf. specialize (A dp f Hf). specialize (B dp f Hf). rewrite A in B.
  specialize (Ta f). specialize (Tb f). destruct f; try discriminate Hf; try (apply Ok_inj in B; exact B).
  simpl in Ta, Tb. destruct Ta as [Ta|[x [Ta _]]], Tb as [Tb|[y [Tb _]]]; rewrite Ta, Tb in *; congruence.
Qed.

Theorem overwrite_exact old new mo mn prefix xo xn m' :
  typed old -> typed new -> xattr_safe old -> xattr_safe new -> prefix_ok prefix ->
  meta_init old = Ok mo -> meta_init new = Ok mn ->
  as_xattrs dp mo prefix = Ok xo -> as_xattrs dp mn prefix = Ok xn ->
  from_xattrs legacy (setxattrs xn xo) prefix = Ok m' ->
  carries m' (shown new) <-> forall f, blank (new f) = true -> blank (old f) = true.
Proof.
  intros To Tn So Sn P Io In' Xo Xn R.
  destruct (overwrite_reads old new mo mn prefix [] xo xn) as (m2 & C & F); auto; [intros k b []|].
  rewrite (F xo (setxattrs xn xo)) in R; [|now rewrite app_nil_r|apply Permutation_refl].
  apply Ok_inj in R. subst m2. split.
  - intros K f B. destruct (blank (old f)) eqn:E; [reflexivity|]. exfalso.
    assert (TO : typed (shown (overlay old new))) by (apply shown_typed, overlay_typed; assumption).
    assert (V : shown (overlay old new) f = old f) by (unfold shown, overlay; now rewrite B, E).
    assert (V' : shown new f = no_args f) by (unfold shown; now rewrite B).
    destruct (is_stamp f) eqn:Sf.
    + destruct C as (_ & C1 & C2 & _), K as (_ & K1 & K2 & _). pose proof (To f) as Tf.
      destruct f; try discriminate Sf; rewrite ?V, ?V' in *; simpl in Tf; destruct Tf as [Tf|[d Tf]]; rewrite Tf in *;
        try discriminate E; [destruct C1, K1|destruct C2, K2]; congruence.
    + pose proof (carries_unique m' _ _ TO (shown_typed _ Tn) C K f Sf) as Q. rewrite V, V' in Q.
      rewrite Q in E. destruct f; discriminate.
  - intro H.
    assert (Q : forall f, shown (overlay old new) f = shown new f).
    { intro f. unfold shown, overlay. destruct (blank (new f)) eqn:B; [|now rewrite B]. now rewrite (H f B). }
    destruct C as (C1 & C2 & C3 & C4). split; [|split; [|split]].
    + intros dp' f Hf. rewrite C1 by assumption. destruct f; now rewrite Q.
    + now rewrite <- Q.
    + now rewrite <- Q.
    + assumption.
Qed.
Lemma overwrite_loses old new mo mn prefix xo xn m' f :
  typed old -> typed new -> xattr_safe old -> xattr_safe new -> prefix_ok prefix ->
  meta_init old = Ok mo -> meta_init new = Ok mn ->
  as_xattrs dp mo prefix = Ok xo -> as_xattrs dp mn prefix = Ok xn ->
  blank (new f) = true -> blank (old f) = false ->
  from_xattrs legacy (setxattrs xn xo) prefix = Ok m' -> ~ carries m' (shown new).
Proof.
  intros To Tn So Sn P Mo Mn Xo Xn Bn Bo R C.
  assert (K : blank (old f) = true).
  { refine (proj1 (overwrite_exact old new mo mn prefix xo xn m' _ _ _ _ _ _ _ _ _ _) C f Bn); assumption. }
  congruence.
Qed.

End Codec.
