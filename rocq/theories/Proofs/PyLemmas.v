(** * Facts about the Python built-ins of Model/Py.v *)
From Coq Require Import String Ascii NArith ZArith Bool List Lia.
From Coq Require Import Init.Byte.
From Verif Require Import Model.Py.
Import ListNotations.

(** ** Equality tests *)
Lemma list_eqb_eq {A} (eqb : A -> A -> bool)
  (H : forall x y, eqb x y = true <-> x = y) :
  forall a b, list_eqb eqb a b = true <-> a = b.
Proof.
  induction a as [|x a IH]; destruct b as [|y b]; simpl; split; intro E;
    try reflexivity; try discriminate.
  - apply andb_true_iff in E as [E1 E2]. apply H in E1. apply IH in E2. congruence.
  - inversion E; subst. apply andb_true_iff. split; [now apply H | now apply IH].
Qed.

Lemma str_eqb_eq a b : str_eqb a b = true <-> a = b.
Proof. apply list_eqb_eq. apply N.eqb_eq. Qed.

Lemma str_eqb_refl a : str_eqb a a = true.
Proof. now apply str_eqb_eq. Qed.

Lemma str_eqb_neq a b : str_eqb a b = false <-> a <> b.
Proof.
  split; intro H.
  - intro E. apply str_eqb_eq in E. congruence.
  - destruct (str_eqb a b) eqn:E; [|reflexivity]. apply str_eqb_eq in E. contradiction.
Qed.

Lemma byte_eqb_eq (x y : byte) : Byte.eqb x y = true <-> x = y.
Proof.
  unfold Byte.eqb. split; intro H.
  - destruct (Byte.eqb x y) eqn:E; [|unfold Byte.eqb in E; congruence].
    now apply Byte.byte_dec_bl.
  - subst. now apply Byte.byte_dec_lb.
Qed.

Lemma bytes_eqb_eq a b : bytes_eqb a b = true <-> a = b.
Proof. apply list_eqb_eq. apply byte_eqb_eq. Qed.

Lemma bytes_eqb_refl a : bytes_eqb a a = true.
Proof. now apply bytes_eqb_eq. Qed.

Lemma strs_eqb_eq a b : list_eqb str_eqb a b = true <-> a = b.
Proof. apply list_eqb_eq. apply str_eqb_eq. Qed.

Definition str_dec (a b : str) : {a = b} + {a <> b} := list_eq_dec N.eq_dec a b.

(** ** Membership *)
Lemma has_In c s : has c s = true <-> In c s.
Proof.
  unfold has. rewrite existsb_exists. split.
  - intros [x [H E]]. apply N.eqb_eq in E. now subst.
  - intro H. exists c. split; [assumption | apply N.eqb_refl].
Qed.

Lemma has_false c s : has c s = false <-> ~ In c s.
Proof.
  rewrite <- has_In. destruct (has c s); split; intro H; try discriminate; auto.
  - exfalso. now apply H.
Qed.

Lemma has_app c a b : has c (a ++ b) = (has c a || has c b)%bool.
Proof. unfold has. apply existsb_app. Qed.

Lemma replace1_id a b s : ~ In a s -> replace1 a b s = s.
Proof.
  induction s as [|x s IH]; simpl; intro H; [reflexivity|].
  destruct (N.eqb_spec x a); [subst; exfalso; apply H; now left|].
  f_equal. apply IH. intro; apply H; now right.
Qed.

Lemma replace1_inv a b s : ~ In b s -> replace1 b a (replace1 a b s) = s.
Proof.
  unfold replace1. induction s as [|x s IH]; simpl; intro H; [reflexivity|].
  rewrite IH by (intro; apply H; now right). f_equal.
  destruct (N.eqb_spec x a).
  - rewrite N.eqb_refl. congruence.
  - destruct (N.eqb_spec x b); [subst; exfalso; apply H; now left|reflexivity].
Qed.

Lemma replace1_no a b s : a <> b -> ~ In a (replace1 a b s).
Proof.
  intros Hab. unfold replace1. rewrite in_map_iff. intros [x [E H]].
  destruct (N.eqb_spec x a); congruence.
Qed.

Lemma replace1_In a b c s : In c (replace1 a b s) -> c = b \/ (In c s /\ c <> a).
Proof.
  unfold replace1. rewrite in_map_iff. intros [x [E H]].
  destruct (N.eqb_spec x a); [left|right]; subst; auto.
Qed.

Lemma replace1_keep a b c s : In c s -> c <> a -> In c (replace1 a b s).
Proof.
  intros H Hc. unfold replace1. apply in_map_iff. exists c. split; [|assumption].
  destruct (N.eqb_spec c a); congruence.
Qed.

Lemma replace1_hit a b s : In a s -> In b (replace1 a b s).
Proof.
  intros H. unfold replace1. apply in_map_iff. exists a. split; [|assumption].
  now rewrite N.eqb_refl.
Qed.

Lemma replace1_length a b s : length (replace1 a b s) = length s.
Proof. apply map_length. Qed.

Lemma replace1_nil a b s : replace1 a b s = [] <-> s = [].
Proof. destruct s; simpl; split; intro; congruence. Qed.

(** ** split and join *)
Lemma split_nonempty c s : split c s <> [].
Proof.
  destruct s as [|x s]; simpl; [discriminate|].
  destruct (N.eqb x c); [discriminate|]. destruct (split c s); discriminate.
Qed.

Lemma split_none c s : ~ In c s -> split c s = [s].
Proof.
  induction s as [|x s IH]; simpl; intro H; [reflexivity|].
  destruct (N.eqb_spec x c); [subst; exfalso; apply H; now left|].
  rewrite IH; [reflexivity|]. intro; apply H; now right.
Qed.

Lemma split_app c a s : ~ In c a -> split c (a ++ c :: s) = a :: split c s.
Proof.
  induction a as [|x a IH]; simpl; intro H.
  - now rewrite N.eqb_refl.
  - destruct (N.eqb_spec x c); [subst; exfalso; apply H; now left|].
    rewrite IH; [reflexivity|]. intro; apply H; now right.
Qed.

Lemma split_join c l : l <> [] -> (forall x, In x l -> ~ In c x) -> split c (join [c] l) = l.
Proof.
  induction l as [|x l IH]; intros Hn H; [congruence|].
  destruct l as [|y l].
  - simpl. apply split_none. apply H. now left.
  - change (join [c] (x :: y :: l)) with (x ++ c :: join [c] (y :: l)).
    rewrite split_app by (apply H; now left).
    f_equal. apply IH; [discriminate|]. intros z Hz. apply H. now right.
Qed.

Lemma split_parts c s x : In x (split c s) -> ~ In c x.
Proof.
  revert x. induction s as [|y s IH]; simpl; intros x.
  - intros [<-|[]]. simpl. tauto.
  - destruct (N.eqb_spec y c).
    + intros [<-|H]; [simpl; tauto|]. now apply IH.
    + destruct (split c s) as [|h t] eqn:E; [exfalso; eapply split_nonempty; eassumption|].
      intros [<-|H].
      * intros [?|Hc]; [congruence|]. apply (IH h); [now left|assumption].
      * apply IH. now right.
Qed.

Lemma join_cons sep x y l : join sep (x :: y :: l) = x ++ sep ++ join sep (y :: l).
Proof. reflexivity. Qed.

Lemma join_split c s : join [c] (split c s) = s.
Proof.
  induction s as [|x s IH]; simpl; [reflexivity|].
  destruct (N.eqb_spec x c).
  - subst. destruct (split c s) eqn:E; [exfalso; eapply split_nonempty; eassumption|].
    rewrite join_cons, IH. reflexivity.
  - destruct (split c s) as [|h t] eqn:E; [exfalso; eapply split_nonempty; eassumption|].
    destruct t; simpl in *; now rewrite IH.
Qed.

Lemma join_In sep l c : In c (join sep l) -> In c sep \/ exists x, In x l /\ In c x.
Proof.
  induction l as [|x l IH]; simpl; [tauto|].
  destruct l as [|y l].
  - intro H. right. exists x. auto.
  - rewrite !in_app_iff. intros [H|[H|H]].
    + right. exists x. auto.
    + now left.
    + destruct (IH H) as [?|[z [Hz1 Hz2]]]; [now left|]. right. exists z. auto.
Qed.

Lemma join_nil_iff c l : join [c] l = [] <-> l = [] \/ l = [[]].
Proof.
  destruct l as [|x [|y l]]; simpl; split; intro H; auto.
  - subst. now right.
  - destruct H as [H|H]; [discriminate|]. now inversion H.
  - exfalso. destruct x; discriminate.
  - destruct H as [H|H]; discriminate.
Qed.

(** ** rsplit *)
Lemma rsplit1_none c s : ~ In c s -> rsplit1 c s = None.
Proof.
  induction s as [|x s IH]; simpl; intro H; [reflexivity|].
  rewrite IH by (intro; apply H; now right).
  destruct (N.eqb_spec x c); [subst; exfalso; apply H; now left|reflexivity].
Qed.

Lemma rsplit1_app c a b : ~ In c b -> rsplit1 c (a ++ c :: b) = Some (a, b).
Proof.
  intro H. induction a as [|x a IH]; simpl.
  - rewrite rsplit1_none by assumption. now rewrite N.eqb_refl.
  - now rewrite IH.
Qed.

(** ** Decimal *)
Lemma is_digit_digit n : (n < 10)%N -> is_digit (digit n) = true.
Proof.
  unfold is_digit, digit. intro H. apply andb_true_iff. split; apply N.leb_le; lia.
Qed.

Lemma pdigits_app a b acc : forallb is_digit a = true ->
  pdigits acc (a ++ b) = match pdigits acc a with Some v => pdigits v b | None => None end.
Proof.
  revert acc. induction a as [|x a IH]; simpl; intros acc H; [reflexivity|].
  apply andb_true_iff in H as [H1 H2]. rewrite H1. now apply IH.
Qed.

Lemma pow2_size n : (n < 2 ^ N.of_nat (N.size_nat n))%N.
Proof.
  destruct n as [|p]; [reflexivity|]. simpl N.size_nat.
  assert (H : Pos.size_nat p = Pos.to_nat (Pos.size p)).
  { induction p; simpl; try rewrite IHp; try rewrite Pos2Nat.inj_succ; reflexivity. }
  rewrite H, positive_nat_N. apply Pos.size_gt.
Qed.

Lemma dec_rev_spec f : forall n, (n < 2 ^ N.of_nat f)%N -> (0 < f)%nat ->
  forallb is_digit (rev (dec_rev f n)) = true /\
  pdigits 0 (rev (dec_rev f n)) = Some n /\ dec_rev f n <> [].
Proof.
  induction f as [|f IH]; intros n Hn Hf; [lia|].
  cbn [dec_rev]. assert (Hm : (n mod 10 < 10)%N) by (apply N.mod_lt; lia).
  destruct (N.eqb_spec (n / 10) 0) as [E|E].
  - simpl. rewrite is_digit_digit by assumption. split; [reflexivity|].
    split; [|discriminate]. f_equal. unfold digit.
    assert (n = 10 * (n / 10) + n mod 10)%N by (apply N.div_mod; lia). lia.
  - assert (Hq : (n / 10 < 2 ^ N.of_nat f)%N).
    { apply N.div_lt_upper_bound; [lia|].
      rewrite Nat2N.inj_succ, N.pow_succ_r' in Hn. lia. }
    assert (Hf' : (0 < f)%nat).
    { destruct f; [|lia]. exfalso. apply E. apply N.lt_1_r. exact Hq. }
    destruct (IH _ Hq Hf') as [H1 [H2 H3]].
    split; [|split; [|discriminate]].
    + simpl. rewrite forallb_app, H1. simpl. now rewrite is_digit_digit.
    + cbn [rev]. rewrite pdigits_app by assumption. rewrite H2. cbn [pdigits].
      rewrite is_digit_digit by assumption. f_equal. unfold digit.
      assert (n = 10 * (n / 10) + n mod 10)%N by (apply N.div_mod; lia). clear - H. rewrite H at 3. clear H. generalize (n / 10)%N, (n mod 10)%N. intros; lia.
Qed.

Lemma dec_N_spec n :
  forallb is_digit (dec_N n) = true /\ pdigits 0 (dec_N n) = Some n /\ dec_N n <> [].
Proof.
  unfold dec_N.
  destruct (dec_rev_spec (S (N.size_nat n)) n) as [H1 [H2 H3]].
  - eapply N.lt_le_trans; [apply pow2_size|]. apply N.pow_le_mono_r; lia.
  - lia.
  - split; [assumption|]. split; [assumption|].
    intro E. apply H3. apply (f_equal (@rev _)) in E. now rewrite rev_involutive in E.
Qed.

Lemma pnat_dec_N n : pnat (dec_N n) = Some n.
Proof.
  destruct (dec_N_spec n) as [H1 [H2 H3]].
  destruct (dec_N n) as [|c r]; [congruence|].
  simpl in *. apply andb_true_iff in H1 as [H1 _]. rewrite H1 in *.
  rewrite <- H2. f_equal.
Qed.

Lemma digit_not_space c : is_digit c = true -> is_space c = false.
Proof.
  unfold is_digit, is_space. rewrite andb_true_iff, !N.leb_le. intros [H1 H2].
  repeat (apply orb_false_iff; split); try (apply N.eqb_neq; lia);
    apply andb_false_iff; rewrite !N.leb_gt; lia.
Qed.

Lemma lstrip_id s : match s with c :: _ => is_space c = false | [] => True end -> lstrip s = s.
Proof. destruct s; simpl; [reflexivity|]. now intros ->. Qed.

Lemma strip_id s : forallb (fun c => negb (is_space c)) s = true -> strip s = s.
Proof.
  intro H. unfold strip.
  assert (G : forall t, forallb (fun c => negb (is_space c)) t = true -> lstrip t = t).
  { intros t Ht. apply lstrip_id. destruct t; [exact I|].
    simpl in Ht. apply andb_true_iff in Ht as [Ht _]. now apply negb_true_iff. }
  rewrite (G s H), G, rev_involutive; [reflexivity|].
  rewrite forallb_forall in *. intros x Hx. apply H. now apply in_rev.
Qed.

Lemma forallb_impl {A} (p q : A -> bool) l :
  (forall x, p x = true -> q x = true) -> forallb p l = true -> forallb q l = true.
Proof. rewrite !forallb_forall. auto. Qed.

Lemma py_int_dec z : py_int (dec_Z z) = Some z.
Proof.
  unfold py_int, dec_Z.
  assert (D : forall n, strip (dec_N n) = dec_N n).
  { intro n. apply strip_id. eapply forallb_impl; [|apply dec_N_spec].
    intros x Hx. now rewrite digit_not_space. }
  assert (G : forall n, match dec_N n with
    | c :: r => if N.eqb c 45 then option_map (fun n => (- Z.of_N n)%Z) (pnat r)
                else if N.eqb c 43 then option_map Z.of_N (pnat r)
                else option_map Z.of_N (pnat (c :: r))
    | [] => None end = Some (Z.of_N n)).
  { intro n. destruct (dec_N_spec n) as [H1 [_ H3]]. pose proof (pnat_dec_N n) as Hp.
    destruct (dec_N n) as [|c r]; [congruence|].
    simpl in H1. apply andb_true_iff in H1 as [H1 _].
    unfold is_digit in H1. rewrite andb_true_iff, !N.leb_le in H1.
    destruct (N.eqb_spec c 45); [lia|]. destruct (N.eqb_spec c 43); [lia|].
    now rewrite Hp. }
  destruct z as [|p|p].
  - reflexivity.
  - rewrite D. rewrite G. simpl. now rewrite positive_N_Z || reflexivity.
  - assert (S : strip (chr "-" :: dec_N (N.pos p)) = chr "-" :: dec_N (N.pos p)).
    { apply strip_id. simpl. eapply forallb_impl; [|apply dec_N_spec].
      intros x Hx. now rewrite digit_not_space. }
    rewrite S. simpl. rewrite pnat_dec_N. reflexivity.
Qed.

Lemma dec_N_digits n c : In c (dec_N n) -> is_digit c = true.
Proof. destruct (dec_N_spec n) as [H _]. rewrite forallb_forall in H. apply H. Qed.

Lemma dec_Z_chars z c : In c (dec_Z z) -> is_digit c = true \/ c = 45%N.
Proof.
  destruct z; simpl; intro H; try (left; eapply dec_N_digits; eassumption).
  - left. destruct H as [<-|[]]. reflexivity.
  - destruct H as [<-|H]; [now right|]. left. eapply dec_N_digits; eassumption.
Qed.

Lemma dec_Z_nonempty z : dec_Z z <> [].
Proof.
  destruct z; simpl; try discriminate. apply dec_N_spec.
Qed.

Lemma not_digit_not_in_dec z c : is_digit c = false -> c <> 45%N -> ~ In c (dec_Z z).
Proof. intros H1 H2 H. apply dec_Z_chars in H as [?|?]; congruence. Qed.

(** ** Hexadecimal *)
Lemma hex_cons b l :
  hex (b :: l) = hexdigit (Byte.to_N b / 16) :: hexdigit (Byte.to_N b mod 16) :: hex l.
Proof. reflexivity. Qed.

Lemma fromhex_byte b r :
  fromhex (hexdigit (Byte.to_N b / 16) :: hexdigit (Byte.to_N b mod 16) :: r)
  = option_map (cons b) (fromhex r).
Proof. destruct b; reflexivity. Qed.

Lemma fromhex_hex b : fromhex (hex b) = Some b.
Proof.
  induction b as [|x b IH]; [reflexivity|].
  rewrite hex_cons, fromhex_byte, IH. reflexivity.
Qed.

Definition is_hexdigit (c : N) : bool := (is_digit c || (N.leb 97 c && N.leb c 102))%bool.

Lemma hexdigit_is n : (n < 16)%N -> is_hexdigit (hexdigit n) = true.
Proof.
  intro H. unfold is_hexdigit, hexdigit, is_digit.
  destruct (N.ltb_spec n 10); apply orb_true_iff; [left|right];
    apply andb_true_iff; rewrite !N.leb_le; lia.
Qed.

Lemma hex_chars b c : In c (hex b) -> is_hexdigit c = true.
Proof.
  unfold hex. rewrite in_flat_map. intros [x [_ H]]. simpl in H.
  assert (Hx : (Byte.to_N x < 256)%N) by (destruct x; reflexivity).
  destruct H as [<-|[<-|[]]]; apply hexdigit_is.
  - apply N.div_lt_upper_bound; lia.
  - apply N.mod_lt. lia.
Qed.

Lemma not_hex_not_in_hex b c : is_hexdigit c = false -> ~ In c (hex b).
Proof. intros H1 H. apply hex_chars in H. congruence. Qed.

Lemma hex_nil b : hex b = [] <-> b = [].
Proof. destruct b; simpl; split; intro; congruence. Qed.

(** ** UTF-8 *)
Lemma byte_of_to_N n : (n < 256)%N -> Byte.to_N (byte_of n) = n.
Proof.
  intro H. unfold byte_of. destruct (Byte.of_N n) as [b|] eqn:E.
  - now apply Byte.to_of_N.
  - apply Byte.of_N_None_iff in E. lia.
Qed.

Lemma utf8_enc1_lt c b : scalar c = true -> In b (utf8_enc1 c) -> (b < 256)%N.
Proof.
  unfold scalar, utf8_enc1. rewrite andb_true_iff, N.ltb_lt. intros [Hc _].
  assert (c / 64 < 17408)%N by (apply N.div_lt_upper_bound; lia).
  assert (c / 4096 < 272)%N by (apply N.div_lt_upper_bound; lia).
  assert (c / 262144 < 5)%N by (apply N.div_lt_upper_bound; lia).
  assert (M1 : (c mod 64 < 64)%N) by (apply N.mod_lt; lia).
  assert (M2 : ((c / 64) mod 64 < 64)%N) by (apply N.mod_lt; lia).
  assert (M3 : ((c / 4096) mod 64 < 64)%N) by (apply N.mod_lt; lia).
  destruct (N.ltb_spec c 128); [intros [<-|[]]; lia|].
  destruct (N.ltb_spec c 2048).
  { assert (c / 64 < 32)%N by (apply N.div_lt_upper_bound; lia).
    intros [<-|[<-|[]]]; lia. }
  destruct (N.ltb_spec c 65536).
  { assert (c / 4096 < 16)%N by (apply N.div_lt_upper_bound; lia).
    intros [<-|[<-|[<-|[]]]]; lia. }
  intros [<-|[<-|[<-|[<-|[]]]]]; lia.
Qed.

Lemma utf8_dec_enc1 c r : scalar c = true ->
  utf8_dec_N (utf8_enc1 c ++ r) = option_map (cons c) (utf8_dec_N r).
Proof.
  intro Hs. pose proof Hs as Hs'. unfold scalar in Hs.
  rewrite andb_true_iff, N.ltb_lt in Hs. destruct Hs as [Hc _]. unfold utf8_enc1.
  assert (E1 : c = (64 * (c / 64) + c mod 64)%N) by (apply N.div_mod; lia).
  assert (E2 : (c / 64 = 64 * (c / 64 / 64) + (c / 64) mod 64)%N) by (apply N.div_mod; lia).
  assert (E3 : (c / 4096 = 64 * (c / 4096 / 64) + (c / 4096) mod 64)%N) by (apply N.div_mod; lia).
  assert (D1 : (c / 64 / 64 = c / 4096)%N) by (rewrite N.div_div by lia; f_equal; lia).
  assert (D2 : (c / 4096 / 64 = c / 262144)%N) by (rewrite N.div_div by lia; f_equal; lia).
  assert (M1 : (c mod 64 < 64)%N) by (apply N.mod_lt; lia).
  assert (M2 : ((c / 64) mod 64 < 64)%N) by (apply N.mod_lt; lia).
  assert (M3 : ((c / 4096) mod 64 < 64)%N) by (apply N.mod_lt; lia).
  rewrite D1 in E2. rewrite D2 in E3. clear D1 D2.
  generalize dependent (c mod 64)%N. generalize dependent ((c / 64) mod 64)%N.
  generalize dependent ((c / 4096) mod 64)%N. generalize dependent (c / 262144)%N.
  generalize dependent (c / 4096)%N. generalize dependent (c / 64)%N.
  intros d1 d2 d3 m3 E3 M3 m2 E2 M2 m1 E1 M1.
  assert (T : forall b, (b < 64)%N -> cont (128 + b) = true).
  { intros b Hb. unfold cont. apply andb_true_iff. rewrite !N.leb_le. lia. }
  destruct (N.ltb_spec c 128).
  { simpl. destruct (N.ltb_spec c 128); [reflexivity|lia]. }
  destruct (N.ltb_spec c 2048).
  { cbn [app utf8_dec_N].
    destruct (N.ltb_spec (192 + d1) 128); [lia|].
    assert (d1 < 32)%N by lia.
    assert (2 <= d1)%N by lia.
    assert (G : ((194 <=? 192 + d1)%N && (192 + d1 <=? 223)%N)%bool = true).
    { apply andb_true_iff. rewrite !N.leb_le. lia. }
    rewrite G, T by assumption. f_equal. f_equal. lia. }
  destruct (N.ltb_spec c 65536).
  { cbn [app utf8_dec_N].
    destruct (N.ltb_spec (224 + d2) 128); [lia|].
    assert (d2 < 16)%N by lia.
    assert (G0 : ((194 <=? 224 + d2)%N && (224 + d2 <=? 223)%N)%bool = false).
    { apply andb_false_iff. rewrite !N.leb_gt. lia. }
    assert (G : ((224 <=? 224 + d2)%N && (224 + d2 <=? 239)%N)%bool = true).
    { apply andb_true_iff. rewrite !N.leb_le. lia. }
    rewrite G0, G, !T by assumption.
    replace ((224 + d2 - 224) * 4096 + (128 + m2 - 128) * 64
             + (128 + m1 - 128))%N with c by lia.
    cbn [andb]. rewrite Hs'. destruct (N.leb_spec 2048 c); [reflexivity|lia]. }
  cbn [app utf8_dec_N].
  destruct (N.ltb_spec (240 + d3) 128); [lia|].
  assert (d3 < 5)%N by lia.
  assert (G0 : ((194 <=? 240 + d3)%N && (240 + d3 <=? 223)%N)%bool = false).
  { apply andb_false_iff. rewrite !N.leb_gt. lia. }
  assert (G1 : ((224 <=? 240 + d3)%N && (240 + d3 <=? 239)%N)%bool = false).
  { apply andb_false_iff. rewrite !N.leb_gt. lia. }
  assert (G : ((240 <=? 240 + d3)%N && (240 + d3 <=? 244)%N)%bool = true).
  { apply andb_true_iff. rewrite !N.leb_le. lia. }
  rewrite G0, G1, G, !T by assumption.
  replace ((240 + d3 - 240) * 262144 + (128 + m3 - 128) * 4096
           + (128 + m2 - 128) * 64 + (128 + m1 - 128))%N with c by lia.
  cbn [andb]. rewrite Hs'. destruct (N.leb_spec 65536 c); [reflexivity|lia].
Qed.

Lemma utf8_roundtrip s b : utf8_enc s = Some b -> utf8_dec b = Some s.
Proof.
  unfold utf8_enc, utf8_dec. destruct (forallb scalar s) eqn:E; [|discriminate].
  intro H. inversion H; subst; clear H.
  rewrite map_map, (map_ext_in _ (fun x => x)), map_id.
  - induction s as [|c s IH]; [reflexivity|].
    simpl in E. apply andb_true_iff in E as [E1 E2].
    simpl. rewrite utf8_dec_enc1 by assumption. now rewrite IH.
  - intros x Hx. apply in_flat_map in Hx as [c [Hc Hx]].
    apply byte_of_to_N. eapply utf8_enc1_lt; [|eassumption].
    rewrite forallb_forall in E. now apply E.
Qed.

Definition ascii_str (s : str) : bool := forallb (fun c => N.ltb c 128) s.

Lemma utf8_enc_ascii s : ascii_str s = true -> utf8_enc s = Some (map byte_of s).
Proof.
  intro H. unfold utf8_enc.
  assert (E : forallb scalar s = true).
  { eapply forallb_impl; [|exact H]. intros x Hx. apply N.ltb_lt in Hx.
    unfold scalar, surrogate. apply andb_true_iff. split; [apply N.ltb_lt; lia|].
    apply negb_true_iff, andb_false_iff. left. apply N.leb_gt. lia. }
  rewrite E. f_equal. f_equal. induction s as [|c s IH]; [reflexivity|].
  simpl in H, E. apply andb_true_iff in H as [H1 H2]. apply andb_true_iff in E as [_ E].
  cbn [flat_map]. unfold utf8_enc1 at 1. rewrite H1. cbn [app]. now rewrite IH.
Qed.

Lemma bytes_to_str_ascii s : ascii_str s = true -> map Byte.to_N (map byte_of s) = s.
Proof.
  intro H. rewrite map_map, (map_ext_in _ (fun x => x)), map_id; [reflexivity|].
  intros x Hx. apply byte_of_to_N. unfold ascii_str in H. rewrite forallb_forall in H.
  apply H, N.ltb_lt in Hx. lia.
Qed.

Lemma utf8_enc_app a b :
  utf8_enc (a ++ b) =
  match utf8_enc a, utf8_enc b with Some x, Some y => Some (x ++ y) | _, _ => None end.
Proof.
  unfold utf8_enc. rewrite forallb_app. destruct (forallb scalar a); simpl; [|reflexivity].
  destruct (forallb scalar b); [|reflexivity].
  now rewrite flat_map_app, map_app.
Qed.

(** ** Prefixes *)
Lemma prefixb_spec {A} (eqb : A -> A -> bool) (H : forall x y, eqb x y = true <-> x = y) p s :
  prefixb eqb p s = true <-> exists r, s = p ++ r.
Proof.
  revert s. induction p as [|x p IH]; intros s; simpl.
  - split; [|reflexivity]. intros _. now exists s.
  - destruct s as [|y s].
    + split; [discriminate|]. intros [r E]. discriminate.
    + rewrite andb_true_iff, H, IH. split.
      * intros [-> [r ->]]. now exists r.
      * intros [r E]. inversion E; subst. split; [reflexivity|]. now exists r.
Qed.

Lemma startswith_spec s p : startswith s p = true <-> exists r, s = p ++ r.
Proof. apply prefixb_spec. apply N.eqb_eq. Qed.

Lemma startswith_app p r : startswith (p ++ r) p = true.
Proof. apply startswith_spec. now exists r. Qed.

Lemma skipn_app_exact {A} (p r : list A) : skipn (length p) (p ++ r) = r.
Proof. induction p; simpl; auto. Qed.

Lemma app_len_inj {A} (x y a b : list A) :
  length x = length y -> x ++ a = y ++ b -> x = y /\ a = b.
Proof.
  revert y. induction x as [|c x IH]; destruct y as [|d y]; simpl; intros L E;
    try discriminate; [auto|].
  inversion E; subst. destruct (IH y) as [-> ->]; auto.
Qed.

Lemma Ok_inj {A} (a b : A) : Ok a = Ok b -> a = b.
Proof. congruence. Qed.
