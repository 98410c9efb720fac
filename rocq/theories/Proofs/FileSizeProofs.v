(** * Lemmas on sizes in human form *)
From Coq Require Import String NArith ZArith Bool List Lia.
From Verif Require Import Model.Py Model.Meta Spec.FileSizeSpec Proofs.PyLemmas.
Import ListNotations.

(** ** Rounding *)
Lemma half_even_near a b : b <> 0%N -> (2 * a <= 2 * (div_half_even a b * b) + b /\ 2 * (div_half_even a b * b) <= 2 * a + b)%N.
Proof.
  intro Hb. pose proof (N.div_mod a b Hb) as D. pose proof (N.mod_lt a b Hb) as R.
  unfold div_half_even. set (q := (a / b)%N) in *. set (r := (a mod b)%N) in *.
  destruct (N.ltb_spec (2 * r) b); [split; lia|]. destruct (N.ltb_spec b (2 * r)); [split; lia|].
  destruct (N.even q); split; lia.
Qed.
Lemma half_even_range a b : (a / b <= div_half_even a b <= a / b + 1)%N.
Proof. unfold div_half_even. destruct (N.ltb _ _); [lia|]. destruct (N.ltb _ _); [lia|]. destruct (N.even _); lia. Qed.
Lemma half_even_mono a a' b : b <> 0%N -> (a <= a')%N -> (div_half_even a b <= div_half_even a' b)%N.
Proof.
  intros Hb L. pose proof (N.div_le_mono a a' b Hb L) as Q.
  pose proof (half_even_range a b) as R1. pose proof (half_even_range a' b) as R2.
  destruct (N.eq_dec (a / b) (a' / b)) as [E|E]; [|lia].
  pose proof (N.div_mod a b Hb) as D. pose proof (N.div_mod a' b Hb) as D'.
  unfold div_half_even. rewrite <- E in *. set (q := (a / b)%N) in *.
  assert (M : (a mod b <= a' mod b)%N) by lia. set (r := (a mod b)%N) in *. set (r' := (a' mod b)%N) in *.
  destruct (N.ltb_spec (2 * r) b); destruct (N.ltb_spec (2 * r') b); destruct (N.ltb_spec b (2 * r)); destruct (N.ltb_spec b (2 * r')); destruct (N.even q); lia.
Qed.
Lemma half_even_exact q b : b <> 0%N -> div_half_even (q * b) b = q.
Proof.
  intro Hb. unfold div_half_even. rewrite N.div_mul, N.mod_mul by exact Hb.
  destruct (N.ltb_spec (2 * 0) b); [reflexivity|lia].
Qed.

(** ** Doubles *)
Lemma pow_pos2 e : (2 ^ e <> 0)%N.
Proof. apply N.pow_nonzero. discriminate. Qed.
Lemma log2_big n : (2 ^ 53 <= n)%N -> (53 <= N.log2 n)%N /\ (2 ^ N.log2 n <= n < 2 ^ (N.log2 n + 1))%N.
Proof.
  intro H. assert (P : (0 < n)%N) by (eapply N.lt_le_trans; [|exact H]; reflexivity). split.
  - apply N.log2_le_pow2; assumption.
  - pose proof (N.log2_spec n P) as S. now rewrite <- N.add_1_r in S.
Qed.
Lemma double_exact m j : (m <= 2 ^ 53)%N -> to_double (m * 2 ^ j) = (m * 2 ^ j)%N.
Proof.
  intro Hm. unfold to_double. destruct (N.ltb_spec (m * 2 ^ j) (2 ^ 53)) as [L|L]; [reflexivity|].
  destruct (log2_big _ L) as [L1 [L2 L3]]. set (x := (m * 2 ^ j)%N) in *. set (e := (N.log2 x - 52)%N).
  assert (D : exists q, x = (q * 2 ^ e)%N).
  { destruct (N.eq_dec m (2 ^ 53)) as [->|Nm].
    - assert (E : x = (2 ^ (53 + j))%N) by (unfold x; now rewrite N.pow_add_r).
      exists (2 ^ (53 + j - e))%N. rewrite <- N.pow_add_r, E. f_equal. unfold e. rewrite E, N.log2_pow2 by apply N.le_0_l. lia.
    - assert (Lt : (x < 2 ^ (53 + j))%N).
      { unfold x. rewrite N.pow_add_r. apply N.mul_lt_mono_pos_r; [|lia]. pose proof (pow_pos2 j). lia. }
      assert (Le : (N.log2 x < 53 + j)%N).
      { apply (N.pow_lt_mono_r_iff 2); [reflexivity|]. eapply N.le_lt_trans; [exact L2|exact Lt]. }
      exists (m * 2 ^ (j - e))%N. unfold x. rewrite <- N.mul_assoc, <- N.pow_add_r. f_equal. f_equal. lia. }
  destruct D as (q & D). rewrite D at 1. rewrite half_even_exact by apply pow_pos2. symmetry. exact D.
Qed.
Lemma double_form n : exists m j, (m <= 2 ^ 53)%N /\ to_double n = (m * 2 ^ j)%N.
Proof.
  unfold to_double. destruct (N.ltb_spec n (2 ^ 53)) as [L|L].
  - exists n, 0%N. split; [now apply N.lt_le_incl|]. now rewrite N.pow_0_r, N.mul_1_r.
  - destruct (log2_big _ L) as [L1 [L2 L3]]. set (e := (N.log2 n - 52)%N). exists (div_half_even n (2 ^ e)), e. split; [|reflexivity].
    rewrite <- (half_even_exact (2 ^ 53) (2 ^ e)) by apply pow_pos2. apply half_even_mono; [apply pow_pos2|].
    rewrite <- N.pow_add_r. replace (53 + e)%N with (N.log2 n + 1)%N by (unfold e; lia). now apply N.lt_le_incl.
Qed.
Lemma double_twice n : to_double (to_double n) = to_double n.
Proof. destruct (double_form n) as (m & j & Hm & E). rewrite E. now apply double_exact. Qed.
Lemma double_low n : (2 ^ 53 <= n)%N -> (2 ^ N.log2 n <= to_double n <= 2 ^ (N.log2 n + 1))%N.
Proof.
  intro L. destruct (log2_big _ L) as [L1 [L2 L3]]. unfold to_double. destruct (N.ltb_spec n (2 ^ 53)) as [K|_]; [lia|].
  set (e := (N.log2 n - 52)%N). pose proof (pow_pos2 e) as P.
  assert (E1 : (2 ^ N.log2 n = 2 ^ 52 * 2 ^ e)%N) by (rewrite <- N.pow_add_r; f_equal; unfold e; lia).
  assert (E2 : (2 ^ (N.log2 n + 1) = 2 ^ 53 * 2 ^ e)%N) by (rewrite <- N.pow_add_r; f_equal; unfold e; lia).
  split.
  - rewrite E1. apply N.mul_le_mono_r. rewrite <- (half_even_exact (2 ^ 52) (2 ^ e) P). apply half_even_mono; [exact P|]. now rewrite <- E1.
  - rewrite E2. apply N.mul_le_mono_r. rewrite <- (half_even_exact (2 ^ 53) (2 ^ e) P). apply half_even_mono; [exact P|]. rewrite <- E2. now apply N.lt_le_incl.
Qed.
Lemma double_mono n n' : (n <= n')%N -> (to_double n <= to_double n')%N.
Proof.
  intro H. destruct (N.ltb_spec n (2 ^ 53)) as [L|L].
  - assert (E : to_double n = n) by (unfold to_double; now rewrite (proj2 (N.ltb_lt _ _) L)). rewrite E.
    destruct (N.ltb_spec n' (2 ^ 53)) as [L'|L'].
    + assert (E' : to_double n' = n') by (unfold to_double; now rewrite (proj2 (N.ltb_lt _ _) L')). now rewrite E'.
    + destruct (double_low _ L') as [D _]. destruct (log2_big _ L') as [G _].
      apply N.le_trans with (2 ^ 53)%N; [now apply N.lt_le_incl|]. apply N.le_trans with (2 ^ N.log2 n')%N; [|exact D].
      now apply N.pow_le_mono_r.
  - assert (L' : (2 ^ 53 <= n')%N) by (eapply N.le_trans; eassumption).
    pose proof (N.log2_le_mono _ _ H) as G. destruct (N.eq_dec (N.log2 n) (N.log2 n')) as [E|E].
    + unfold to_double. rewrite (proj2 (N.ltb_ge _ _) L), (proj2 (N.ltb_ge _ _) L'), E. apply N.mul_le_mono_r.
      apply half_even_mono; [apply pow_pos2|exact H].
    + destruct (double_low _ L) as [_ D]. destruct (double_low _ L') as [D' _].
      eapply N.le_trans; [exact D|]. eapply N.le_trans; [|exact D']. apply N.pow_le_mono_r; [discriminate|lia].
Qed.
(** The relative error *)
Lemma double_near n : (2 ^ 53 * to_double n <= 2 ^ 53 * n + n /\ 2 ^ 53 * n <= 2 ^ 53 * to_double n + n)%N.
Proof.
  destruct (N.ltb_spec n (2 ^ 53)) as [L|L].
  - assert (E : to_double n = n) by (unfold to_double; now rewrite (proj2 (N.ltb_lt _ _) L)). rewrite E. split; apply N.le_add_r.
  - destruct (log2_big _ L) as [L1 [L2 L3]]. unfold to_double. rewrite (proj2 (N.ltb_ge _ _) L).
    set (e := (N.log2 n - 52)%N). destruct (half_even_near n (2 ^ e) (pow_pos2 e)) as [A B].
    set (x := (div_half_even n (2 ^ e) * 2 ^ e)%N) in *.
    assert (E1 : (2 ^ N.log2 n = 2 ^ 52 * 2 ^ e)%N) by (rewrite <- N.pow_add_r; f_equal; unfold e; lia).
    rewrite E1 in L2. change (2 ^ 53)%N with (2 * 2 ^ 52)%N. set (p := (2 ^ e)%N) in *. generalize dependent x. clear E1 L L1 L3.
    revert L2. generalize (2 ^ 52)%N. intros c L2 x A B.
    pose proof (N.mul_le_mono_l _ _ c A). pose proof (N.mul_le_mono_l _ _ c B). split; nia.
Qed.
Lemma double_small n : (n < 2 ^ 53)%N -> to_double n = n.
Proof. intro H. unfold to_double. now rewrite (proj2 (N.ltb_lt _ _) H). Qed.

(** ** The text *)
(** What is counted: the size itself below 1024, then the double *)
Definition counted (n : N) : N := if N.ltb n 1024 then n else to_double n.
Lemma counted_eq n : counted n = to_double n.
Proof.
  unfold counted. destruct (N.ltb_spec n 1024) as [L|L]; [|reflexivity]. symmetry. apply double_small. eapply N.lt_trans; [exact L|reflexivity].
Qed.

Definition picks (units : list str) (x : N) (k : N) (t : str) : Prop :=
  (exists i u, nth_error units i = Some u /\ (x < 1024 ^ (k + N.of_nat i + 1))%N /\ (i <> 0%nat -> 1024 ^ (k + N.of_nat i) <= x)%N /\
     t = dec_N (div_half_even x (1024 ^ (k + N.of_nat i))) ++ u) \/
  ((units <> [] -> 1024 ^ (k + N.of_nat (length units)) <= x)%N /\
   let q := div_half_even (10 * x) (1024 ^ (k + N.of_nat (length units))) in
   t = dec_N (q / 10) ++ $"." ++ dec_N (q mod 10) ++ $"Yi").
Lemma fmt_picks units : forall x k, to_double x = x -> picks units x k (sizeof_fmt units x k).
Proof.
  induction units as [|u units IH]; intros x k D; cbn [sizeof_fmt].
  - right. split; [easy|]. cbn [length N.of_nat]. rewrite N.add_0_r. reflexivity.
  - destruct (N.ltb_spec x (1024 ^ (k + 1))) as [L|L].
    + left. exists 0%nat, u. cbn [N.of_nat]. rewrite N.add_0_r. repeat split; auto. easy.
    + rewrite D. destruct (IH x (k + 1)%N D) as [(i & v & N1 & N2 & N3 & N4)|(N1 & N2)].
      * left. exists (S i), v. replace (k + N.of_nat (S i))%N with (k + 1 + N.of_nat i)%N by lia.
        repeat split; auto. intros _. destruct i; [|now apply N3]. cbn [N.of_nat]. now rewrite N.add_0_r.
      * right. cbn [length]. replace (k + N.of_nat (S (length units)))%N with (k + 1 + N.of_nat (length units))%N by lia.
        split; [|exact N2]. intros _. destruct units; [cbn [length N.of_nat]; now rewrite N.add_0_r|now apply N1].
Qed.
Lemma fmt_counted units n : sizeof_fmt ($"" :: units) n 0 = sizeof_fmt ($"" :: units) (counted n) 0.
Proof.
  unfold counted. cbn [sizeof_fmt]. change (1024 ^ (0 + 1))%N with 1024%N. destruct (N.ltb_spec n 1024) as [L|L].
  - rewrite (proj2 (N.ltb_lt _ _) L). reflexivity.
  - assert (G : (1024 <= to_double n)%N).
    { change 1024%N with (to_double 1024). now apply double_mono. }
    rewrite (proj2 (N.ltb_ge _ _) G), double_twice. reflexivity.
Qed.

Lemma dec_numeral n : numeral (dec_N n) n.
Proof. split; [apply dec_N_spec|apply pnat_dec_N]. Qed.

(** What the text says, in tenths of a byte *)
Definition shown_as (n v : N) : Prop :=
  let x := to_double n in
  (exists k, (k < 8)%nat /\ (x < unit_size (S k))%N /\ (k <> 0%nat -> unit_size k <= x)%N /\ v = (10 * (div_half_even x (unit_size k) * unit_size k))%N) \/
  ((unit_size 8 <= x)%N /\ v = (div_half_even (10 * x) (unit_size 8) * unit_size 8)%N).

Lemma pnat_one d : (d < 10)%N -> dec_N d = [(48 + d)%N] /\ pnat [(48 + d)%N] = Some d.
Proof.
  intro H. assert (E : forallb (fun d => (str_eqb (dec_N d) [48 + d] && match pnat [48 + d]%N with Some e => N.eqb e d | None => false end)%bool%N) (map N.of_nat (seq 0 10)) = true)
    by (vm_compute; reflexivity).
  rewrite forallb_forall in E. specialize (E d). rewrite andb_true_iff in E. destruct E as [E1 E2].
  - apply in_map_iff. exists (N.to_nat d). split; [apply N2Nat.id|]. apply in_seq. lia.
  - split; [now apply str_eqb_eq|]. destruct (pnat _); [|discriminate]. apply N.eqb_eq in E2. now subst.
Qed.

Lemma hr_nat z t : (0 <= z)%Z -> hr z = Ok t -> t = sizeof_fmt unit_names (to_double (Z.to_N z)) 0 /\ (to_double (Z.to_N z) < 2 ^ 1024)%N.
Proof.
  intros P H. unfold hr in H.
  assert (E : (if N.leb (2 ^ 1024) (to_double (Z.to_N z)) then Err OverflowErr else Ok (sizeof_fmt unit_names (Z.to_N z) 0)) = Ok t)
    by (destruct z; [exact H|exact H|lia]).
  clear H. destruct (N.leb_spec (2 ^ 1024) (to_double (Z.to_N z))) as [L|L]; [discriminate|]. split; [|exact L].
  assert (E' : t = sizeof_fmt unit_names (Z.to_N z) 0) by congruence. clear E. rewrite E', <- counted_eq. exact (fmt_counted (tl unit_names) (Z.to_N z)).
Qed.

Lemma hr_says z t : (0 <= z)%Z -> hr z = Ok t -> exists v, says t v /\ shown_as (Z.to_N z) v.
Proof.
  intros P H. destruct (hr_nat z t P H) as [-> _]. set (n := Z.to_N z). unfold shown_as. 
  destruct (fmt_picks unit_names (to_double n) 0 (double_twice n)) as [(i & u & N1 & N2 & N3 & N4)|(N1 & N2)].
  - rewrite N4. rewrite N.add_0_l in *. exists (10 * (div_half_even (to_double n) (unit_size i) * unit_size i))%N. split.
    + left. exists (div_half_even (to_double n) (unit_size i)), i. split; [|reflexivity]. exists (dec_N (div_half_even (to_double n) (unit_size i))), u.
      split; [reflexivity|]. split; [apply dec_numeral|exact N1].
    + left. exists i. assert (Li : (i < 8)%nat) by (change 8%nat with (length unit_names); apply nth_error_Some; congruence).
      split; [exact Li|]. split; [|split; [exact N3|reflexivity]]. unfold unit_size. rewrite Nat2N.inj_succ, <- N.add_1_r. exact N2.
  - cbv zeta in N2. rewrite N2. change (0 + N.of_nat (length unit_names))%N with 8%N in *. change (1024 ^ 8)%N with (unit_size 8) in *.
    set (q := div_half_even (10 * to_double n) (unit_size 8)) in *. exists (q * unit_size 8)%N. split.
    + right. exists q. split; [|reflexivity]. assert (M : (q mod 10 < 10)%N) by (apply N.mod_lt; discriminate).
      destruct (pnat_one _ M) as [E1 E2]. exists (dec_N (q / 10)), (48 + q mod 10)%N, (q / 10)%N, (q mod 10)%N.
      split; [now rewrite E1|]. split; [apply dec_numeral|]. split; [rewrite <- E1; apply dec_numeral|]. apply N.div_mod. discriminate.
    + right. split; [apply N1; discriminate|reflexivity].
Qed.

(** ** A text says one thing *)
Lemma span_digits a b c d : forallb is_digit a = true -> forallb is_digit c = true ->
  match b with x :: _ => is_digit x = false | [] => True end -> match d with x :: _ => is_digit x = false | [] => True end ->
  a ++ b = c ++ d -> a = c /\ b = d.
Proof.
  revert c. induction a as [|x a IH]; intros c Ha Hc Hb Hd E.
  - destruct c as [|y c]; [now split|]. cbn in E. subst b. cbn in Hc. rewrite Hb in Hc. discriminate.
  - destruct c as [|y c]; cbn in E.
    + subst d. cbn in Ha. rewrite Hd in Ha. discriminate.
    + injection E as -> E. cbn in Ha, Hc. apply andb_true_iff in Ha as [_ Ha]. apply andb_true_iff in Hc as [_ Hc].
      destruct (IH c Ha Hc Hb Hd E) as [-> ->]. now split.
Qed.
Lemma unit_head k u : nth_error unit_names k = Some u -> match u with x :: _ => is_digit x = false | [] => True end.
Proof. intro H. do 8 (destruct k as [|k]; [injection H as <-; vm_compute; auto|]). destruct k; discriminate. Qed.
Lemma unit_one k k' u : nth_error unit_names k = Some u -> nth_error unit_names k' = Some u -> k = k'.
Proof.
  intros H H'. do 8 (destruct k as [|k]; [do 8 (destruct k' as [|k']; [try reflexivity; injection H as <-; discriminate H'|]); destruct k'; discriminate|]).
  destruct k; discriminate.
Qed.
Lemma says_one t v v' : says t v -> says t v' -> v = v'.
Proof.
  assert (X : forall t q k y, whole t q k -> tenths t y -> False).
  { intros t0 q k y (d & u & -> & P & U) (d' & e & a & b & E & P' & _ & _).
    destruct (span_digits d u d' ($"." ++ [e] ++ $"Yi") (proj1 P) (proj1 P') (unit_head _ _ U) eq_refl E) as [_ ->].
    do 8 (destruct k as [|k]; [discriminate U|]). destruct k; discriminate U. }
  intros [(q & k & W & ->)|(y & Y & ->)] [(q' & k' & W' & ->)|(y' & Y' & ->)]; [|destruct (X _ _ _ _ W Y')|destruct (X _ _ _ _ W' Y)|].
  - destruct W as (d & u & -> & P & U). destruct W' as (d' & u' & E & P' & U').
    destruct (span_digits d u d' u' (proj1 P) (proj1 P') (unit_head _ _ U) (unit_head _ _ U') E) as [-> ->].
    destruct P as [_ P], P' as [_ P']. rewrite P in P'. injection P' as ->. now rewrite (unit_one _ _ _ U U').
  - destruct Y as (d & e & a & b & -> & P & Q & ->). destruct Y' as (d' & e' & a' & b' & E & P' & Q' & ->).
    destruct (span_digits d ($"." ++ [e] ++ $"Yi") d' ($"." ++ [e'] ++ $"Yi") (proj1 P) (proj1 P') eq_refl eq_refl E) as [-> E'].
    cbn in E'. injection E' as ->. destruct P as [_ P], P' as [_ P'], Q as [_ Q], Q' as [_ Q']. rewrite P in P'. rewrite Q in Q'. injection P' as ->. injection Q' as ->. reflexivity.
Qed.

(** ** Order *)
Lemma unit_pos k : (unit_size k <> 0)%N.
Proof. apply N.pow_nonzero. discriminate. Qed.
Lemma unit_S k : unit_size (S k) = (1024 * unit_size k)%N.
Proof. unfold unit_size. rewrite Nat2N.inj_succ. apply N.pow_succ_r'. Qed.
Lemma unit_le k k' : (k <= k')%nat -> (unit_size k <= unit_size k')%N.
Proof. intro H. apply N.pow_le_mono_r; [discriminate|lia]. Qed.
Lemma unit_lt_inv k k' : (unit_size k < unit_size k')%N -> (k < k')%nat.
Proof. intro H. apply N.pow_lt_mono_r_iff in H; [lia|reflexivity]. Qed.

(** A size from the unit [k] up is shown as at least one of it, one below as at most one. *)
Lemma shown_low n v k : (k <= 8)%nat -> shown_as n v -> (unit_size k <= to_double n)%N -> (10 * unit_size k <= v)%N.
Proof.
  intros K [(j & J & L1 & L2 & ->)|(L1 & ->)] L.
  - assert (Kj : (k <= j)%nat).
    { assert (unit_size k < unit_size (S j))%N by (eapply N.le_lt_trans; eassumption). apply unit_lt_inv in H. lia. }
    apply N.mul_le_mono_l. eapply N.le_trans; [apply (unit_le k j Kj)|]. rewrite <- (N.mul_1_l (unit_size j)) at 1. apply N.mul_le_mono_r.
    rewrite <- (half_even_exact 1 (unit_size j) (unit_pos j)). apply half_even_mono; [apply unit_pos|]. rewrite N.mul_1_l.
    destruct j; [|now apply L2]. assert (k = 0)%nat by lia. now subst.
  - eapply N.le_trans; [apply N.mul_le_mono_l, (unit_le k 8 K)|]. apply N.mul_le_mono_r.
    rewrite <- (half_even_exact 10 (unit_size 8) (unit_pos 8)). apply half_even_mono; [apply unit_pos|]. now apply N.mul_le_mono_l.
Qed.
Lemma shown_high n v k : (k <= 8)%nat -> shown_as n v -> (to_double n < unit_size k)%N -> (v <= 10 * unit_size k)%N.
Proof.
  intros K [(j & J & L1 & L2 & ->)|(L1 & ->)] L.
  - assert (Kj : (j <= k)%nat).
    { destruct j; [lia|]. assert (H : (unit_size (S j) < unit_size k)%N) by (eapply N.le_lt_trans; [now apply L2|exact L]).
      apply unit_lt_inv in H. lia. }
    apply N.mul_le_mono_l. assert (E : unit_size k = (unit_size (k - j) * unit_size j)%N).
    { unfold unit_size. rewrite <- N.pow_add_r. f_equal. lia. }
    rewrite E. apply N.mul_le_mono_r. rewrite <- (half_even_exact (unit_size (k - j)) (unit_size j) (unit_pos j)).
    apply half_even_mono; [apply unit_pos|]. rewrite <- E. now apply N.lt_le_incl.
  - exfalso. pose proof (unit_le k 8 K) as M. apply (N.lt_irrefl (unit_size k)). eapply N.le_lt_trans; [exact M|]. eapply N.le_lt_trans; [exact L1|exact L].
Qed.
Lemma shown_mono n n' v v' : (n <= n')%N -> shown_as n v -> shown_as n' v' -> (v <= v')%N.
Proof.
  intros H S S'. pose proof (double_mono n n' H) as D. pose proof S as T. pose proof S' as T'.
  destruct S as [(k & K & L1 & L2 & E)|(L1 & E)]; destruct S' as [(k' & K' & L1' & L2' & E')|(L1' & E')].
  - destruct (Nat.lt_trichotomy k k') as [Hk|[<-|Hk]].
    + apply N.le_trans with (10 * unit_size k')%N.
      * apply (shown_high n v k'); [lia|exact T|]. eapply N.lt_le_trans; [exact L1|]. now apply unit_le.
      * apply (shown_low n' v' k'); [lia|exact T'|]. apply L2'. lia.
    + rewrite E, E'. apply N.mul_le_mono_l, N.mul_le_mono_r, half_even_mono; [apply unit_pos|exact D].
    + exfalso. apply (N.lt_irrefl (to_double n)). eapply N.le_lt_trans; [exact D|]. eapply N.lt_le_trans; [exact L1'|].
      eapply N.le_trans; [apply (unit_le (S k') k); lia|]. apply L2. lia.
  - apply N.le_trans with (10 * unit_size 8)%N.
    + apply (shown_high n v 8); [lia|exact T|]. eapply N.lt_le_trans; [exact L1|]. apply unit_le. lia.
    + apply (shown_low n' v' 8); [lia|exact T'|exact L1'].
  - exfalso. apply (N.lt_irrefl (to_double n)). eapply N.le_lt_trans; [exact D|]. eapply N.lt_le_trans; [exact L1'|].
    eapply N.le_trans; [|exact L1]. apply unit_le. lia.
  - rewrite E, E'. apply N.mul_le_mono_r, half_even_mono; [apply unit_pos|now apply N.mul_le_mono_l].
Qed.

(** ** The theorems *)
Theorem hr_negative z : (z < 0)%Z -> hr z = Ok $"??".
Proof. destruct z; [lia|lia|reflexivity]. Qed.
Theorem hr_fails z : hr z = Err OverflowErr <-> (2 ^ 1024 - 2 ^ 970 <= z)%Z.
Proof.
  assert (P : (0 <= 2 ^ 1024 - 2 ^ 970)%Z) by (vm_compute; discriminate).
  assert (E : (0 <= z)%Z -> (hr z = Err OverflowErr <-> (2 ^ 1024 <= to_double (Z.to_N z))%N)).
  { intro Hz. assert (E : hr z = if N.leb (2 ^ 1024) (to_double (Z.to_N z)) then Err OverflowErr else Ok (sizeof_fmt unit_names (Z.to_N z) 0))
      by (destruct z; [reflexivity|reflexivity|lia]).
    rewrite E. destruct (N.leb_spec (2 ^ 1024) (to_double (Z.to_N z))) as [L|L]; split; intro H; try reflexivity; try assumption; [discriminate|].
    exfalso. apply (N.lt_irrefl (2 ^ 1024)). eapply N.le_lt_trans; [exact H|exact L]. }
  destruct (Z.lt_ge_cases z 0) as [N1|N1].
  - rewrite hr_negative by exact N1. split; [discriminate|]. intro H. exfalso. apply (Z.lt_irrefl z). eapply Z.lt_le_trans; [exact N1|]. eapply Z.le_trans; [exact P|exact H].
  - rewrite (E N1). clear E. split; intro H.
    + destruct (Z.lt_ge_cases z (2 ^ 1024 - 2 ^ 970)) as [L|L]; [|exact L]. exfalso.
      assert (L' : (Z.to_N z <= 2 ^ 1024 - 2 ^ 970 - 1)%N).
      { replace (2 ^ 1024 - 2 ^ 970 - 1)%N with (Z.to_N (2 ^ 1024 - 2 ^ 970 - 1)) by (vm_compute; reflexivity).
        apply Z2N.inj_le; [exact N1|vm_compute; discriminate|]. apply Z.lt_le_pred in L. exact L. }
      apply double_mono in L'. apply (N.lt_irrefl (2 ^ 1024)). eapply N.le_lt_trans; [exact H|]. eapply N.le_lt_trans; [exact L'|]. vm_compute. reflexivity.
    + apply N.le_trans with (to_double (Z.to_N (2 ^ 1024 - 2 ^ 970))); [vm_compute; discriminate|]. apply double_mono.
      apply Z2N.inj_le; [exact P|exact N1|exact H].
Qed.
Theorem hr_mono z z' t t' v v' : (0 <= z <= z')%Z -> hr z = Ok t -> hr z' = Ok t' -> says t v -> says t' v' -> (v <= v')%N.
Proof.
  intros [Hz Hz'] H H' S S'. destruct (hr_says z t Hz H) as (w & W1 & W2). destruct (hr_says z' t' (Z.le_trans _ _ _ Hz Hz') H') as (w' & W1' & W2').
  rewrite (says_one t v w S W1), (says_one t' v' w' S' W1'). apply (shown_mono (Z.to_N z) (Z.to_N z')); try assumption.
  apply Z2N.inj_le; [exact Hz|now apply Z.le_trans with z|exact Hz'].
Qed.
(** Below 2^53 bytes: half of the unit, the largest one that is not larger than the size. *)
Theorem hr_close z t : (0 <= z < 2 ^ 53)%Z -> hr z = Ok t ->
  exists q k, whole t q k /\ (Z.to_N z < unit_size (S k))%N /\ (k = 0%nat \/ unit_size k <= Z.to_N z)%N /\
    within (unit_size k) (2 * (q * unit_size k)) (2 * Z.to_N z) /\ (q <= 1024)%N.
Proof.
  intros [Hz Lz] H. destruct (hr_nat z t Hz H) as [-> _]. set (n := Z.to_N z).
  assert (Ln : (n < 2 ^ 53)%N) by (change (2 ^ 53)%N with (Z.to_N (2 ^ 53)); apply Z2N.inj_lt; [exact Hz|discriminate|exact Lz]).
  rewrite (double_small n Ln).
  destruct (fmt_picks unit_names n 0 (double_small n Ln)) as [(i & u & N1 & N2 & N3 & N4)|(N1 & _)].
  - rewrite N4, N.add_0_l in *. fold (unit_size i) in *. exists (div_half_even n (unit_size i)), i.
    assert (N2' : (n < unit_size (S i))%N) by (unfold unit_size; rewrite Nat2N.inj_succ, <- N.add_1_r; exact N2).
    split; [exists (dec_N (div_half_even n (unit_size i))), u; split; [reflexivity|]; split; [apply dec_numeral|exact N1]|].
    split; [exact N2'|]. split; [destruct i; [now left|right; now apply N3]|].
    destruct (half_even_near n (unit_size i) (unit_pos i)) as [A B]. split; [split; [exact B|exact A]|].
    rewrite <- (half_even_exact 1024 (unit_size i) (unit_pos i)). apply half_even_mono; [apply unit_pos|]. rewrite <- unit_S. now apply N.lt_le_incl.
  - exfalso. assert (K : (1024 ^ 8 <= n)%N) by (apply N1; discriminate). apply (N.lt_irrefl n). eapply N.lt_trans; [exact Ln|]. eapply N.lt_le_trans; [|exact K]. reflexivity.
Qed.
Lemma close_a u y x n : (2 * x <= 2 * y + u -> 2 * y <= 2 * x + u -> 2 ^ 53 * x <= 2 ^ 53 * n + n -> 2 ^ 53 * n <= 2 ^ 53 * x + n ->
  within (2 ^ 53 * (5 * u) + 10 * n) (2 ^ 53 * (10 * y)) (2 ^ 53 * (10 * n)))%N.
Proof. change (2 ^ 53)%N with 9007199254740992%N. unfold within. lia. Qed.
Lemma close_b u y x n : (2 * (10 * x) <= 2 * y + u -> 2 * y <= 2 * (10 * x) + u -> 2 ^ 53 * x <= 2 ^ 53 * n + n -> 2 ^ 53 * n <= 2 ^ 53 * x + n ->
  within (2 ^ 53 * (5 * u) + 10 * n) (2 ^ 53 * y) (2 ^ 53 * (10 * n)))%N.
Proof. change (2 ^ 53)%N with 9007199254740992%N. unfold within. lia. Qed.
(** For every size: half of the unit, and what is lost by taking it for a double.  The unit
    is never more than twice the size. *)
Theorem hr_close_all z t : (0 <= z)%Z -> hr z = Ok t ->
  exists v u, says t v /\ (u = 1%N \/ u <= 2 * Z.to_N z)%N /\
    within (2 ^ 53 * (5 * u) + 10 * Z.to_N z) (2 ^ 53 * v) (2 ^ 53 * (10 * Z.to_N z)).
Proof.
  intros Hz H. destruct (hr_says z t Hz H) as (v & W1 & W2). set (n := Z.to_N z) in *. exists v. pose proof (double_near n) as [D1 D2].
  set (x := to_double n) in *.
  assert (U : forall u, (u <= x -> u <= 2 * n)%N).
  { intros u Hu. assert (x <= 2 * n)%N; [|eapply N.le_trans; eassumption]. revert D1. generalize x. intro y. change (2 ^ 53)%N with 9007199254740992%N. lia. }
  destruct W2 as [(k & K & L1 & L2 & ->)|(L1 & ->)].
  - exists (unit_size k). split; [exact W1|]. split; [destruct k; [left; reflexivity|right; apply U; now apply L2]|].
    destruct (half_even_near x (unit_size k) (unit_pos k)) as [A B]. fold x. set (y := (div_half_even x (unit_size k) * unit_size k)%N) in *.
    apply (close_a (unit_size k) y x n); assumption.
  - exists (unit_size 8). split; [exact W1|]. split; [right; now apply U|].
    destruct (half_even_near (10 * x) (unit_size 8) (unit_pos 8)) as [A B]. fold x. set (y := (div_half_even (10 * x) (unit_size 8) * unit_size 8)%N) in *.
    apply (close_b (unit_size 8) y x n); assumption.
Qed.
