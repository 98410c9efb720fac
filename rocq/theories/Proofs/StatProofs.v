(** * Proofs about the stat parser *)
From Coq Require Import String NArith ZArith Bool List Lia.
From Verif Require Import Model.Py Model.Stat Spec.StatSpec Proofs.PyLemmas.
Import ListNotations.

(** ** Splitting at two blanks *)
Fixpoint nodbl (s : str) : bool :=
  match s with
  | [] => true
  | c :: r => match r with
              | d :: _ => (negb (N.eqb c 32 && N.eqb d 32) && nodbl r)%bool
              | [] => true end
  end.
Definition nolast (s : str) : Prop := last s 0%N <> 32%N.

Lemma split_dbl_cons2 c d r : split_dbl (c :: d :: r) =
  if (N.eqb c 32 && N.eqb d 32)%bool then [] :: split_dbl r
  else match split_dbl (d :: r) with h :: t => (c :: h) :: t | [] => [[c]] end.
Proof. reflexivity. Qed.

Lemma nodbl_cons2 c d r : nodbl (c :: d :: r) = (negb (N.eqb c 32 && N.eqb d 32) && nodbl (d :: r))%bool.
Proof. reflexivity. Qed.

Lemma two_step (P : list N -> Prop) : P [] -> (forall c, P [c]) -> (forall c d r, P r -> P (d :: r) -> P (c :: d :: r)) ->
  forall s, P s.
Proof.
  intros H0 H1 H2 s. enough (P s /\ forall c, P (c :: s)) by tauto.
  induction s as [|d r [A B]]; split; auto.
Qed.

Lemma split_dbl_one s : nodbl s = true -> split_dbl s = [s].
Proof.
  induction s as [|c|c d r IH1 IH2] using two_step; intro H; try reflexivity.
  rewrite nodbl_cons2, andb_true_iff, negb_true_iff in H. destruct H as [H1 H2].
  rewrite split_dbl_cons2, H1, (IH2 H2). reflexivity.
Qed.

Lemma split_dbl_ne s : split_dbl s <> [].
Proof.
  destruct s as [|c [|d r]]; try discriminate. rewrite split_dbl_cons2.
  destruct (_ && _)%bool; [discriminate|]. destruct (split_dbl (d :: r)); discriminate.
Qed.

Lemma split_dbl_app a rest : nodbl a = true -> nolast a ->
  split_dbl (a ++ 32%N :: 32%N :: rest) = a :: split_dbl rest.
Proof.
  induction a as [|c|c d r IH1 IH2] using two_step; intros H L; [reflexivity| |].
  - cbn [app]. rewrite split_dbl_cons2. unfold nolast in L. cbn in L.
    destruct (N.eqb_spec c 32); [contradiction|]. cbn [andb]. rewrite split_dbl_cons2. reflexivity.
  - rewrite nodbl_cons2, andb_true_iff, negb_true_iff in H. destruct H as [H1 H2].
    change ((c :: d :: r) ++ 32%N :: 32%N :: rest) with (c :: d :: (r ++ 32%N :: 32%N :: rest)).
    rewrite split_dbl_cons2, H1.
    change (d :: r ++ 32%N :: 32%N :: rest) with ((d :: r) ++ 32%N :: 32%N :: rest).
    rewrite IH2; [reflexivity|assumption|]. unfold nolast in *. exact L.
Qed.

Lemma split_dbl_join l : l <> [] -> (forall x, In x l -> nodbl x = true /\ nolast x) ->
  split_dbl (join $"  " l) = l.
Proof.
  induction l as [|x l IH]; intros N H; [congruence|]. destruct l as [|y l].
  - cbn [join]. apply split_dbl_one, H. now left.
  - rewrite join_cons. change ($"  " ++ join $"  " (y :: l)) with (32%N :: 32%N :: join $"  " (y :: l)).
    rewrite split_dbl_app by (apply H; now left). f_equal. apply IH; [discriminate|].
    intros z Hz. apply H. now right.
Qed.

Lemma split_dbl_length (s rest : str) : hd 0%N rest <> 32%N ->
  length (split_dbl (s ++ 32%N :: 32%N :: rest)) = (length (split_dbl s) + length (split_dbl rest))%nat.
Proof.
  intro R. induction s as [|c|c d r IH1 IH2] using two_step; [reflexivity| |].
  - cbn [app]. rewrite split_dbl_cons2. destruct (N.eqb_spec c 32) as [->|D]; cbn [andb N.eqb Pos.eqb].
    + cbn [length]. assert (E : length (split_dbl (32%N :: rest)) = length (split_dbl rest)).
      { destruct rest as [|x rest]; [reflexivity|]. rewrite split_dbl_cons2. cbn in R.
        destruct (N.eqb_spec x 32); [contradiction|]. cbn [N.eqb Pos.eqb andb].
        pose proof (split_dbl_ne (x :: rest)). destruct (split_dbl (x :: rest)); [congruence|reflexivity]. }
      rewrite E. reflexivity.
    + rewrite split_dbl_cons2. reflexivity.
  - change ((c :: d :: r) ++ 32%N :: 32%N :: rest) with (c :: d :: (r ++ 32%N :: 32%N :: rest)).
    rewrite !split_dbl_cons2. destruct (_ && _)%bool.
    + cbn [length]. rewrite IH1. reflexivity.
    + change (d :: r ++ 32%N :: 32%N :: rest) with ((d :: r) ++ 32%N :: 32%N :: rest).
      pose proof (split_dbl_ne ((d :: r) ++ 32%N :: 32%N :: rest)).
      pose proof (split_dbl_ne (d :: r)).
      destruct (split_dbl ((d :: r) ++ 32%N :: 32%N :: rest)); [congruence|].
      destruct (split_dbl (d :: r)); [congruence|]. exact IH2.
Qed.

Lemma split_dbl_dbl s : nodbl s = false -> (2 <= length (split_dbl s))%nat.
Proof.
  induction s as [|c|c d r IH1 IH2] using two_step; intro H; try discriminate.
  rewrite split_dbl_cons2. rewrite nodbl_cons2 in H. destruct (N.eqb c 32 && N.eqb d 32)%bool eqn:E.
  - cbn [length]. pose proof (split_dbl_ne r). destruct (split_dbl r); [congruence|cbn;lia].
  - cbn in H. specialize (IH2 H). destruct (split_dbl (d :: r)); cbn in *; lia.
Qed.

Lemma nodbl_spec s : nodbl s = false <-> two_blanks s.
Proof.
  split.
  - induction s as [|c|c d r IH1 IH2] using two_step; intro H; try discriminate.
    rewrite nodbl_cons2 in H. apply andb_false_iff in H as [H|H].
    + apply negb_false_iff, andb_true_iff in H as [A B]. apply N.eqb_eq in A, B. subst.
      exists [], r. reflexivity.
    + destruct (IH2 H) as (a & b & ->). exists (c :: a), b. reflexivity.
  - intros (a & b & ->). induction a as [|c|c d r IH1 IH2] using two_step.
    + reflexivity.
    + cbn [app]. change ($"  " ++ b) with (32%N :: 32%N :: b). rewrite nodbl_cons2.
      apply andb_false_iff. right. reflexivity.
    + change ((c :: d :: r) ++ $"  " ++ b) with (c :: d :: (r ++ $"  " ++ b)). rewrite nodbl_cons2.
      apply andb_false_iff. right. exact IH2.
Qed.

Lemma nolast_spec s : nolast s <-> ~ ends_blank s.
Proof.
  unfold nolast, ends_blank. change $" " with [32%N]. split.
  - intros H (a & ->). rewrite last_last in H. congruence.
  - intros H E. destruct s as [|x s]; [discriminate|].
    apply H. exists (removelast (x :: s)). rewrite <- E. apply app_removelast_last. discriminate.
Qed.

Lemma nodbl_noblank s : ~ In 32%N s -> nodbl s = true.
Proof.
  induction s as [|c|c d r IH1 IH2] using two_step; intro H; try reflexivity.
  rewrite nodbl_cons2. destruct (N.eqb_spec c 32) as [->|D]; [exfalso; apply H; now left|].
  cbn [andb negb]. apply IH2. intro K. apply H. now right.
Qed.

Lemma nodbl_app a b : ~ In 32%N a -> hd 0%N b <> 32%N -> nodbl b = true -> nodbl (a ++ 32%N :: b) = true.
Proof.
  intros Ha Hb H. induction a as [|c a IH].
  - cbn [app]. destruct b as [|x b]; [reflexivity|]. rewrite nodbl_cons2. cbn in Hb.
    destruct (N.eqb_spec x 32); [contradiction|]. exact H.
  - assert (D : c <> 32%N) by (intro; subst; apply Ha; now left).
    cbn [app]. destruct (a ++ 32%N :: b) as [|y r] eqn:E; [reflexivity|].
    rewrite nodbl_cons2. apply N.eqb_neq in D. rewrite D. cbn [andb negb].
    apply IH. intro K. apply Ha. now right.
Qed.

Lemma last_noblank s : ~ In 32%N s -> nolast s.
Proof.
  unfold nolast. intros H E. destruct s as [|c s]; [discriminate|].
  apply H. rewrite <- E. assert (X := @app_removelast_last _ (c :: s) 0%N).
  rewrite X by discriminate. apply in_or_app. right. rewrite <- X by discriminate. now left.
Qed.

Lemma last_app_ne {A} (a b : list A) d : b <> [] -> last (a ++ b) d = last b d.
Proof.
  intro H. induction a as [|x a IH]; [reflexivity|]. cbn [app]. rewrite <- IH.
  destruct (a ++ b) eqn:E; [|reflexivity]. apply app_eq_nil in E as [_ E]. contradiction.
Qed.

(** ** Numbers *)
Lemma pad_no n v c : In c (pad n v) -> is_digit c = true.
Proof.
  unfold pad. rewrite <- in_rev. revert v. induction n as [|n IH]; intros v H; [destruct H|].
  cbn [pad_rev] in H. destruct H as [<-|H]; [|eauto]. apply is_digit_digit. apply N.mod_lt. lia.
Qed.
Lemma pad_length n v : length (pad n v) = n.
Proof. unfold pad. rewrite rev_length. revert v. induction n; intros; cbn; congruence. Qed.

Lemma digits_blank c : is_digit c = true -> c <> 32%N.
Proof. intros H ->. discriminate. Qed.

Lemma forallb_pad n v : forallb is_digit (pad n v) = true.
Proof. apply forallb_forall. apply pad_no. Qed.

Lemma pdigits_pad n : forall v acc, (v < 10 ^ N.of_nat n)%N ->
  pdigits acc (pad n v) = Some (acc * 10 ^ N.of_nat n + v)%N.
Proof.
  induction n as [|n IH]; intros v acc H.
  - cbn in *. f_equal. assert (v = 0)%N by lia. lia.
  - unfold pad. cbn [pad_rev rev]. change (rev (pad_rev n (v / 10))) with (pad n (v / 10)).
    rewrite Nat2N.inj_succ, N.pow_succ_r' in *.
    rewrite pdigits_app by apply forallb_pad. rewrite IH by (apply N.div_lt_upper_bound; lia).
    cbn [pdigits]. rewrite is_digit_digit by (apply N.mod_lt; lia). f_equal. unfold digit.
    pose proof (N.div_mod v 10 ltac:(lia)) as E. revert E. generalize (v / 10)%N (v mod 10)%N (10 ^ N.of_nat n)%N.
    intros q m p E. rewrite E. lia.
Qed.

Lemma pnat_pdigits s : s <> [] -> forallb is_digit s = true -> pnat s = pdigits 0 s.
Proof.
  destruct s as [|c r]; intros N H; [congruence|]. cbn in H. apply andb_true_iff in H as [H _].
  cbn [pnat pdigits]. rewrite H. reflexivity.
Qed.

Lemma num_app n k v : (v < 10 ^ N.of_nat k)%N -> num (dec_N n ++ pad k v) = (n * 10 ^ N.of_nat k + v)%N.
Proof.
  intro H. unfold num. destruct (dec_N_spec n) as (D1 & D2 & D3). rewrite pnat_pdigits.
  - rewrite pdigits_app by assumption. rewrite D2, pdigits_pad by assumption. reflexivity.
  - intro E. apply app_eq_nil in E as [E _]. contradiction.
  - rewrite forallb_app, D1. apply forallb_pad.
Qed.

Lemma digits_dec n : digits (dec_N n) = true.
Proof.
  unfold digits. destruct (dec_N_spec n) as (D1 & _ & D3). rewrite D1, andb_true_r.
  destruct (dec_N n); [congruence|reflexivity].
Qed.
Lemma digits_pad n v : n <> 0%nat -> digits (pad n v) = true.
Proof.
  intro H. unfold digits. rewrite forallb_pad, andb_true_r. destruct (pad n v) eqn:E; [|reflexivity].
  apply (f_equal (@length _)) in E. rewrite pad_length in E. cbn in E. congruence.
Qed.

Lemma split_dot n v : split 46 (dec_N n ++ 46%N :: pad 9 v) = [dec_N n; pad 9 v].
Proof.
  rewrite split_app.
  - f_equal. apply split_none. intro H. apply pad_no in H. discriminate.
  - intro H. apply dec_N_digits in H. discriminate.
Qed.

(** What is read for a time. *)
Definition read (t : moment * written) : decimal :=
  mkDec (let m := (Z.abs (mo_sec (fst t)) * 1000000000 + Z.of_N (mo_ns (fst t)))%Z in
         if Z.ltb (mo_sec (fst t)) 0 then (- m)%Z else m) 9.

Lemma of_num n v : (v < 1000000000)%N -> Z.of_N (num (dec_N n ++ pad 9 v)) = (Z.of_N n * 1000000000 + Z.of_N v)%Z.
Proof. intro H. rewrite num_app by exact H. change (10 ^ N.of_nat 9)%N with 1000000000%N. lia. Qed.

Lemma py_decimal_read t : (mo_ns (fst t) < 1000000000)%N ->
  py_decimal (epoch t ++ 46%N :: pad 9 (mo_ns (fst t))) = Ok (read t).
Proof.
  intro H. unfold epoch, read. destruct t as [[s n] w]. cbn [fst mo_sec mo_ns] in *.
  assert (P : forall k, py_decimal (dec_N k ++ 46%N :: pad 9 n) = Ok (mkDec (Z.of_N k * 1000000000 + Z.of_N n) 9)).
  { intro k. unfold py_decimal. destruct (dec_N_spec k) as (D1 & _ & D3).
    destruct (dec_N k) as [|c r] eqn:E; [congruence|]. cbn [forallb] in D1. apply andb_true_iff in D1 as [D1 _].
    cbn [app]. destruct (N.eqb_spec c 45) as [->|]; [discriminate|].
    change (c :: r ++ 46%N :: pad 9 n) with ((c :: r) ++ 46%N :: pad 9 n).
    rewrite <- E, split_dot, digits_dec, digits_pad by discriminate. cbn [andb].
    rewrite pad_length, of_num by assumption. reflexivity. }
  destruct s as [|p|p]; unfold dec_Z.
  - exact (P 0%N).
  - exact (P (Npos p)).
  - unfold py_decimal. cbn [app]. change (N.eqb (chr "-") 45) with true. cbn iota beta zeta.
    rewrite split_dot, digits_dec, digits_pad by discriminate. cbn [andb].
    rewrite pad_length, of_num by assumption. reflexivity.
Qed.

Lemma ns_human t : good_time t -> ns_of (human t) = Ok (46%N :: pad 9 (mo_ns (fst t))).
Proof.
  destruct t as [m w]. intros (_ & (D & Db) & (C & Cb) & Cd & (Z & Zb)). cbn [fst snd] in *.
  unfold ns_of, human, nine. change $" " with [32%N]. change $"." with [46%N]. cbn [app].
  assert (P : ~ In 32%N (pad 9 (mo_ns m))) by (intro H; apply pad_no in H; discriminate).
  assert (Q : ~ In 46%N (pad 9 (mo_ns m))) by (intro H; apply pad_no in H; discriminate).
  rewrite split_app by assumption.
  replace (wr_clock w ++ 46%N :: pad 9 (mo_ns m) ++ 32%N :: wr_zone w)
    with ((wr_clock w ++ 46%N :: pad 9 (mo_ns m)) ++ 32%N :: wr_zone w) by (rewrite <- app_assoc; reflexivity).
  rewrite split_app.
  2:{ rewrite in_app_iff. cbn [In]. intros [H|[H|H]]; [contradiction|discriminate|contradiction]. }
  rewrite split_none by assumption. rewrite split_app by assumption. rewrite split_none by assumption. reflexivity.
Qed.

Lemma timestamp_read t : good_time t -> timestamp (epoch t) (human t) = Ok (read t).
Proof.
  intro G. unfold timestamp. rewrite ns_human by assumption. cbn [rbind]. apply py_decimal_read. apply G.
Qed.

Lemma int_dec n : int_ (dec_N n) = Ok (Z.of_N n).
Proof.
  unfold int_. change (dec_N n) with (dec_N n). assert (E : dec_N n = dec_Z (Z.of_N n)) by (destruct n; reflexivity).
  rewrite E, py_int_dec. reflexivity.
Qed.

Lemma int_blank n : int_ (32%N :: dec_N n) = Ok (Z.of_N n).
Proof. rewrite <- int_dec. reflexivity. Qed.

Lemma fromhex4 m : (m < 65536)%N ->
  match fromhex (hex4 m) with Some b => Ok (from_bytes_big b) | None => Err ValueError end = Ok m.
Proof.
  intro H. assert (A : (m / 256 < 256)%N) by (apply N.div_lt_upper_bound; lia).
  assert (B : (m mod 256 < 256)%N) by (apply N.mod_lt; lia).
  assert (E : hex4 m = hex [byte_of (m / 256); byte_of (m mod 256)]).
  { unfold hex4. rewrite !hex_cons, !byte_of_to_N by assumption. cbn [map hex flat_map].
    assert (E1 : (m / 4096 = m / 256 / 16)%N) by (rewrite N.div_div by lia; reflexivity).
    assert (E0 : (m mod 256 = m mod 16 + 16 * ((m / 16) mod 16))%N).
    { change 256%N with (16 * 16)%N. apply N.mod_mul_r; lia. }
    assert (E2 : ((m mod 256) / 16 = (m / 16) mod 16)%N).
    { rewrite E0, (N.mul_comm 16 ((m / 16) mod 16)), N.div_add by lia.
      rewrite (N.div_small (m mod 16)) by (apply N.mod_lt; lia). reflexivity. }
    assert (E3 : ((m mod 256) mod 16 = m mod 16)%N).
    { rewrite E0, (N.mul_comm 16 ((m / 16) mod 16)), N.mod_add by lia. apply N.mod_mod. lia. }
    rewrite E1, E2, E3. reflexivity. }
  rewrite E, fromhex_hex. unfold from_bytes_big. cbn [fold_left]. rewrite !byte_of_to_N by assumption.
  f_equal. rewrite (N.div_mod m 256) at 3 by lia. lia.
Qed.

(** ** The fields *)
Definition fields (i : info) : list str :=
  [dec_N (in_ino i); dec_N (in_hint i); dec_N (in_size i);
   match in_birth i with Some t => human t | None => $"-" end;
   match in_birth i with Some t => epoch t | None => $"0" end;
   human (in_access i); epoch (in_access i);
   human (in_modify i); epoch (in_modify i);
   human (in_change i); epoch (in_change i);
   dec_N (in_gid i); dec_N (in_uid i); hex4 (in_mode i)].

Lemma line_fields i : stat_line i = in_name i ++ 32%N :: 32%N :: join $"  " (fields i).
Proof. reflexivity. Qed.

Definition clean (s : str) : Prop := nodbl s = true /\ nolast s.
Lemma clean_noblank s : ~ In 32%N s -> clean s.
Proof. intro H. split; [now apply nodbl_noblank|now apply last_noblank]. Qed.
Lemma clean_dec n : clean (dec_N n).
Proof. apply clean_noblank. intro H. apply dec_N_digits in H. discriminate. Qed.
Lemma clean_epoch t : clean (epoch t).
Proof. apply clean_noblank. apply not_digit_not_in_dec; [reflexivity|discriminate]. Qed.

Lemma hd_plain s r : plain_text s -> hd 0%N (s ++ r) <> 32%N.
Proof. intros [N H] E. destruct s as [|c s]; [congruence|]. apply H. cbn in E. subst. now left. Qed.

Lemma clean_human t : good_time t -> clean (human t).
Proof.
  destruct t as [m w]. intros (_ & D & C & _ & Z). cbn [fst snd] in *. unfold human, nine.
  change $" " with [32%N]. change $"." with [46%N]. cbn [app].
  assert (P : ~ In 32%N (pad 9 (mo_ns m))) by (intro H; apply pad_no in H; discriminate).
  assert (X : nodbl (wr_clock w ++ 46%N :: pad 9 (mo_ns m) ++ 32%N :: wr_zone w) = true).
  { replace (wr_clock w ++ 46%N :: pad 9 (mo_ns m) ++ 32%N :: wr_zone w)
      with ((wr_clock w ++ 46%N :: pad 9 (mo_ns m)) ++ 32%N :: wr_zone w) by (rewrite <- app_assoc; reflexivity).
    apply nodbl_app.
    - rewrite in_app_iff. cbn [In]. intros [H|[H|H]]; [apply C; assumption|discriminate|contradiction].
    - rewrite <- (app_nil_r (wr_zone w)). now apply hd_plain.
    - apply nodbl_noblank, Z. }
  split.
  - apply nodbl_app; [apply D| |exact X]. now apply hd_plain.
  - unfold nolast. replace (wr_date w ++ 32%N :: wr_clock w ++ 46%N :: pad 9 (mo_ns m) ++ 32%N :: wr_zone w)
      with ((wr_date w ++ 32%N :: wr_clock w ++ 46%N :: pad 9 (mo_ns m) ++ [32%N]) ++ wr_zone w).
    + rewrite last_app_ne by apply Z. apply last_noblank, Z.
    + rewrite <- !app_assoc. cbn [app]. rewrite <- !app_assoc. cbn [app]. rewrite <- !app_assoc. reflexivity.
Qed.

Lemma clean_hex4 m : (m < 65536)%N -> clean (hex4 m).
Proof.
  intro H. apply clean_noblank. unfold hex4. intro K. apply in_map_iff in K as (x & E & K).
  assert (x < 16)%N.
  { repeat destruct K as [<-|K]; try (apply N.mod_lt; lia); [|destruct K]. apply N.div_lt_upper_bound; lia. }
  pose proof (hexdigit_is x H0) as X. rewrite E in X. discriminate.
Qed.

Lemma clean_fields i : good_info i -> forall x, In x (fields i) -> clean x.
Proof.
  intros (A & M & C & B & L & U) x Hx. unfold fields in Hx. cbn [In] in Hx.
  destruct (in_birth i) as [t|] eqn:Eb;
    repeat destruct Hx as [<-|Hx]; try destruct Hx;
    auto using clean_dec, clean_epoch, clean_human, clean_hex4;
    split; try reflexivity; unfold nolast; cbn; discriminate.
Qed.

Lemma split_fields i : good_info i -> split_dbl (join $"  " (fields i)) = fields i.
Proof. intro G. apply split_dbl_join; [discriminate|]. exact (clean_fields i G). Qed.

Definition result (i : info) (name : str) : stat_result :=
  mkSR name (Z.of_N (in_ino i)) (Z.of_N (in_hint i)) (Z.of_N (in_size i))
    (read (in_access i)) (read (in_modify i)) (read (in_change i))
    (Z.of_N (in_gid i)) (Z.of_N (in_uid i)) (in_mode i)
    (match in_birth i with
     | Some t => if Z.eqb (mo_sec (fst t)) 0 then None else Some (read t) | None => None end).

(** The parser on a name field and the other fields. *)
Lemma parse_fields out i name ino :
  good_info i -> int_ ino = Ok (Z.of_N (in_ino i)) ->
  (exists s, utf8_dec out = Some s /\ split_dbl s = name :: ino :: tl (fields i)) ->
  StatResult out = Ok (result i name).
Proof.
  intros (A & M & C & B & L & U) Hi (s & Hs & Hf). unfold StatResult. rewrite Hs, Hf. unfold fields. cbn [tl].
  rewrite Hi, !int_dec, !timestamp_read by assumption. cbn [rbind].
  rewrite fromhex4 by assumption. cbn [rbind]. unfold result.
  destruct (in_birth i) as [t|].
  - assert (E1 : str_eqb (human t) $"-" = false).
    { apply str_eqb_neq. destruct t as [m w]. destruct (B _ eq_refl) as (_ & (D & Db) & _). cbn [fst snd] in *.
      unfold human. destruct (wr_date w) as [|c d]; [congruence|]. cbn [app]. intro K. injection K as _ K.
      destruct d; discriminate. }
    assert (E2 : str_eqb (epoch t) $"0" = Z.eqb (mo_sec (fst t)) 0).
    { unfold epoch. destruct (Z.eqb_spec (mo_sec (fst t)) 0) as [->|D]; [reflexivity|].
      apply str_eqb_neq. intro K. apply D. change $"0" with (dec_Z 0) in K.
      apply (f_equal py_int) in K. rewrite !py_int_dec in K. congruence. }
    rewrite E1, E2. cbn [negb andb].
    destruct (Z.eqb (mo_sec (fst t)) 0); cbn [negb]; [reflexivity|].
    rewrite timestamp_read by (apply B; reflexivity). reflexivity.
  - reflexivity.
Qed.

Lemma parse_nice out i : good_info i -> utf8_enc (stat_line i) = Some out ->
  ~ two_blanks (in_name i) -> ~ ends_blank (in_name i) ->
  StatResult out = Ok (result i (in_name i)).
Proof.
  intros G E T B. apply utf8_roundtrip in E. apply (parse_fields out i (in_name i) (dec_N (in_ino i)) G (int_dec _)).
  exists (stat_line i). split; [exact E|]. rewrite line_fields, split_dbl_app, split_fields; [reflexivity|assumption| |].
  - destruct (nodbl (in_name i)) eqn:N; [reflexivity|]. exfalso. now apply T, nodbl_spec.
  - now apply nolast_spec.
Qed.

Lemma parse_trailing out i name : good_info i -> utf8_enc (stat_line i) = Some out ->
  ~ two_blanks (in_name i) -> in_name i = name ++ $" " ->
  StatResult out = Ok (result i name).
Proof.
  intros G E T B. apply utf8_roundtrip in E.
  apply (parse_fields out i name (32%N :: dec_N (in_ino i)) G (int_blank _)).
  exists (stat_line i). split; [exact E|].
  assert (N : nodbl name = true).
  { destruct (nodbl name) eqn:N; [reflexivity|]. exfalso. apply T. apply nodbl_spec in N as (a & b & ->).
    rewrite B. exists a, (b ++ $" "). now rewrite <- !app_assoc. }
  assert (L : nolast name).
  { apply nolast_spec. intros (a & ->). apply T. rewrite B. exists a, []. now rewrite <- app_assoc, app_nil_r. }
  assert (F : stat_line i = name ++ 32%N :: 32%N :: 32%N :: join $"  " (fields i)).
  { rewrite line_fields, B, <- app_assoc. reflexivity. }
  rewrite F, split_dbl_app by assumption. f_equal.
  assert (X : 32%N :: join $"  " (fields i) = join $"  " ((32%N :: dec_N (in_ino i)) :: tl (fields i))) by reflexivity.
  rewrite X. apply split_dbl_join; [discriminate|]. intros x [<-|H].
  - split.
    + change (32%N :: dec_N (in_ino i)) with ([] ++ 32%N :: dec_N (in_ino i)). apply nodbl_app.
      * intros [].
      * destruct (dec_N_spec (in_ino i)) as (D & _ & _). destruct (dec_N (in_ino i)) as [|c r]; [discriminate|].
        cbn in *. apply andb_true_iff in D as [D _]. intros ->. discriminate.
      * apply clean_dec.
    + change (32%N :: dec_N (in_ino i)) with ([32%N] ++ dec_N (in_ino i)). unfold nolast.
      rewrite last_app_ne by apply dec_N_spec. apply clean_dec.
  - apply (clean_fields i G). unfold fields. right. exact H.
Qed.

Lemma not15 {A B} (l : list A) (f : A -> A -> A -> A -> A -> A -> A -> A -> A -> A -> A -> A -> A -> A -> A -> B) (d : B) :
  (16 <= length l)%nat ->
  match l with
  | [a;b;c;e;g;h;i;j;k;m;n;o;p;q;r] => f a b c e g h i j k m n o p q r
  | _ => d end = d.
Proof.
  intro H. do 15 (destruct l as [|? l]; [cbn in H; lia|]). destruct l; [cbn in H; lia|reflexivity].
Qed.

Lemma parse_dbl out i : good_info i -> utf8_enc (stat_line i) = Some out ->
  two_blanks (in_name i) -> StatResult out = Err ValueError.
Proof.
  intros G E T. apply utf8_roundtrip in E. unfold StatResult. rewrite E.
  assert (L : (16 <= length (split_dbl (stat_line i)))%nat).
  { rewrite line_fields, split_dbl_length.
    - rewrite split_fields by assumption. cbn [length fields]. apply nodbl_spec in T.
      pose proof (split_dbl_dbl _ T). lia.
    - unfold fields. rewrite join_cons. destruct (dec_N_spec (in_ino i)) as (D & _ & N).
      destruct (dec_N (in_ino i)) as [|c r]; [congruence|]. cbn in *.
      apply andb_true_iff in D as [D _]. intros ->. discriminate. }
  apply (not15 (split_dbl (stat_line i))). exact L.
Qed.

(** ** The statements *)
Lemma read_exact t : not_negative t -> read t = exactly t.
Proof.
  unfold not_negative, read, exactly. intros [H|H].
  - destruct (Z.ltb_spec (mo_sec (fst t)) 0); [lia|]. rewrite Z.abs_eq by assumption. reflexivity.
  - rewrite H. f_equal. destruct (Z.ltb_spec (mo_sec (fst t)) 0); lia.
Qed.

Lemma read_wrong t : ~ not_negative t -> read t <> exactly t.
Proof.
  unfold not_negative, read, exactly. intros H E. injection E as E.
  destruct (Z.ltb_spec (mo_sec (fst t)) 0); [|tauto]. assert (mo_ns (fst t) <> 0%N) by tauto. lia.
Qed.

Lemma result_same i name : modern i -> same_stat i name (result i name).
Proof.
  intros (A & M & C & B). unfold same_stat, result. cbn.
  rewrite !read_exact by assumption. repeat split.
  destruct (in_birth i) as [t|]; [|reflexivity]. destruct (B t eq_refl) as [N D].
  apply Z.eqb_neq in D. rewrite D, read_exact by assumption. reflexivity.
Qed.

Lemma stat_exact out i : good_info i -> modern i -> utf8_enc (stat_line i) = Some out ->
  (exists r, StatResult out = Ok r /\ same_stat i (in_name i) r) <->
  ~ two_blanks (in_name i) /\ ~ ends_blank (in_name i).
Proof.
  intros G M E. split.
  - intros (r & P & S).
    assert (T : ~ two_blanks (in_name i)) by (intro T; rewrite (parse_dbl out i G E T) in P; discriminate).
    split; [exact T|]. intros (a & B). rewrite (parse_trailing out i a G E T B) in P.
    injection P as <-. destruct S as (S & _). cbn in S. rewrite B in S.
    apply (f_equal (@length _)) in S. rewrite app_length in S. cbn in S. lia.
  - intros [T B]. exists (result i (in_name i)). split; [now apply parse_nice|now apply result_same].
Qed.

Lemma stat_names_refuted out i : good_info i -> modern i -> utf8_enc (stat_line i) = Some out ->
  (two_blanks (in_name i) -> StatResult out = Err ValueError) /\
  (forall name, ~ two_blanks (in_name i) -> in_name i = name ++ $" " ->
     exists r, StatResult out = Ok r /\ same_stat i name r).
Proof.
  intros G M E. split.
  - now apply parse_dbl.
  - intros name T B. exists (result i name). split; [now apply parse_trailing|now apply result_same].
Qed.

Lemma stat_times out i : good_info i -> utf8_enc (stat_line i) = Some out ->
  ~ two_blanks (in_name i) -> ~ ends_blank (in_name i) ->
  exists r, StatResult out = Ok r /\
    (sr_atime r = exactly (in_access i) <-> not_negative (in_access i)) /\
    (sr_mtime r = exactly (in_modify i) <-> not_negative (in_modify i)) /\
    (sr_ctime r = exactly (in_change i) <-> not_negative (in_change i)) /\
    (forall t, in_birth i = Some t ->
       (sr_birthtime r = Some (exactly t) <-> not_negative t /\ mo_sec (fst t) <> 0%Z)).
Proof.
  intros G E T B. exists (result i (in_name i)). split; [now apply parse_nice|].
  assert (K : forall t, read t = exactly t <-> not_negative t).
  { intro t. split; [|apply read_exact]. intro H. destruct (Z_le_gt_dec 0 (mo_sec (fst t))) as [L|L]; [now left|].
    destruct (N.eq_dec (mo_ns (fst t)) 0) as [Z|Z]; [now right|]. exfalso. apply (read_wrong t); [|assumption].
    intros [Q|Q]; [lia|contradiction]. }
  cbn [result sr_atime sr_mtime sr_ctime sr_birthtime]. split; [apply K|]. split; [apply K|]. split; [apply K|].
  intros t Et. rewrite Et. destruct (Z.eqb_spec (mo_sec (fst t)) 0) as [Z|Z].
  - split; [discriminate|]. intros [_ N]. contradiction.
  - rewrite <- K. split.
    + intro H. split; [congruence|assumption].
    + intros [H _]. now rewrite H.
Qed.

(** ** Errors of the remote command *)
Lemma endswith_spec b s : endswith b s = true <-> exists a, b = a ++ s.
Proof.
  unfold endswith. rewrite (prefixb_spec Byte.eqb byte_eqb_eq). split.
  - intros (r & H). exists (rev r). apply (f_equal (@rev _)) in H. rewrite rev_app_distr, !rev_involutive in H. exact H.
  - intros (a & ->). exists (rev a). apply rev_app_distr.
Qed.

Lemma utf8_app a b ba bb : utf8_enc a = Some ba -> utf8_enc b = Some bb -> utf8_enc (a ++ b) = Some (ba ++ bb).
Proof. intros A B. rewrite utf8_enc_app, A, B. reflexivity. Qed.

Lemma statresult_errors out e : StatResult out = Err e -> e = ValueError \/ e = UnicodeError.
Proof.
  unfold StatResult. intro H.
  assert (I : forall s e, int_ s = Err e -> e = ValueError).
  { intros s e'. unfold int_. destruct (py_int s); intro K; congruence. }
  assert (T : forall s h e, timestamp s h = Err e -> e = ValueError).
  { intros s h e'. unfold timestamp, ns_of. destruct (split 32 h) as [|a [|b [|c [|]]]]; cbn [rbind]; try congruence.
    destruct (split 46 b) as [|x [|y [|]]]; cbn [rbind]; try congruence.
    unfold py_decimal. destruct (match s ++ 46%N :: y with [] => _ | _ => _ end) as [neg body].
    destruct (split 46 body) as [|u [|v [|]]]; try congruence. destruct (_ && _)%bool; congruence. }
  destruct (utf8_dec out) as [s|]; [|right; congruence]. left.
  destruct (split_dbl s) as [|a1 l1]; [congruence|].
  do 14 (destruct l1 as [|? l1]; [congruence|]). destruct l1; [|congruence].
  repeat match type of H with
  | rbind (int_ ?x) _ = _ => destruct (int_ x) eqn:?; cbn [rbind] in H; [|injection H as <-; eauto]
  | rbind (timestamp ?x ?y) _ = _ => destruct (timestamp x y) eqn:?; cbn [rbind] in H; [|injection H as <-; eauto]
  | rbind (match fromhex ?x with _ => _ end) _ = _ => destruct (fromhex x); cbn [rbind] in H; [|congruence]
  | rbind (if ?c then _ else _) _ = _ => destruct c; [|cbn [rbind] in H; discriminate]
  | rbind (rbind (timestamp ?x ?y) _) _ = _ => destruct (timestamp x y) eqn:?; cbn [rbind] in H; [discriminate|injection H as <-; eauto]
  end.
Qed.

Lemma tail4 (pre hx a b c : bytes) : length hx = 4%nat -> length c = 4%nat -> pre ++ hx = a ++ b ++ c -> hx = c.
Proof.
  intros L1 L2 E. rewrite app_assoc in E. apply (f_equal (@rev _)) in E. rewrite !rev_app_distr in E.
  apply app_len_inj in E as [E _]; [|now rewrite !rev_length, L1, L2].
  apply (f_equal (@rev _)) in E. now rewrite !rev_involutive in E.
Qed.

Lemma not_suffix pre m x : (m < 65536)%N -> (exists h c, ascii_bytes x = h ++ c /\ length c = 4%nat /\
    exists y, In y c /\ is_hexdigit (Byte.to_N y) = false) ->
  endswith (pre ++ map byte_of (hex4 m)) (ascii_bytes x) = false.
Proof.
  intros H (h & c & E & L & y & Iy & Hy).
  destruct (endswith _ _) eqn:K; [|reflexivity]. exfalso. apply endswith_spec in K as (a & K). rewrite E in K.
  apply tail4 in K; [|reflexivity|assumption]. subst c. apply in_map_iff in Iy as (z & <- & Iz).
  assert (X : is_hexdigit z = true).
  { unfold hex4 in Iz. apply in_map_iff in Iz as (w & <- & Iw). apply hexdigit_is.
    repeat destruct Iw as [<-|Iw]; try (apply N.mod_lt; lia); [|destruct Iw]. apply N.div_lt_upper_bound; lia. }
  rewrite byte_of_to_N in Hy; [congruence|]. unfold is_hexdigit, is_digit in X.
  apply orb_true_iff in X as [X|X]; apply andb_true_iff in X as [_ X]; apply N.leb_le in X; lia.
Qed.

Lemma stat_not_missing pre m : (m < 65536)%N ->
  ssh_stat (pre ++ map byte_of (hex4 m)) = StatResult (pre ++ map byte_of (hex4 m)) \/
  ssh_stat (pre ++ map byte_of (hex4 m)) = Err ValueError.
Proof.
  intro H. unfold ssh_stat. destruct (StatResult _) as [r|e] eqn:E; [now left|]. right.
  rewrite (not_suffix pre m "Permission denied"), (not_suffix pre m "No such file or directory"); try assumption.
  - apply statresult_errors in E as [->| ->]; reflexivity.
  - exists (ascii_bytes "No such file or direc"), (ascii_bytes "tory"). split; [reflexivity|]. split; [reflexivity|].
    exists (byte_of 116). split; [left; reflexivity|reflexivity].
  - exists (ascii_bytes "Permission de"), (ascii_bytes "nied"). split; [reflexivity|]. split; [reflexivity|].
    exists (byte_of 110). split; [left; reflexivity|reflexivity].
Qed.

Lemma stat_no_oserr out e : StatResult out <> Err (OSErr e).
Proof. intro H. apply statresult_errors in H as [H|H]; discriminate. Qed.

Lemma stat_found pre m : (m < 65536)%N ->
  forall e, ssh_stat (pre ++ map byte_of (hex4 m)) <> Err (OSErr e).
Proof.
  intros H e K. destruct (stat_not_missing pre m H) as [E|E]; rewrite E in K; [|discriminate].
  exact (stat_no_oserr _ _ K).
Qed.

Lemma stat_message s out : utf8_enc s = Some out -> ~ two_blanks s ->
  (forall a, s = a ++ $"Permission denied" -> ssh_stat out = Err (OSErr EACCES)) /\
  (forall a, s = a ++ $"No such file or directory" -> ssh_stat out = Err (OSErr ENOENT)).
Proof.
  intros E T. assert (D := utf8_roundtrip _ _ E).
  assert (P : StatResult out = Err ValueError).
  { unfold StatResult. rewrite D, split_dbl_one; [reflexivity|].
    destruct (nodbl s) eqn:N; [reflexivity|]. exfalso. now apply T, nodbl_spec. }
  assert (S : forall a x, ascii_str (str_of x) = true -> s = a ++ str_of x -> exists b, out = b ++ ascii_bytes x).
  { intros a x Hx ->. rewrite utf8_enc_app, (utf8_enc_ascii _ Hx) in E. destruct (utf8_enc a) as [b|]; [|discriminate].
    injection E as <-. exists b. reflexivity. }
  unfold ssh_stat. rewrite P, D. split; intros a Ha; (apply S in Ha as (b & ->); [|reflexivity]).
  - assert (K : endswith (b ++ ascii_bytes "Permission denied") (ascii_bytes "Permission denied") = true)
      by (apply endswith_spec; eauto). rewrite K. reflexivity.
  - assert (K : endswith (b ++ ascii_bytes "No such file or directory") (ascii_bytes "No such file or directory") = true)
      by (apply endswith_spec; eauto).
    assert (K' : endswith (b ++ ascii_bytes "No such file or directory") (ascii_bytes "Permission denied") = false).
    { destruct (endswith _ (ascii_bytes "Permission denied")) eqn:Q; [|reflexivity]. exfalso.
      apply endswith_spec in Q as (c & Q).
      change (ascii_bytes "No such file or directory") with (ascii_bytes "No such file or direc" ++ ascii_bytes "tory") in Q.
      change (ascii_bytes "Permission denied") with (ascii_bytes "Permission de" ++ ascii_bytes "nied") in Q.
      rewrite app_assoc in Q. apply tail4 in Q; [discriminate Q|reflexivity|reflexivity]. }
    rewrite K', K. reflexivity.
Qed.
