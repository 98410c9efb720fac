(** * Reading the answers of an ssh remote *)
From Coq Require Import String Strings.Byte NArith ZArith Bool List Lia.
From Verif Require Import Model.Py Model.Stat Model.Shell Model.SshList Spec.StatSpec Spec.SshListSpec Proofs.PyLemmas Proofs.StatProofs.
Import ListNotations.

(** ** Bytes *)
Lemma byte_eqb_eq a b : Byte.eqb a b = true <-> a = b.
Proof. split; [apply Byte.byte_dec_bl|apply Byte.byte_dec_lb]. Qed.
Lemma bprefix_spec p s : prefixb Byte.eqb p s = true <-> exists r, s = p ++ r.
Proof. apply prefixb_spec. apply byte_eqb_eq. Qed.

Lemma blstrip_keep c r : is_space (Byte.to_N c) = false -> blstrip (c :: r) = c :: r.
Proof. intro H. cbn. now rewrite H. Qed.
Lemma blstrip_skip a b : (forall c, In c a -> is_space (Byte.to_N c) = true) -> blstrip (a ++ b) = blstrip b.
Proof. induction a as [|c a IH]; intro H; [reflexivity|]. cbn. rewrite H by now left. apply IH. intros d I. apply H. now right. Qed.
Lemma bstrip_body c m e t : is_space (Byte.to_N c) = false -> is_space (Byte.to_N e) = false -> (forall z, In z t -> is_space (Byte.to_N z) = true) ->
  last (c :: m) c = e -> bstrip ((c :: m) ++ t) = c :: m.
Proof.
  intros Hc He Ht L. unfold bstrip. cbn [app]. rewrite blstrip_keep by assumption. change (c :: m ++ t) with ((c :: m) ++ t). rewrite rev_app_distr.
  rewrite blstrip_skip by (intros z I; apply Ht; now apply in_rev). destruct (rev (c :: m)) as [|z k] eqn:R.
  - apply (f_equal (@rev byte)) in R. rewrite rev_involutive in R. discriminate.
  - assert (z = e). { apply (f_equal (@rev byte)) in R. rewrite rev_involutive in R. rewrite R in L. cbn in L. now rewrite last_last in L. }
    subst z. rewrite blstrip_keep by assumption. rewrite <- R. apply rev_involutive.
Qed.

(** ** Splitting *)
Definition CR : byte := x0d.
Definition cr_free (b : bytes) : Prop := ~ In CR b.
Lemma splits_ne k sep b : splits_from k sep b <> [].
Proof.
  revert k. induction b as [|c r IH]; intro k; [discriminate|]. cbn. destruct k; [|apply IH].
  destruct (prefixb _ _ _); [discriminate|]. destruct (splits_from 0 sep r); discriminate.
Qed.
Definition onto (a : bytes) (l : list bytes) : list bytes := match l with h :: t => (a ++ h) :: t | [] => [a] end.
Lemma splits_free sep a b : cr_free a -> splits (CR :: sep) (a ++ b) = onto a (splits (CR :: sep) b).
Proof.
  intro F. induction a as [|c a IH]; [cbn [app]; destruct (splits (CR :: sep) b) eqn:E; [now apply splits_ne in E|reflexivity]|].
  unfold splits in *. cbn [app splits_from]. destruct (prefixb _ _ _) eqn:P.
  - apply bprefix_spec in P as (r & P). exfalso. injection P as -> _. apply F. now left.
  - rewrite IH by (intro I; apply F; now right). destruct (splits_from 0 (CR :: sep) b); reflexivity.
Qed.
Lemma splits_skip sep a b : splits_from (length a) sep (a ++ b) = splits_from 0 sep b.
Proof. induction a as [|c a IH]; [reflexivity|]. cbn. exact IH. Qed.
Lemma splits_at sep b : splits (CR :: sep) ((CR :: sep) ++ b) = [] :: splits (CR :: sep) b.
Proof.
  unfold splits. cbn [app splits_from]. assert (P : prefixb Byte.eqb (CR :: sep) (CR :: sep ++ b) = true) by (apply bprefix_spec; now exists b).
  rewrite P. cbn [length pred]. now rewrite splits_skip.
Qed.

Definition bj (l : list bytes) : bytes := match l with [] => [] | x :: r => x ++ flat_map (fun y => crlf ++ y) r end.
Lemma free_crlf a b : cr_free a -> splits crlf (a ++ b) = onto a (splits crlf b). Proof. apply (splits_free [x0a]). Qed.
Lemma at_crlf b : splits crlf (crlf ++ b) = [] :: splits crlf b. Proof. apply (splits_at [x0a]). Qed.
Lemma splits_lines l : l <> [] -> (forall x, In x l -> cr_free x) -> splits crlf (bj l) = l.
Proof.
  destruct l as [|x r]; [congruence|]. intros _. revert x. induction r as [|y r IH]; intros x F; cbn [bj flat_map]; rewrite free_crlf by (apply F; now left).
  - cbn. now rewrite app_nil_r.
  - rewrite <- app_assoc, at_crlf. change (y ++ flat_map (fun y0 => crlf ++ y0) r) with (bj (y :: r)). rewrite IH by (intros z I; apply F; now right). cbn [onto]. now rewrite app_nil_r.
Qed.

Definition dashes : bytes := ascii_bytes "----".
Definition ruler : bytes := crlf ++ dashes ++ crlf.
Definition edge (s : bytes) : Prop := s = [] \/ exists t, s = CR :: t.
Lemma first_cr a b c d : cr_free a -> cr_free c -> edge b -> a ++ b = c ++ CR :: d -> a = c /\ b = CR :: d.
Proof.
  intros Fa Fc Eb. revert c Fc. induction a as [|x a IH]; intros c Fc E.
  - destruct Eb as [->|(t & ->)]; [now destruct c|]. destruct c as [|y c]; [now split|]. injection E as <- _. elim Fc. now left.
  - destruct c as [|y c]; [injection E as -> _; elim Fa; now left|]. injection E as -> E. destruct (IH (fun I => Fa (or_intror I)) c (fun I => Fc (or_intror I)) E) as [-> ->]. now split.
Qed.
Lemma dashes_free : cr_free dashes.
Proof. intro I. cbn in I. repeat (destruct I as [I|I]; [discriminate|]). contradiction. Qed.
Lemma free_ruler a b : cr_free a -> splits ruler (a ++ b) = onto a (splits ruler b). Proof. apply (splits_free (x0a :: dashes ++ crlf)). Qed.
Lemma at_ruler b : splits ruler (ruler ++ b) = [] :: splits ruler b. Proof. apply (splits_at (x0a :: dashes ++ crlf)). Qed.
Lemma splits_ruler r : forall x s, cr_free x -> (forall y, In y r -> cr_free y /\ y <> dashes) -> edge s ->
  splits ruler (x ++ flat_map (fun y => crlf ++ y) r ++ s) = onto (x ++ flat_map (fun y => crlf ++ y) r) (splits ruler s).
Proof.
  induction r as [|y r IH]; intros x s Fx Fr Es; cbn [flat_map].
  - rewrite app_nil_r. cbn [app]. now apply free_ruler.
  - rewrite free_ruler by assumption.
    destruct (Fr y (or_introl eq_refl)) as [Fy Ny].
    assert (H : splits ruler (((crlf ++ y) ++ flat_map (fun y0 => crlf ++ y0) r) ++ s) = onto ((crlf ++ y) ++ flat_map (fun y0 => crlf ++ y0) r) (splits ruler s)).
    { rewrite <- !app_assoc. unfold splits at 1. change (crlf ++ y ++ flat_map (fun y0 => crlf ++ y0) r ++ s) with (CR :: ((x0a :: y) ++ flat_map (fun y0 => crlf ++ y0) r ++ s)).
      cbn [splits_from]. destruct (prefixb Byte.eqb ruler (CR :: (x0a :: y) ++ flat_map (fun y0 => crlf ++ y0) r ++ s)) eqn:P.
      - exfalso. apply bprefix_spec in P as (q & P). change (ruler ++ q) with (CR :: x0a :: dashes ++ CR :: x0a :: q) in P. cbn [app] in P. injection P as P.
        apply (first_cr y _ dashes (x0a :: q)) in P as [P _]; [contradiction|assumption|apply dashes_free|]. destruct r as [|y2 r]; [exact Es|]. right. cbn. eauto.
      - change (splits_from 0 ruler ((x0a :: y) ++ flat_map (fun y0 => crlf ++ y0) r ++ s)) with (splits ruler ((x0a :: y) ++ flat_map (fun y0 => crlf ++ y0) r ++ s)).
        rewrite IH; [| |intros z I; apply Fr; now right|assumption].
        + destruct (splits ruler s) as [|h t] eqn:Q; [now apply splits_ne in Q|]. cbn [onto app]. rewrite <- !app_assoc. reflexivity.
        + intros [I|I]; [discriminate|now apply Fy]. }
    rewrite H. destruct (splits ruler s) as [|h t] eqn:Q; [now apply splits_ne in Q|]. cbn [onto]. now rewrite <- !app_assoc.
Qed.
Lemma splits_two l1 l2 : l1 <> [] -> l2 <> [] -> (forall y, In y (l1 ++ l2) -> cr_free y) -> ~ In dashes (tl l1) -> ~ In dashes (tl l2) ->
  splits ruler (bj (l1 ++ [dashes] ++ l2)) = [bj l1; bj l2].
Proof.
  destruct l1 as [|x1 r1]; [congruence|]. destruct l2 as [|x2 r2]; [congruence|]. intros _ _ F N1 N2. cbn [tl] in *.
  assert (E : bj ((x1 :: r1) ++ [dashes] ++ x2 :: r2) = x1 ++ flat_map (fun y => crlf ++ y) r1 ++ (ruler ++ bj (x2 :: r2))).
  { cbn [bj app]. rewrite flat_map_app. cbn [flat_map]. unfold ruler. now rewrite <- !app_assoc. }
  rewrite E, splits_ruler; [|apply F; now left| |right; eexists; reflexivity].
  - rewrite at_ruler. cbn [onto]. rewrite app_nil_r. cbn [bj]. rewrite <- (app_nil_r (x2 ++ flat_map (fun y => crlf ++ y) r2)), <- app_assoc.
    rewrite splits_ruler; [|apply F, in_or_app; right; now left| |now left].
    + cbn. now rewrite !app_nil_r.
    + intros y I. split; [apply F, in_or_app; right; now right|]. intros ->. contradiction.
  - intros y I. split; [apply F, in_or_app; left; now right|]. intros ->. contradiction.
Qed.

(** ** Text as bytes *)
Lemma enc_some s b : utf8_enc s = Some b -> forallb scalar s = true /\ b = map byte_of (flat_map utf8_enc1 s).
Proof. unfold utf8_enc. destruct (forallb scalar s); [|discriminate]. intro H. injection H as <-. now split. Qed.
Lemma enc_cons c s b : utf8_enc (c :: s) = Some b -> scalar c = true /\ exists b', utf8_enc s = Some b' /\ b = map byte_of (utf8_enc1 c) ++ b'.
Proof.
  intro H. apply enc_some in H as [H ->]. cbn in H. apply andb_true_iff in H as [H1 H2]. split; [assumption|].
  exists (map byte_of (flat_map utf8_enc1 s)). unfold utf8_enc. rewrite H2. split; [reflexivity|]. cbn [flat_map]. apply map_app.
Qed.
(** A character is itself, or bytes above 127 *)
Lemma enc1_cases c : scalar c = true -> ((c < 128)%N /\ utf8_enc1 c = [c]) \/ (forall x, In x (utf8_enc1 c) -> (128 <= x < 256)%N).
Proof.
  intro S. unfold utf8_enc1. destruct (N.ltb_spec c 128) as [L|L]; [left; now split|right]. intros x I.
  split; [|apply (utf8_enc1_lt c x S); unfold utf8_enc1; destruct (N.ltb_spec c 128); [lia|exact I]].
  destruct (N.ltb c 2048); [|destruct (N.ltb c 65536)]; cbn [In] in I; repeat (destruct I as [<-|I]; [match goal with |- (128 <= _ + ?b)%N => generalize b; intro; lia end|]); contradiction.
Qed.
Lemma byte_small n x : (n < 128)%N -> (128 <= x < 256)%N -> byte_of n <> byte_of x.
Proof. intros Hn Hx E. apply (f_equal Byte.to_N) in E. rewrite !byte_of_to_N in E by lia. lia. Qed.
Lemma enc_in n s b : (n < 128)%N -> utf8_enc s = Some b -> In (byte_of n) b -> In n s.
Proof.
  intro Hn. revert b. induction s as [|c s IH]; intros b E I; [injection E as <-; contradiction|].
  apply enc_cons in E as (Sc & b' & E & ->). apply in_app_iff in I as [I|I]; [|right; now apply (IH b')].
  left. destruct (enc1_cases c Sc) as [(L & Q)|Q].
  - rewrite Q in I. destruct I as [I|[]]. apply (f_equal Byte.to_N) in I. rewrite !byte_of_to_N in I by lia. assumption.
  - apply in_map_iff in I as (x & Ex & I). apply Q in I. elim (byte_small n x Hn I). congruence.
Qed.
Lemma space_small c : is_space c = true -> (c < 128)%N.
Proof. unfold is_space. rewrite orb_true_iff, andb_true_iff, N.eqb_eq, !N.leb_le. lia. Qed.
Lemma space_byte c x : scalar c = true -> is_space c = false -> In x (utf8_enc1 c) -> is_space (Byte.to_N (byte_of x)) = false.
Proof.
  intros Sc Hc I. destruct (enc1_cases c Sc) as [(L & Q)|Q].
  - rewrite Q in I. destruct I as [<-|[]]. rewrite byte_of_to_N by lia. assumption.
  - apply Q in I. rewrite byte_of_to_N by lia. destruct (is_space x) eqn:Sx; [|reflexivity]. apply space_small in Sx. lia.
Qed.
Lemma enc1_ne c : utf8_enc1 c <> [].
Proof. unfold utf8_enc1. destruct (N.ltb c 128); [|destruct (N.ltb c 2048); [|destruct (N.ltb c 65536)]]; discriminate. Qed.
Lemma enc_first c s b : utf8_enc (c :: s) = Some b -> is_space c = false -> exists x r, b = x :: r /\ is_space (Byte.to_N x) = false.
Proof.
  intros E H. apply enc_cons in E as (Sc & b' & _ & ->). destruct (utf8_enc1 c) as [|x r] eqn:Q; [now apply enc1_ne in Q|].
  exists (byte_of x), (map byte_of r ++ b'). split; [reflexivity|]. apply (space_byte c); [assumption|assumption|rewrite Q; now left].
Qed.
Lemma enc_last s c b : utf8_enc (s ++ [c]) = Some b -> is_space c = false -> exists r x, b = r ++ [x] /\ is_space (Byte.to_N x) = false.
Proof.
  intros E H. rewrite utf8_enc_app in E. destruct (utf8_enc s) as [b1|]; [|discriminate]. destruct (utf8_enc [c]) as [b2|] eqn:E2; [|discriminate]. injection E as <-.
  apply enc_cons in E2 as (Sc & b' & E' & ->). injection E' as <-. destruct (utf8_enc1 c) as [|x r _] eqn:Q using rev_ind; [now apply enc1_ne in Q|].
  exists (b1 ++ map byte_of r), (byte_of x). split; [rewrite map_app, app_nil_r, <- app_assoc; reflexivity|].
  apply (space_byte c); [assumption|assumption|]. rewrite Q. apply in_or_app. right. now left.
Qed.

Lemma enc_prefix p s b r : ascii_str p = true -> utf8_enc s = Some b -> b = map byte_of p ++ r -> exists t, s = p ++ t.
Proof.
  revert s b. induction p as [|c p IH]; intros s b A E Q; [now exists s|]. cbn in A. apply andb_true_iff in A as [Ac A]. apply N.ltb_lt in Ac.
  destruct s as [|d s]; [injection E as <-; discriminate|]. apply enc_cons in E as (Sd & b' & E & ->). cbn [map app] in Q.
  destruct (enc1_cases d Sd) as [(L & Qd)|Qd].
  - rewrite Qd in Q. cbn [map app] in Q. injection Q as Q1 Q2. apply (f_equal Byte.to_N) in Q1. rewrite !byte_of_to_N in Q1 by lia. subst d.
    destruct (IH s b' A E Q2) as (t & ->). now exists t.
  - destruct (utf8_enc1 d) as [|x l] eqn:Q3; [now apply enc1_ne in Q3|]. cbn in Q. injection Q as Q _. elim (byte_small c x Ac (Qd x (or_introl eq_refl))). congruence.
Qed.
Lemma enc_contains c p s b : ascii_str (c :: p) = true -> utf8_enc s = Some b -> contains (map byte_of (c :: p)) b = true -> exists x z, s = x ++ (c :: p) ++ z.
Proof.
  intro A. revert b. induction s as [|d s IH]; intros b E H; [injection E as <-; discriminate|].
  pose proof E as E0. apply enc_cons in E as (Sd & b' & E & ->).
  assert (Rec : contains (map byte_of (c :: p)) b' = true -> exists x z, d :: s = x ++ (c :: p) ++ z).
  { intro C. destruct (IH b' E C) as (x & z & ->). now exists (d :: x), z. }
  assert (Pre : prefixb Byte.eqb (map byte_of (c :: p)) (map byte_of (utf8_enc1 d) ++ b') = true -> exists x z, d :: s = x ++ (c :: p) ++ z).
  { intro P. apply bprefix_spec in P as (r & P). destruct (enc_prefix (c :: p) (d :: s) _ r A E0 P) as (t & T). now exists [], t. }
  assert (Ac : (c < 128)%N). { cbn in A. apply andb_true_iff in A as [A _]. now apply N.ltb_lt. }
  destruct (enc1_cases d Sd) as [(L & Qd)|Qd].
  - rewrite Qd in *. cbn [map app] in *. cbn [contains] in H. apply orb_true_iff in H as [H|H]; [now apply Pre|now apply Rec].
  - clear Pre E0. revert H. induction (utf8_enc1 d) as [|x l IHl]; [exact Rec|]. cbn [map app]. intro H. cbn [contains] in H. apply orb_true_iff in H as [H|H].
    + exfalso. cbn [prefixb] in H. apply andb_true_iff in H as [H _]. apply byte_eqb_eq in H. now apply (byte_small c x Ac (Qd x (or_introl eq_refl))).
    + apply IHl; [intros y I; apply Qd; now right|exact H].
Qed.
Lemma contains_mid p a z : contains p (a ++ p ++ z) = true.
Proof.
  induction a as [|c a IH]; cbn [app].
  - destruct (p ++ z) eqn:E; unfold contains; fold contains; apply orb_true_iff; left; apply bprefix_spec; now exists z.
  - cbn [contains]. rewrite IH. apply orb_true_r.
Qed.

(** ** Lines of text and their bytes *)
Lemma enc_lines : forall lines raw, utf8_enc (flat_map (fun l => l ++ eol) lines) = Some raw ->
  exists bs, Forall2 (fun l b => utf8_enc l = Some b) lines bs /\ raw = flat_map (fun b => b ++ crlf) bs.
Proof.
  induction lines as [|l ls IH]; intros raw E; [injection E as <-; now exists []|]. cbn [flat_map] in E. rewrite !utf8_enc_app in E.
  destruct (utf8_enc l) as [b|] eqn:El; [|discriminate]. change (utf8_enc eol) with (Some crlf) in E. destruct (utf8_enc (flat_map (fun l => l ++ eol) ls)) as [rs|] eqn:Es; [|discriminate].
  injection E as <-. destruct (IH rs eq_refl) as (bs & F & ->). exists (b :: bs). split; [now constructor|reflexivity].
Qed.
Lemma shown_inv cmd lines raw : shown cmd lines raw -> exists bc bs, utf8_enc cmd = Some bc /\ Forall2 (fun l b => utf8_enc l = Some b) lines bs /\
  raw = bc ++ crlf ++ flat_map (fun b => b ++ crlf) bs.
Proof.
  unfold shown. rewrite !utf8_enc_app. destruct (utf8_enc cmd) as [bc|]; [|discriminate]. change (utf8_enc eol) with (Some crlf).
  destruct (utf8_enc (flat_map (fun l => l ++ eol) lines)) as [rs|] eqn:E; [|discriminate]. intro H. injection H as <-. apply enc_lines in E as (bs & F & ->). now exists bc, bs.
Qed.
Lemma bj_tail bs : bs <> [] -> flat_map (fun b => b ++ crlf) bs = bj bs ++ crlf.
Proof.
  destruct bs as [|b bs]; [congruence|]. intros _. cbn [flat_map bj]. revert b. induction bs as [|c bs IH]; intro b; cbn [flat_map]; [now rewrite !app_nil_r|].
  rewrite IH. rewrite <- !app_assoc. reflexivity.
Qed.
Lemma bj_last bs b : exists a, bj (bs ++ [b]) = a ++ b.
Proof.
  destruct bs as [|x bs]; [exists []; cbn; apply app_nil_r|]. cbn [bj app]. rewrite flat_map_app. cbn [flat_map]. rewrite app_nil_r. exists (x ++ flat_map (fun y => crlf ++ y) bs ++ crlf). now rewrite <- !app_assoc.
Qed.

(** The output comes back, where the ends are not white space *)
Lemma ssh_out cmd raw lines first last_ mid : shown cmd lines raw -> (length cmd <= columns)%nat ->
  (lines = first :: mid /\ lines <> [] /\ exists k, lines = k ++ [last_]) ->
  (exists c r, first = c :: r /\ is_space c = false) -> (exists r c, last_ = r ++ [c] /\ is_space c = false) ->
  exists bs, Forall2 (fun l b => utf8_enc l = Some b) lines bs /\ ssh cmd raw = Ok (bj bs).
Proof.
  intros H Hl (E1 & Ne & k & E2) (c & r & -> & Hc) (r2 & e & -> & He). apply shown_inv in H as (bc & bs & Ec & F & ->).
  exists bs. split; [assumption|]. unfold ssh. destruct (Nat.ltb_spec columns (length cmd)); [lia|]. rewrite Ec. f_equal.
  assert (Nb : bs <> []) by (intros ->; inversion F; congruence).
  rewrite bj_tail by assumption.
  assert (Sk : skipn (length bc + 1 + 1) (bc ++ crlf ++ bj bs ++ crlf) = bj bs ++ crlf).
  { rewrite app_assoc, skipn_app. rewrite skipn_all2 by (rewrite app_length; cbn; lia). rewrite app_length. cbn [length crlf].
    replace (length bc + 1 + 1 - (length bc + 2))%nat with 0%nat by lia. reflexivity. }
  rewrite Sk.
  assert (A : exists x m, bj bs = x :: m /\ is_space (Byte.to_N x) = false).
  { rewrite E1 in F. inversion F as [|? b0 ? bs' E0 F' Q1 Q2]. subst. apply (enc_first c r b0 E0) in Hc as (x & m & -> & Hx). cbn [bj app]. eauto. }
  assert (B : exists m x, bj bs = m ++ [x] /\ is_space (Byte.to_N x) = false).
  { rewrite E2 in F. apply Forall2_app_inv_l in F as (b1 & b2 & _ & F2 & ->). inversion F2 as [|? b0 ? bs' E0 F' Q1 Q2]. subst. inversion F'. subst.
    apply (enc_last r2 e b0 E0) in He as (m & x & -> & Hx). destruct (bj_last b1 (m ++ [x])) as (a & ->). exists (a ++ m), x. split; [now rewrite app_assoc|assumption]. }
  destruct A as (x & m & A & Hx). destruct B as (m2 & x2 & B & Hx2). rewrite A in B |- *. apply (bstrip_body x m x2 crlf Hx Hx2).
  - intros z [<-|[<-|[]]]; reflexivity.
  - rewrite B. now rewrite last_last.
Qed.

(** ** The listing *)
Lemma cut_dbl_app a b : ~ In 32%N a -> cut_dbl (a ++ $"  " ++ b) = Some (a, b).
Proof.
  induction a as [|c a IH]; intro N; [reflexivity|]. cbn [app]. cbn [cut_dbl].
  assert (startswith (c :: a ++ $"  " ++ b) $"  " = false) as ->.
  { destruct (startswith _ _) eqn:S; [|reflexivity]. apply startswith_spec in S as (r & S). injection S as -> _. elim N. now left. }
  rewrite IH by (intro I; apply N; now right). reflexivity.
Qed.
Lemma hex_no_blank d : ~ In 32%N (hex d).
Proof.
  unfold hex. rewrite in_flat_map. intros (x & _ & I). cbn [In] in I. assert (H : forall n, hexdigit n <> 32%N) by (intro n; unfold hexdigit; destruct (N.ltb n 10); lia).
  destruct I as [I|[I|[]]]; now apply H in I.
Qed.
Lemma hex_clean d c : In c (hex d) -> (48 <= c)%N.
Proof.
  unfold hex. rewrite in_flat_map. intros (x & _ & I). cbn [In] in I. assert (H : forall n, (48 <= hexdigit n)%N) by (intro n; unfold hexdigit; destruct (N.ltb n 10); lia).
  destruct I as [<-|[<-|[]]]; apply H.
Qed.

Definition file_line (d : bytes) (name : str) : str := hex d ++ $"  " ++ name.
Lemma check_line_file d name b : utf8_enc (file_line d name) = Some b -> check_line b = Ok (name, d).
Proof.
  intro E. apply utf8_roundtrip in E. unfold check_line. rewrite E. unfold file_line. rewrite cut_dbl_app by apply hex_no_blank. now rewrite fromhex_hex.
Qed.
Definition IAD : str := $"Is a directory".
Lemma file_line_has d name : (exists a b, file_line d name = a ++ IAD ++ b) -> exists a b, name = a ++ IAD ++ b.
Proof.
  unfold file_line. intros (a & b & E).
  (* the I is not in the digest nor the blanks *)
  assert (NI : ~ In 73%N (hex d ++ $"  ")).
  { intro I. apply in_app_iff in I as [I|I]; [|cbn in I; repeat (destruct I as [I|I]; [discriminate|]); contradiction].
    unfold hex in I. apply in_flat_map in I as (x & _ & I). assert (H : forall n, (n < 16)%N -> hexdigit n <> 73%N) by (intros n Hn; unfold hexdigit; destruct (N.ltb_spec n 10); lia).
    assert (Hx : (Byte.to_N x < 256)%N) by (pose proof (Byte.to_N_bounded x); lia). cbn [In] in I.
    destruct I as [I|[I|[]]]; apply H in I; try contradiction.
    - apply N.div_lt_upper_bound; lia.
    - apply N.mod_lt. lia. }
  rewrite app_assoc in E. revert a E. induction (hex d ++ $"  ") as [|c l IH]; intros a E; [now exists a, b|].
  destruct a as [|x a]; [injection E as -> _; elim NI; now left|]. injection E as _ E. apply (IH (fun I => NI (or_intror I)) a E).
Qed.

Section Listing.
Variables (sum : str) (l : list entry).
Hypothesis Hsum : one_line sum.
Hypothesis Hr : forall e, In e l -> readable e.

Lemma space_last s : s <> [] -> is_space (last s 0%N) = false -> exists r c, s = r ++ [c] /\ is_space c = false.
Proof. intros N H. destruct s as [|c r _] using rev_ind; [congruence|]. rewrite last_last in H. now exists r, c. Qed.
Lemma not_ends e : In e l -> ~ ends_blank (e_name e).
Proof. intros I (a & E). destruct (Hr e I) as (_ & _ & _ & _ & _ & _ & H & _). rewrite E in H. change $" " with [32%N] in H. rewrite last_last in H. discriminate. Qed.

Lemma name_in_line e : forall c, In c (e_name e) -> In c (stat_line (e_info e)).
Proof. intros c I. unfold stat_line. cbn [join]. apply in_or_app. now left. Qed.
Lemma sum_one_line e : In e l -> one_line (sum_line sum e).
Proof.
  intro I. destruct (Hr e I) as (_ & _ & (L1 & L2) & _ & _ & _ & _ & Hd). unfold sum_line. destruct (e_digest e) as [d|].
  - destruct Hd as [Nb _]; [discriminate|]. assert (has BSL (e_name e) = false) as ->.
    { unfold has. destruct (existsb _ _) eqn:X; [|reflexivity]. apply existsb_exists in X as (c & Ic & Q). apply N.eqb_eq in Q. subst c. contradiction. }
    split; intro Ic; apply in_app_iff in Ic as [Ic|Ic]; try (apply hex_clean in Ic; lia); cbn [app str_of] in Ic;
      (apply in_app_iff in Ic as [Ic|Ic]; [cbn in Ic; repeat (destruct Ic as [Ic|Ic]; [discriminate|]); contradiction|]); apply name_in_line in Ic; contradiction.
  - destruct Hsum as [S1 S2]. split; intro Ic; repeat (apply in_app_iff in Ic as [Ic|Ic]); try contradiction; try (apply name_in_line in Ic; contradiction);
      cbn in Ic; repeat (destruct Ic as [Ic|Ic]; [discriminate|]); contradiction.
Qed.

(** the lines of checksums *)
Lemma checks_read ms bs : incl ms l -> Forall2 (fun t b => utf8_enc t = Some b) (map (sum_line sum) ms) bs ->
  rmap check_line (filter (fun b => negb (contains (ascii_bytes "Is a directory") b)) bs) =
  Ok (flat_map (fun e => match e_digest e with Some d => [(e_name e, d)] | None => [] end) ms).
Proof.
  revert bs. induction ms as [|e ms IH]; intros bs Hi F; [inversion F; reflexivity|]. cbn [map] in F. inversion F as [|? b ? bs' E F']. subst. clear F.
  assert (Ie : In e l) by (apply Hi; now left). pose proof (Hr e Ie) as (_ & _ & _ & _ & _ & _ & _ & Hd).
  specialize (IH bs' (fun z Iz => Hi z (or_intror Iz)) F'). cbn [filter flat_map]. unfold sum_line in E. destruct (e_digest e) as [d|].
  - destruct Hd as [Nb Ni]; [discriminate|]. assert (Hb : has BSL (e_name e) = false).
    { unfold has. destruct (existsb _ _) eqn:X; [|reflexivity]. apply existsb_exists in X as (c & Ic & Q). apply N.eqb_eq in Q. subst c. contradiction. }
    rewrite Hb in E. assert (C : contains (ascii_bytes "Is a directory") b = false).
    { destruct (contains _ _) eqn:C; [|reflexivity]. elim Ni. apply (file_line_has d). exact (enc_contains 73 (tl IAD) (file_line d (e_name e)) b eq_refl E C). }
    rewrite C. cbn [negb rmap]. rewrite (check_line_file d (e_name e) b E). cbn [rbind]. rewrite IH. reflexivity.
  - assert (C : contains (ascii_bytes "Is a directory") b = true).
    { rewrite !utf8_enc_app in E. destruct (utf8_enc sum) as [b1|]; [|discriminate]. destruct (utf8_enc (e_name e)) as [b2|]; [|discriminate].
      cbn in E. injection E as <-. 
      pose proof (contains_mid (ascii_bytes "Is a directory") (b1 ++ x3a :: x20 :: b2 ++ [x3a; x20]) []) as C. rewrite app_nil_r, <- app_assoc in C. cbn [app] in C. rewrite <- app_assoc in C. exact C. }
    rewrite C. exact IH.
Qed.
Lemma stats_read ms bs : incl ms l -> Forall2 (fun t b => utf8_enc t = Some b) (map (fun e => stat_line (e_info e)) ms) bs ->
  exists rs, rmap StatResult bs = Ok rs /\ Forall2 (fun e r => same_stat (e_info e) (e_name e) r) ms rs.
Proof.
  revert bs. induction ms as [|e ms IH]; intros bs Hi F; [inversion F; now exists []|]. cbn [map] in F. inversion F as [|? b ? bs' E F']. subst.
  assert (Ie : In e l) by (apply Hi; now left). pose proof (Hr e Ie) as (G & Mo & _ & _ & Tb & _ & _ & _).
  destruct (IH bs' (fun z Iz => Hi z (or_intror Iz)) F') as (rs & R & Fr).
  destruct (proj2 (stat_exact b (e_info e) G Mo E)) as (r & Q & Sr); [split; [exact Tb|exact (not_ends e Ie)]|].
  exists (r :: rs). split; [cbn [rmap]; rewrite Q; cbn [rbind]; now rewrite R|]. now constructor.
Qed.
End Listing.

Lemma forall2_in {A B} (R : A -> B -> Prop) l m y : Forall2 R l m -> In y m -> exists x, In x l /\ R x y.
Proof. induction 1 as [|a b l m H F IH]; [contradiction|]. intros [<-|I]; [exists a; split; [now left|assumption]|]. destruct (IH I) as (x & Ix & Q). exists x. split; [now right|assumption]. Qed.

Lemma forall2_one {A B} (R : A -> B -> Prop) x m : Forall2 R [x] m -> exists y, m = [y] /\ R x y.
Proof. intro F. inversion F as [|? y ? m' Q F']. inversion F'. eauto. Qed.

Definition summed (l : list entry) : list (str * bytes) := flat_map (fun e => match e_digest e with Some d => [(e_name e, d)] | None => [] end) l.
Lemma get_none {A} k (m : list (str * A)) : ~ In k (map fst m) -> dict_get k m = None.
Proof.
  induction m as [|[k' v] m IH]; intro N; [reflexivity|]. cbn. rewrite IH by (intro I; apply N; now right).
  assert (str_eqb k k' = false) as -> by (apply str_eqb_neq; intros ->; apply N; now left). reflexivity.
Qed.
Lemma summed_keys l k : In k (map fst (summed l)) -> In k (map e_name l).
Proof.
  induction l as [|e l IH]; intro I; [contradiction|]. unfold summed in I. cbn [flat_map] in I. fold (summed l) in I. rewrite map_app in I.
  apply in_app_iff in I as [I|I]; [left|right; auto]. destruct (e_digest e); [|contradiction]. destruct I as [I|[]]. exact I.
Qed.
Lemma get_summed l e : NoDup (map e_name l) -> In e l -> dict_get (e_name e) (summed l) = e_digest e.
Proof.
  induction l as [|x l IH]; intros N I; [contradiction|]. cbn [map] in N. inversion N as [|? ? Nx Nl]. subst. unfold summed. cbn [flat_map]. fold (summed l).
  destruct I as [->|I].
  - assert (Z : dict_get (e_name e) (summed l) = None) by (apply get_none; intro I; now apply Nx, summed_keys).
    destruct (e_digest e) as [d|]; cbn [app]; [|exact Z]. cbn [dict_get]. rewrite Z, str_eqb_refl. reflexivity.
  - assert (Ne : str_eqb (e_name e) (e_name x) = false). { apply str_eqb_neq. intro Q. apply Nx. rewrite <- Q. now apply in_map. }
    destruct (e_digest x) as [d|]; cbn [app]; [|now apply IH]. cbn [dict_get]. rewrite IH by assumption. rewrite Ne. now destruct (e_digest e).
Qed.
Lemma get_stats l rs : Forall2 (fun e r => same_stat (e_info e) (e_name e) r) l rs -> NoDup (map e_name l) ->
  (forall e, In e l -> exists r, dict_get (e_name e) (map (fun r => (sr_name r, r)) rs) = Some r /\ same_stat (e_info e) (e_name e) r) /\
  map fst (map (fun r => (sr_name r, r)) rs) = map e_name l.
Proof.
  induction 1 as [|x r l rs Q F IH]; intro N; [split; [contradiction|reflexivity]|]. cbn [map] in *. inversion N as [|? ? Nx Nl]. subst. destruct (IH Nl) as [IH1 IH2].
  assert (En : sr_name r = e_name x) by apply Q. split; [|cbn [fst]; now rewrite En, IH2].
  intros e [->|I].
  - exists r. cbn [dict_get]. rewrite get_none by (rewrite IH2; exact Nx). rewrite En, str_eqb_refl. now split.
  - destruct (IH1 e I) as (r' & G & S'). exists r'. cbn [dict_get]. rewrite G. now split.
Qed.

Lemma sum_has_blank sum e : In 32%N (sum_line sum e).
Proof.
  unfold sum_line. destruct (e_digest e); [destruct (has BSL (e_name e))|].
  - right. apply in_or_app. right. now left.
  - apply in_or_app. right. now left.
  - apply in_or_app. right. right. now left.
Qed.
Lemma enc_free s b : one_line s -> utf8_enc s = Some b -> cr_free b.
Proof. intros [H _] E I. apply H. now apply (enc_in 13 s b). Qed.
Lemma enc_dashes s b : utf8_enc s = Some b -> b = dashes -> s = $"----".
Proof. intros E ->. apply utf8_roundtrip in E. vm_compute in E. injection E as <-. reflexivity. Qed.

Lemma listing_read sum l cmd raw : l <> [] -> one_line sum -> (forall e, In e l -> readable e) -> NoDup (map e_name l) -> (length cmd <= columns)%nat ->
  shown cmd (printed sum l) raw ->
  exists out stats checks, ssh cmd raw = Ok out /\ listing out = Ok (stats, checks) /\
    (forall e, In e l -> (exists r, dict_get (e_name e) stats = Some r /\ same_stat (e_info e) (e_name e) r) /\ dict_get (e_name e) checks = e_digest e) /\
    forall k, ~ In k (map e_name l) -> dict_get k stats = None /\ dict_get k checks = None.
Proof.
  intros Ne Hs Hr Nd Hl Sh.
  destruct l as [|e0 l0] eqn:El; [congruence|]. rewrite <- El in *. clear Ne.
  assert (H0 : readable e0) by (apply Hr; rewrite El; now left).
  destruct (exists_last (l := l)) as (li & en & Een); [rewrite El; discriminate|].
  assert (Hn : In en l) by (rewrite Een; apply in_or_app; right; now left).
  destruct (ssh_out cmd raw (printed sum l) (stat_line (e_info e0)) (sum_line sum en) (map (fun e => stat_line (e_info e)) l0 ++ [$"----"] ++ map (sum_line sum) l) Sh Hl) as (bs & F & Q).
  - split; [unfold printed; rewrite El; reflexivity|]. split; [unfold printed; rewrite El; discriminate|].
    exists (map (fun e => stat_line (e_info e)) l ++ [$"----"] ++ map (sum_line sum) li). unfold printed. rewrite Een at 2. rewrite map_app. cbn [map]. now rewrite <- !app_assoc.
  - destruct H0 as (_ & _ & _ & Nn & _ & Hh & _). unfold stat_line. unfold e_name in *. destruct (in_name (e_info e0)) as [|c r]; [congruence|]. cbn [join app]. eauto.
  - destruct (Hr en Hn) as (_ & _ & _ & Nn & _ & _ & Hla & Hd). unfold sum_line. destruct (e_digest en) as [d|].
    + destruct Hd as [Nb _]; [discriminate|]. assert (has BSL (e_name en) = false) as ->.
      { unfold has. destruct (existsb _ _) eqn:X; [|reflexivity]. apply existsb_exists in X as (c & Ic & Qc). apply N.eqb_eq in Qc. subst c. contradiction. }
      destruct (space_last _ Nn Hla) as (r & c & -> & Hc). exists (hex d ++ $"  " ++ r), c. split; [now rewrite <- !app_assoc|assumption].
    + exists (sum ++ $": " ++ e_name en ++ $": Is a director"), 121%N. split; [now rewrite <- !app_assoc|reflexivity].
  - unfold printed in F. apply Forall2_app_inv_l in F as (b1 & b23 & F1 & F23 & ->). apply Forall2_app_inv_l in F23 as (b2 & b3 & F2 & F3 & ->).
    apply forall2_one in F2 as (bd & -> & Ed). assert (Ebd : bd = dashes) by (injection Ed as <-; reflexivity). rewrite Ebd in Q. clear Ed Ebd bd.
    destruct (stats_read l Hr l b1 (incl_refl _) F1) as (rs & R1 & Fr). pose proof (checks_read sum l Hr l b3 (incl_refl _) F3) as R3.
    assert (Free1 : forall b, In b b1 -> cr_free b).
    { intros b I. destruct (forall2_in _ _ _ b F1 I) as (t & It & Et). apply in_map_iff in It as (e & <- & Ie). apply (enc_free (stat_line (e_info e))); [apply (Hr e Ie)|assumption]. }
    assert (Free3 : forall b, In b b3 -> cr_free b).
    { intros b I. destruct (forall2_in _ _ _ b F3 I) as (t & It & Et). apply in_map_iff in It as (e & <- & Ie). apply (enc_free (sum_line sum e)); [now apply (sum_one_line sum l Hs Hr)|assumption]. }
    assert (N1 : ~ In dashes (tl b1)).
    { intro I. assert (I' : In dashes b1) by (destruct b1; [contradiction|now right]). destruct (forall2_in _ _ _ _ F1 I') as (t & It & Et). apply in_map_iff in It as (e & <- & Ie).
      pose proof (enc_dashes _ _ Et eq_refl) as Q2. assert (I2 : In 32%N (stat_line (e_info e))) by (unfold stat_line; cbn [join]; apply in_or_app; right; now left).
      rewrite Q2 in I2. cbn in I2. repeat (destruct I2 as [I2|I2]; [discriminate|]). contradiction. }
    assert (N3 : ~ In dashes (tl b3)).
    { intro I. assert (I' : In dashes b3) by (destruct b3; [contradiction|now right]). destruct (forall2_in _ _ _ _ F3 I') as (t & It & Et). apply in_map_iff in It as (e & <- & Ie).
      pose proof (enc_dashes _ _ Et eq_refl) as Q2. assert (I2 : In 32%N (sum_line sum e)).
      { apply sum_has_blank. }
      rewrite Q2 in I2. cbn in I2. repeat (destruct I2 as [I2|I2]; [discriminate|]). contradiction. }
    assert (Nb1 : b1 <> []) by (intros ->; rewrite El in F1; inversion F1). assert (Nb3 : b3 <> []) by (intros ->; rewrite El in F3; inversion F3).
    exists (bj (b1 ++ [dashes] ++ b3)), (map (fun r => (sr_name r, r)) rs), (summed l). split; [exact Q|].
    split.
    + unfold listing. change (crlf ++ ascii_bytes "----" ++ crlf) with ruler.
      rewrite splits_two; [|assumption|assumption|intros y I; apply in_app_iff in I as [I|I]; auto|assumption|assumption].
      rewrite !splits_lines by assumption. rewrite R1. cbn [rbind]. rewrite R3. reflexivity.
    + destruct (get_stats l rs Fr Nd) as [G1 G2]. split.
      * intros e I. split; [now apply G1|now apply get_summed].
      * intros k Nk. split; apply get_none; [now rewrite G2|]. intro I. now apply Nk, summed_keys.
Qed.

Lemma rmap_err {A B} (f : A -> res B) a x c e rs : rmap f a = Ok rs -> f x = Err e -> rmap f (a ++ x :: c) = Err e.
Proof.
  revert rs. induction a as [|y a IH]; intros rs E Fx; [cbn; now rewrite Fx|]. cbn in E |- *. destruct (f y) as [v|] eqn:Q; [|discriminate]. cbn in E |- *.
  destruct (rmap f a) as [vs|] eqn:R; [|discriminate]. cbn. now rewrite (IH vs eq_refl Fx).
Qed.
Lemma no_stat b : utf8_enc $"stat: cannot stat '*': No such file or directory" = Some b -> StatResult b = Err ValueError.
Proof. intro E. vm_compute in E. injection E as <-. vm_compute. reflexivity. Qed.

Lemma hidden_fails sum l cmd raw : one_line sum -> sum <> [] -> (forall e, In e l -> readable e) -> (length cmd <= columns)%nat ->
  shown cmd (printed_hidden sum l) raw -> exists out, ssh cmd raw = Ok out /\ listing out = Err ValueError.
Proof.
  intros Hs Ns Hr Hl Sh.
  set (nos := $"stat: cannot stat '*': No such file or directory") in *.
  assert (Ends : exists first mid, printed_hidden sum l = first :: mid /\ exists c r, first = c :: r /\ is_space c = false).
  { unfold printed_hidden. destruct l as [|e0 l0]; [exists nos; eexists; split; [reflexivity|]; exists 115%N; eexists; split; reflexivity|].
    exists (stat_line (e_info e0)). eexists. split; [reflexivity|]. destruct (Hr e0 (or_introl eq_refl)) as (_ & _ & _ & Nn & _ & Hh & _).
    unfold stat_line. unfold e_name in *. destruct (in_name (e_info e0)) as [|c r]; [congruence|]. cbn [join app]. eauto. }
  destruct Ends as (first & mid & E1 & C1).
  destruct (ssh_out cmd raw (printed_hidden sum l) first (sum ++ $": '*': No such file or directory") mid Sh Hl) as (bs & F & Q).
  - split; [assumption|]. split; [rewrite E1; discriminate|].
    exists (map (fun e => stat_line (e_info e)) l ++ [nos; $"----"] ++ map (sum_line sum) l). unfold printed_hidden. fold nos. now rewrite <- !app_assoc.
  - assumption.
  - exists (sum ++ $": '*': No such file or director"), 121%N. split; [now rewrite <- app_assoc|reflexivity].
  - exists (bj bs). split; [assumption|]. unfold printed_hidden in F. fold nos in F.
    apply Forall2_app_inv_l in F as (b1 & b23 & F1 & F23 & ->). apply Forall2_app_inv_l in F23 as (b2 & b34 & F2 & F34 & ->).
    apply Forall2_app_inv_l in F34 as (b3 & b4 & F3 & F4 & ->). apply forall2_one in F4 as (bl & -> & El).
    inversion F2 as [|? bn ? b2' En F2']. subst b2. apply forall2_one in F2' as (bd & -> & Ed). assert (Ebd : bd = dashes) by (injection Ed as <-; reflexivity). subst bd. clear Ed F2.
    destruct (stats_read l Hr l b1 (incl_refl _) F1) as (rs & R1 & Fr).
    assert (Free1 : forall b, In b b1 -> cr_free b).
    { intros b I. destruct (forall2_in _ _ _ b F1 I) as (t & It & Et). apply in_map_iff in It as (e & <- & Ie). apply (enc_free (stat_line (e_info e))); [apply (Hr e Ie)|assumption]. }
    assert (Free3 : forall b, In b b3 -> cr_free b).
    { intros b I. destruct (forall2_in _ _ _ b F3 I) as (t & It & Et). apply in_map_iff in It as (e & <- & Ie). apply (enc_free (sum_line sum e)); [now apply (sum_one_line sum l Hs Hr)|assumption]. }
    assert (FreeN : cr_free bn) by (vm_compute in En; injection En as <-; intro I; cbn in I; repeat (destruct I as [I|I]; [discriminate|]); contradiction).
    assert (FreeL : cr_free bl).
    { apply (enc_free (sum ++ $": '*': No such file or directory")); [|assumption]. destruct Hs as [S1 S2].
      split; intro I; apply in_app_iff in I as [I|I]; try contradiction; cbn in I; repeat (destruct I as [I|I]; [discriminate|]); contradiction. }
    assert (Nd : forall t, In 32%N t -> utf8_enc t <> Some dashes).
    { intros t I E. pose proof (enc_dashes _ _ E eq_refl) as Q2. rewrite Q2 in I. cbn in I. repeat (destruct I as [I|I]; [discriminate|]). contradiction. }
    assert (N1 : ~ In dashes (b1 ++ [bn])).
    { intro I. apply in_app_iff in I as [I|[I|[]]].
      - destruct (forall2_in _ _ _ _ F1 I) as (t & It & Et). apply in_map_iff in It as (e & <- & Ie). apply Nd in Et; [assumption|]. unfold stat_line. cbn [join]. apply in_or_app. right. now left.
      - subst bn. apply Nd in En; [assumption|]. do 5 right. now left. }
    assert (N3 : ~ In dashes (b3 ++ [bl])).
    { intro I. apply in_app_iff in I as [I|[I|[]]].
      - destruct (forall2_in _ _ _ _ F3 I) as (t & It & Et). apply in_map_iff in It as (e & <- & Ie). apply Nd in Et; [assumption|apply sum_has_blank].
      - subst bl. apply Nd in El; [assumption|]. apply in_or_app. right. right. now left. }
    unfold listing. change (crlf ++ ascii_bytes "----" ++ crlf) with ruler.
    replace (b1 ++ [bn; dashes] ++ b3 ++ [bl]) with ((b1 ++ [bn]) ++ [dashes] ++ b3 ++ [bl]) by (rewrite <- app_assoc; reflexivity).
    rewrite splits_two.
    + rewrite splits_lines; [|now destruct b1|intros y I; apply in_app_iff in I as [I|[<-|[]]]; auto].
      rewrite (rmap_err StatResult b1 bn [] ValueError rs R1 (no_stat bn En)). reflexivity.
    + now destruct b1.
    + now destruct b3.
    + intros y I. repeat (apply in_app_iff in I as [I|I]; auto); destruct I as [<-|[]]; assumption.
    + intro I. apply N1. destruct (b1 ++ [bn]); [contradiction|now right].
    + intro I. apply N3. destruct (b3 ++ [bl]); [contradiction|now right].
Qed.

Lemma kind_read k cmd raw : shown cmd [kind_text k] raw -> (length cmd <= columns)%nat ->
  exists out, ssh cmd raw = Ok out /\ (is_dir_out out = true <-> k = Directory) /\ (is_file_out out = true <-> exists n, k = Regular n /\ n <> 0%N).
Proof.
  intros Sh Hl.
  assert (Ends : (exists c r, kind_text k = c :: r /\ is_space c = false) /\ (exists r c, kind_text k = r ++ [c] /\ is_space c = false)).
  { split; [destruct k as [[|n]| | | | | | |p]; eexists _, _; split; reflexivity|].
    destruct k as [[|n]| | | | | | |p]; try (apply space_last; [discriminate|reflexivity]).
    exists ($"stat: cannot statx '" ++ p ++ $"': No such file or director"), 121%N. split; [|reflexivity]. cbn [kind_text]. now rewrite <- !app_assoc. }
  destruct Ends as [A B]. destruct (ssh_out cmd raw [kind_text k] (kind_text k) (kind_text k) [] Sh Hl) as (bs & F & Q); [|assumption|assumption|].
  - split; [reflexivity|]. split; [discriminate|]. now exists [].
  - exists (bj bs). split; [assumption|]. apply forall2_one in F as (b & -> & E). cbn [bj flat_map]. rewrite app_nil_r.
    destruct k as [[|n]| | | | | | |p];
      [vm_compute in E; injection E as <-; (split; [split; intro H; [vm_compute in H|]|split; [intro H; vm_compute in H|intros (m & H & Hm)]]); try discriminate; try reflexivity ..|].
    + injection H as <-. congruence.
    + exists (N.pos n). split; [reflexivity|discriminate].
    + assert (X : exists rest, kind_text (Absent p) = 115%N :: rest) by (eexists; reflexivity). destruct X as (rest & X). rewrite X in E. apply enc_cons in E as (_ & b' & _ & ->).
      split; [split; [intro H; discriminate H|discriminate]|]. split; [intro H; discriminate H|intros (m & H & _); discriminate H].
Qed.
Lemma long_command darwin cypher rpath raw : (88 < length rpath + length cypher)%nat -> ssh (children_cmd darwin cypher rpath) raw = Err CommandTooLongErr.
Proof.
  intro H. unfold ssh. destruct (Nat.ltb_spec columns (length (children_cmd darwin cypher rpath))) as [L|L]; [reflexivity|]. exfalso.
  assert (Q : length (children_cmd darwin cypher rpath) = (length rpath + (length cypher + if darwin then 113 else 112))%nat).
  { unfold children_cmd. rewrite !app_length. generalize (length rpath) as a, (length cypher) as b. intros a b.
    assert (Q : length (stat_cmd darwin stat_format []) = if darwin then 69%nat else 68%nat) by (destruct darwin; reflexivity). rewrite Q.
    change (length $"cd ") with 3%nat. change (length $";") with 1%nat. change (length $" {.,}*;") with 7%nat. change (length $"echo '----';") with 12%nat.
    change (length [DQ]) with 1%nat. change (length $"${OLDPWD}") with 9%nat. destruct darwin; lia. }
  rewrite Q in L. unfold columns in L. destruct darwin; lia.
Qed.
