(** * Proofs about the text of a version *)
From Coq Require Import String NArith ZArith Bool List Lia.
From Verif Require Import Model.Py Model.Version Model.Command Model.Pep440 Spec.CommandSpec
  Proofs.PyLemmas Proofs.FileSizeProofs.
Import ListNotations.

(** ** Leading characters *)
Definition head (f : N -> bool) (s : str) : bool := match s with c :: _ => f c | [] => false end.
Lemma lead_app f d r : forallb f d = true -> head f r = false -> lead f (d ++ r) = (d, r).
Proof.
  intros H R. induction d as [|c d IH]; cbn [app].
  - destruct r as [|c r]; [reflexivity|]. cbn [lead head] in *. now rewrite R.
  - cbn [forallb] in H. apply andb_true_iff in H as [H1 H2]. cbn [lead]. rewrite H1, (IH H2). reflexivity.
Qed.
Lemma lead_split f s a b : lead f s = (a, b) -> s = a ++ b /\ forallb f a = true /\ head f b = false.
Proof.
  revert a b. induction s as [|c s IH]; intros a b H; cbn [lead] in H; [injection H as <- <-; repeat split|].
  destruct (f c) eqn:Fc.
  - destruct (lead f s) as [a' b']. injection H as <- <-. destruct (IH a' b' eq_refl) as (-> & H1 & H2). cbn [app forallb]. rewrite Fc. repeat split; assumption.
  - injection H as <- <-. cbn [app forallb head]. repeat split. exact Fc.
Qed.

(** ** Numbers *)
Lemma dec_digits n : forallb is_digit (dec_N n) = true.
Proof. exact (proj1 (dec_numeral n)). Qed.
Lemma num_dec n : num (dec_N n) = n.
Proof. unfold num. now rewrite (proj2 (dec_numeral n)). Qed.
Lemma dec_cons n : exists d r, dec_N n = d :: r /\ is_digit d = true.
Proof.
  pose proof (dec_digits n) as H. destruct (dec_N n) as [|d r] eqn:E.
  - pose proof (proj2 (dec_numeral n)) as K. rewrite E in K. discriminate K.
  - cbn [forallb] in H. apply andb_true_iff in H as [H _]. eauto.
Qed.
Lemma digit_range d : is_digit d = true -> (48 <= d <= 57)%N.
Proof. unfold is_digit. rewrite andb_true_iff, !N.leb_le. tauto. Qed.
Lemma lead_dec n r : head is_digit r = false -> lead is_digit (dec_N n ++ r) = (dec_N n, r).
Proof. intro H. apply lead_app; [apply dec_digits|exact H]. Qed.
Lemma opt_sep_dec n r : opt_sep (dec_N n ++ r) = dec_N n ++ r.
Proof.
  destruct (dec_cons n) as (d & ds & -> & D). cbn [app opt_sep]. apply digit_range in D.
  replace (sep_c d) with false; [reflexivity|].
  symmetry. cbn. repeat (apply orb_false_iff; split); try reflexivity; apply N.eqb_neq; lia.
Qed.

(** ** The parts *)
Definition pre_text (o : option (letter * N)) : str := match o with Some (l, n) => letter_text l ++ dec_N n | None => [] end.
Definition post_text (o : option N) : str := match o with Some n => $".post" ++ dec_N n | None => [] end.
Definition dev_text (o : option N) : str := match o with Some n => $".dev" ++ dec_N n | None => [] end.
Definition local_text (o : option (list segment)) : str := match o with Some l => $"+" ++ join $"." (map segment_text l) | None => [] end.
Definition epoch_text (e : N) : str := if N.eqb e 0 then [] else dec_N e ++ $"!".
Lemma version_parts v : version_text v =
  epoch_text (v_epoch v) ++ join $"." (map dec_N (v_release v)) ++ pre_text (v_pre v) ++ post_text (v_post v) ++ dev_text (v_dev v) ++ local_text (v_local v).
Proof. reflexivity. Qed.

(** What can follow *)
Definition tail_dev (lo : option (list segment)) : str := local_text lo.
Lemma labelled_some {A} (labels : list (str * A)) s a n r : pick labels (opt_sep s) = Some (a, dec_N n ++ r) -> head is_digit r = false ->
  labelled labels s = (Some (a, n), r).
Proof. intros P H. unfold labelled. rewrite P, opt_sep_dec, (lead_dec n r H), num_dec. reflexivity. Qed.
Lemma labelled_none {A} (labels : list (str * A)) s : pick labels (opt_sep s) = None -> labelled labels s = (None, s).
Proof. intro P. unfold labelled. now rewrite P. Qed.

Lemma local_head lo : head is_digit (local_text lo) = false.
Proof. destruct lo; reflexivity. Qed.
Lemma dev_head d lo : head is_digit (dev_text d ++ local_text lo) = false.
Proof. destruct d; [reflexivity|apply local_head]. Qed.
Lemma post_head p d lo : head is_digit (post_text p ++ dev_text d ++ local_text lo) = false.
Proof. destruct p; [reflexivity|apply dev_head]. Qed.

Lemma dev_read d lo : labelled dev_labels (dev_text d ++ local_text lo) = (option_map (pair tt) d, local_text lo).
Proof.
  destruct d as [n|]; cbn [dev_text option_map].
  - rewrite <- app_assoc. apply labelled_some; [reflexivity|apply local_head].
  - apply labelled_none. destruct lo; reflexivity.
Qed.
Lemma post_read p d lo : post_part (post_text p ++ dev_text d ++ local_text lo) = (p, dev_text d ++ local_text lo).
Proof.
  destruct p as [n|]; cbn [post_text].
  - rewrite <- app_assoc. set (r := dev_text d ++ local_text lo). unfold post_part.
    change (labelled post_labels _) with (labelled post_labels ($".post" ++ dec_N n ++ r)).
    rewrite (labelled_some post_labels ($".post" ++ dec_N n ++ r) tt n r); [reflexivity|reflexivity|apply dev_head].
  - destruct d as [n|]; [reflexivity|]. destruct lo; reflexivity.
Qed.
Lemma other_digit d c : is_digit d = true -> (57 < c)%N -> N.eqb d c = false /\ N.eqb c d = false.
Proof. intros D C. apply digit_range in D. split; apply N.eqb_neq; lia. Qed.
Lemma pre_read o p d lo : labelled pre_labels (pre_text o ++ post_text p ++ dev_text d ++ local_text lo) = (o, post_text p ++ dev_text d ++ local_text lo).
Proof.
  destruct o as [[l n]|]; cbn [pre_text].
  - rewrite <- app_assoc. set (r := post_text p ++ dev_text d ++ local_text lo). apply labelled_some; [|apply post_head].
    destruct l; cbn [letter_text]; [| |reflexivity].
    + destruct (dec_cons n) as (x & xs & E & D). rewrite E. cbn [app].
      change (opt_sep ($"a" ++ x :: xs ++ r)) with ($"a" ++ x :: xs ++ r). unfold pre_labels. cbn [pick].
      replace (startswith ($"a" ++ x :: xs ++ r) $"alpha") with false; [reflexivity|].
      symmetry. cbn. change (match x with 0%N => false | N.pos q => Pos.eqb 108 q end) with (N.eqb 108 x). now rewrite (proj2 (other_digit x 108 D eq_refl)).
    + destruct (dec_cons n) as (x & xs & E & D). rewrite E. cbn [app].
      change (opt_sep ($"b" ++ x :: xs ++ r)) with ($"b" ++ x :: xs ++ r). unfold pre_labels. cbn [pick].
      replace (startswith ($"b" ++ x :: xs ++ r) $"alpha") with false by reflexivity.
      replace (startswith ($"b" ++ x :: xs ++ r) $"a") with false by reflexivity.
      replace (startswith ($"b" ++ x :: xs ++ r) $"beta") with false; [reflexivity|].
      symmetry. cbn. change (match x with 0%N => false | N.pos q => Pos.eqb 101 q end) with (N.eqb 101 x). now rewrite (proj2 (other_digit x 101 D eq_refl)).
  - apply labelled_none. destruct p as [n|]; [reflexivity|]. destruct d as [n|]; [reflexivity|]. destruct lo; reflexivity.
Qed.

(** ** Release and epoch *)
Definition stop (T : str) : Prop := head is_digit T = false /\ head (N.eqb (chr "!")) T = false /\ forall k, more_release k T = ([], T).
Lemma stop_tail o p d lo : stop (pre_text o ++ post_text p ++ dev_text d ++ local_text lo).
Proof.
  assert (K : forall c r k, N.eqb c (chr ".") = false -> more_release k (c :: r) = ([], c :: r)).
  { intros c r [|k] H; cbn [more_release]; [reflexivity|]. now rewrite H. }
  destruct o as [[[] n]|]; [repeat split; intro; apply K; reflexivity..|]. cbn [pre_text app].
  assert (P : forall c d r k, is_digit d = false -> more_release k (c :: d :: r) = ([], c :: d :: r)).
  { intros c x r [|k] H; [reflexivity|]. cbn [more_release lead]. rewrite H. now destruct (N.eqb c (chr ".")). }
  destruct p as [n|]; [repeat split; intro; apply P; reflexivity|]. cbn [post_text app].
  destruct d as [n|]; [repeat split; intro; apply P; reflexivity|]. cbn [dev_text app].
  destruct lo; [repeat split; intro; apply K; reflexivity|]. repeat split. intros []; reflexivity.
Qed.
Definition dots (l : list N) : str := flat_map (fun n => chr "." :: dec_N n) l.
Lemma join_dots n l : join $"." (map dec_N (n :: l)) = dec_N n ++ dots l.
Proof.
  revert n. induction l as [|m l IH]; intro n; [cbn; now rewrite app_nil_r|].
  change (map dec_N (n :: m :: l)) with (dec_N n :: dec_N m :: map dec_N l). rewrite join_cons.
  change (dec_N m :: map dec_N l) with (map dec_N (m :: l)). rewrite IH. reflexivity.
Qed.
Lemma dots_head l T : head is_digit T = false -> head is_digit (dots l ++ T) = false.
Proof. destruct l; [auto|reflexivity]. Qed.
Lemma more_dots l T : stop T -> forall k, (length (dots l ++ T) <= k)%nat -> more_release k (dots l ++ T) = (l, T).
Proof.
  intros S. induction l as [|n l IH]; intros k L; [apply S|].
  change (dots (n :: l)) with (chr "." :: dec_N n ++ dots l) in *. cbn [app] in *. rewrite <- app_assoc in *.
  destruct k as [|k]; [cbn in L; lia|]. cbn [more_release]. rewrite N.eqb_refl.
  rewrite lead_dec by (apply dots_head, S). destruct (dec_cons n) as (x & xs & E & D). rewrite E at 1.
  rewrite IH; [|cbn in L; rewrite app_length in L; lia]. rewrite num_dec. reflexivity.
Qed.
Lemma release_read l T : l <> [] -> stop T -> release_part (join $"." (map dec_N l) ++ T) = Some (l, T).
Proof.
  intros Ne S. destruct l as [|n l]; [congruence|]. rewrite join_dots, <- app_assoc. unfold release_part.
  rewrite lead_dec by (apply dots_head, S). destruct (dec_cons n) as (x & xs & E & D). rewrite E at 1.
  rewrite more_dots by (assumption || lia). now rewrite num_dec.
Qed.
Lemma epoch_read e l T : l <> [] -> stop T ->
  epoch_part (epoch_text e ++ join $"." (map dec_N l) ++ T) = (e, join $"." (map dec_N l) ++ T).
Proof.
  intros Ne S. unfold epoch_text. destruct (N.eqb_spec e 0) as [->|E0].
  - cbn [app]. destruct l as [|n l]; [congruence|]. rewrite join_dots, <- app_assoc. unfold epoch_part.
    rewrite lead_dec by (apply dots_head, S). destruct (dec_cons n) as (x & xs & E & D). rewrite E at 1.
    destruct l as [|m l]; [|reflexivity]. cbn [dots flat_map app]. destruct S as (_ & S & _). destruct T as [|c T]; [reflexivity|].
    cbn [head] in S. rewrite N.eqb_sym in S. now rewrite S.
  - rewrite <- !app_assoc. unfold epoch_part. rewrite lead_dec by reflexivity. destruct (dec_cons e) as (x & xs & E & D). rewrite E.
    change ((num (x :: xs), join $"." (map dec_N l) ++ T) = (e, join $"." (map dec_N l) ++ T)). now rewrite <- E, num_dec.
Qed.

(** ** The local part *)
Lemma small_alnum c : small c <-> alnum_c c = true.
Proof. unfold small, alnum_c, is_digit. rewrite orb_true_iff, !andb_true_iff, !N.leb_le. tauto. Qed.
Lemma segment_cons s : proper_segment s -> exists c r, segment_text s = c :: r.
Proof.
  destruct s as [n|t]; cbn [proper_segment segment_text].
  - intros _. destruct (dec_cons n) as (d & r & -> & _). eauto.
  - intros [_ (c & I & _)]. destruct t; [destruct I|eauto].
Qed.
Lemma segment_alnum s : proper_segment s -> forallb alnum_c (segment_text s) = true.
Proof.
  destruct s as [n|t]; cbn [proper_segment segment_text].
  - intros _. pose proof (dec_digits n) as H. apply forallb_forall. intros c I. rewrite forallb_forall in H. unfold alnum_c. now rewrite (H c I).
  - intros [H _]. apply forallb_forall. intros c I. rewrite Forall_forall in H. now apply small_alnum, H.
Qed.
Lemma segment_same s : proper_segment s -> segment_of (segment_text s) = s.
Proof.
  destruct s as [n|t]; cbn [proper_segment segment_text]; unfold segment_of.
  - intros _. now rewrite dec_digits, num_dec.
  - intros [_ (c & I & L)]. destruct (forallb is_digit t) eqn:F; [|reflexivity]. rewrite forallb_forall in F. specialize (F c I). apply digit_range in F. lia.
Qed.
Definition dots_l (l : list segment) : str := flat_map (fun s => chr "." :: segment_text s) l.
Lemma join_dots_l s l : join $"." (map segment_text (s :: l)) = segment_text s ++ dots_l l.
Proof.
  revert s. induction l as [|m l IH]; intro n; [cbn; now rewrite app_nil_r|].
  change (map segment_text (n :: m :: l)) with (segment_text n :: segment_text m :: map segment_text l). rewrite join_cons.
  change (segment_text m :: map segment_text l) with (map segment_text (m :: l)). rewrite IH. reflexivity.
Qed.
Lemma dots_l_head l : head alnum_c (dots_l l) = false.
Proof. destruct l; reflexivity. Qed.
Lemma more_dots_l l : Forall proper_segment l -> forall k, (length (dots_l l) <= k)%nat -> more_local k (dots_l l) = (l, []).
Proof.
  intro H. induction H as [|s l P H IH]; intros k L; [now destruct k|].
  change (dots_l (s :: l)) with (chr "." :: segment_text s ++ dots_l l) in *.
  destruct k as [|k]; [cbn in L; lia|]. cbn [more_local]. change (sep_c (chr ".")) with true. cbv iota.
  rewrite lead_app by (apply segment_alnum, P || apply dots_l_head). destruct (segment_cons s P) as (x & xs & E). rewrite E at 1.
  rewrite IH; [|cbn in L; rewrite app_length in L; lia]. now rewrite segment_same.
Qed.
Lemma local_read lo : (forall l, lo = Some l -> l <> [] /\ Forall proper_segment l) -> local_part (local_text lo) = (lo, []).
Proof.
  intro H. destruct lo as [l|]; [|reflexivity]. destruct (H l eq_refl) as [Ne F]. destruct l as [|s l]; [congruence|].
  inversion F as [|s' l' P F']; subst. unfold local_text. rewrite join_dots_l. cbn [local_part app]. cbn [str_of map String.list_ascii_of_string app local_part].
  match goal with |- context [N.eqb ?a ?b] => change (N.eqb a b) with true end. cbv iota.
  rewrite lead_app by (apply segment_alnum, P || apply dots_l_head). destruct (segment_cons s P) as (x & xs & E). rewrite E at 1.
  rewrite more_dots_l by (assumption || lia). now rewrite segment_same.
Qed.

(** ** The whole text *)
Definition calm (c : N) : Prop := (c < 65 \/ 90 < c)%N.
Lemma calm_low s : Forall calm s -> map low_c s = s.
Proof.
  intro H. induction H as [|c s C H IH]; [reflexivity|]. cbn [map]. rewrite IH. f_equal. unfold low_c.
  destruct (N.leb 65 c) eqn:A; [|reflexivity]. destruct (N.leb c 90) eqn:B; [|reflexivity].
  apply N.leb_le in A, B. exfalso. destruct C; lia.
Qed.
Lemma calm_dec n : Forall calm (dec_N n).
Proof.
  pose proof (dec_digits n) as H. apply Forall_forall. intros c I. rewrite forallb_forall in H. specialize (H c I). apply digit_range in H. left. lia.
Qed.
Ltac calm_const := repeat (constructor; [(left; reflexivity) || (right; reflexivity)|]); constructor.
Lemma calm_join s l : Forall calm s -> Forall (Forall calm) l -> Forall calm (join s l).
Proof.
  intros S H. induction H as [|a l A H IH]; [constructor|]. destruct l as [|b l]; [exact A|]. rewrite join_cons.
  apply Forall_app; split; [exact A|]. apply Forall_app; now split.
Qed.
Lemma calm_segment s : proper_segment s -> Forall calm (segment_text s).
Proof.
  intro P. pose proof (segment_alnum s P) as H. apply Forall_forall. intros c I. rewrite forallb_forall in H. specialize (H c I).
  apply small_alnum in H. unfold small, calm in *. lia.
Qed.
Lemma calm_version v : proper_version v -> Forall calm (version_text v).
Proof.
  intros [_ P]. rewrite version_parts. repeat (apply Forall_app; split).
  - unfold epoch_text. destruct (N.eqb _ _); [constructor|]. apply Forall_app; split; [apply calm_dec|calm_const].
  - apply calm_join; [calm_const|]. induction (v_release v); constructor; [apply calm_dec|assumption].
  - destruct (v_pre v) as [[l n]|]; [|constructor]. apply Forall_app; split; [destruct l; calm_const|apply calm_dec].
  - destruct (v_post v) as [n|]; [|constructor]. apply Forall_app; split; [calm_const|apply calm_dec].
  - destruct (v_dev v) as [n|]; [|constructor]. apply Forall_app; split; [calm_const|apply calm_dec].
  - destruct (v_local v) as [l|]; [|constructor]. destruct (P l eq_refl) as [_ F]. apply Forall_app; split; [calm_const|].
    apply calm_join; [calm_const|]. clear P. induction F as [|a l A F IH]; cbn [map]; constructor; [now apply calm_segment|exact IH].
Qed.
Lemma first_digit v : v_release v <> [] -> exists d r, version_text v = d :: r /\ is_digit d = true.
Proof.
  intro Ne. rewrite version_parts. unfold epoch_text. destruct (N.eqb _ _).
  - destruct (v_release v) as [|n l]; [congruence|]. rewrite join_dots. destruct (dec_cons n) as (d & r & -> & D). cbn [app]. eauto.
  - destruct (dec_cons (v_epoch v)) as (d & r & -> & D). cbn [app]. eauto.
Qed.
Lemma read_back v : proper_version v -> read_version (version_text v) = Some v.
Proof.
  intro P. unfold read_version. rewrite (calm_low _ (calm_version v P)). destruct P as [Ne P].
  assert (L : lead blank_c (version_text v) = ([], version_text v) /\
              match version_text v with c :: r => if N.eqb c (chr "v") then r else version_text v | [] => [] end = version_text v).
  { destruct (first_digit v Ne) as (d & r & -> & D). apply digit_range in D. split.
    - cbn [lead]. replace (blank_c d) with false; [reflexivity|]. symmetry. unfold blank_c. apply orb_false_iff; split; [apply andb_false_iff; right; apply N.leb_gt; lia|].
      apply andb_false_iff. right. apply N.leb_gt. lia.
    - replace (N.eqb d (chr "v")) with false; [reflexivity|]. symmetry. apply N.eqb_neq. change (chr "v") with 118%N. lia. }
  destruct L as [-> L]. cbn [snd]. cbv zeta. rewrite L. clear L. rewrite version_parts.
  rewrite (epoch_read _ _ _ Ne (stop_tail _ _ _ _)), (release_read _ _ Ne (stop_tail _ _ _ _)), pre_read, post_read, dev_read, (local_read _ P).
  cbn [forallb]. destruct v as [e l p q d lo]. cbn. now destruct d.
Qed.
Lemma segment_proper d : d <> [] -> forallb alnum_c d = true -> proper_segment (segment_of d).
Proof.
  intros Ne H. unfold segment_of. destruct (forallb is_digit d) eqn:F; [exact I|]. split.
  - apply Forall_forall. intros c Ic. rewrite forallb_forall in H. now apply small_alnum, H.
  - rewrite <- not_true_iff_false in F. clear Ne. induction d as [|c d IH]; [now destruct F|]. cbn [forallb] in H, F.
    apply andb_true_iff in H as [H1 H2]. destruct (is_digit c) eqn:D.
    + destruct (IH H2 F) as (x & Ix & X). exists x. split; [now right|exact X].
    + exists c. split; [now left|]. apply small_alnum in H1. unfold is_digit in D. apply andb_false_iff in D. rewrite !N.leb_gt in D. unfold small in H1. lia.
Qed.
Lemma more_proper k : forall s l r, more_local k s = (l, r) -> Forall proper_segment l.
Proof.
  induction k as [|k IH]; intros s l r H; [injection H as <- <-; constructor|]. cbn [more_local] in H.
  destruct s as [|c s]; [injection H as <- <-; constructor|]. destruct (sep_c c); [|injection H as <- <-; constructor].
  destruct (lead alnum_c s) as [d r'] eqn:E. destruct d as [|x d]; [injection H as <- <-; constructor|].
  destruct (more_local k r') as [l' r2] eqn:M. injection H as <- <-. constructor; [|exact (IH _ _ _ M)].
  apply segment_proper; [discriminate|exact (proj1 (proj2 (lead_split _ _ _ _ E)))].
Qed.
Lemma all_proper s v : read_version s = Some v -> proper_version v.
Proof.
  unfold read_version. cbv zeta. destruct (epoch_part _) as [e s1]. destruct (release_part s1) as [[l s2]|] eqn:R; [|discriminate].
  destruct (labelled pre_labels s2) as [pre s3], (post_part s3) as [post s4], (labelled dev_labels s4) as [dev s5].
  destruct (local_part s5) as [lo s6] eqn:L. destruct (forallb blank_c s6); [|discriminate]. intro H. injection H as <-. split; cbn [v_release v_local].
  - unfold release_part in R. destruct (lead is_digit s1) as [[|x d] r]; [discriminate|]. destruct (more_release (length r) r). injection R as <- <-. discriminate.
  - intros l' ->. unfold local_part in L. destruct s5 as [|c s5]; [discriminate|]. destruct (N.eqb c (chr "+")); [|discriminate].
    destruct (lead alnum_c s5) as [[|x d] r] eqn:E; [discriminate|]. destruct (more_local (length r) r) as [m r2] eqn:M. injection L as <- <-.
    split; [discriminate|]. constructor; [|exact (more_proper _ _ _ _ M)]. apply segment_proper; [discriminate|exact (proj1 (proj2 (lead_split _ _ _ _ E)))].
Qed.
Lemma bump_some i l l' : bump i l = Ok l' -> l' <> [].
Proof. unfold bump. destruct (nth_error l i); [|discriminate]. intro H. injection H as <-. intro K. apply app_eq_nil in K as [_ K]. discriminate K. Qed.
Lemma cons_proper d v n d' : proper_version v -> proper_version d -> cons_next d v n = Ok d' -> proper_version d'.
Proof.
  intros P [R D] H. unfold cons_next in H.
  destruct n; try discriminate H; try (injection H as <-; split; [exact R|exact D]).
  all: try (match type of H with context [bump ?i ?l] => destruct (bump i l) as [r|] eqn:B; [|discriminate H] end; cbn [rbind] in H; injection H as <-; split; [exact (bump_some _ _ _ B)|exact D]).
  destruct (v_local v); [discriminate H|]. injection H as <-. split; [apply P|]. cbn [v_local].
  intros l E. injection E as <-. split; [discriminate|]. constructor; [exact I|constructor].
Qed.
Lemma next_proper v a b v' : proper_version v -> next_version v a b = Ok v' -> proper_version v'.
Proof.
  intros P H. unfold next_version in H. destruct (logic (current_state v) a b) as [p|]; [|discriminate H]. cbn [rbind] in H. cbv zeta in H.
  set (d := mkV _ _ _ _ _ _) in H. assert (D : proper_version d) by (split; [apply P|discriminate]). destruct p as [|n|m n].
  - injection H as <-. exact D.
  - exact (cons_proper d v n v' P D H).
  - destruct (cons_next d v m) as [d'|] eqn:E; [|discriminate H]. cbn [rbind] in H. exact (cons_proper d' v n v' P (cons_proper d v m d' P D E) H).
Qed.
Lemma next_read s v a b v' : read_version s = Some v -> next_version v a b = Ok v' -> read_version (version_text v') = Some v'.
Proof. intros R H. apply read_back. exact (next_proper v a b v' (all_proper _ _ R) H). Qed.
Lemma text_apart v v' : proper_version v -> proper_version v' -> version_text v = version_text v' -> v = v'.
Proof. intros P P' E. pose proof (read_back v P) as H. rewrite E, (read_back v' P') in H. now injection H as ->. Qed.
