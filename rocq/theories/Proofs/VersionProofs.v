(** * Proofs about next_version *)
From Coq Require Import String NArith ZArith Bool List Lia.
From Verif Require Import Model.Py Model.Version Spec.VersionSpec.
Import ListNotations.

Lemma Ok_inj {A} (x y : A) : Ok x = Ok y -> x = y.
Proof. congruence. Qed.

Lemma comps_refl n : forall a, comps_cmp n a a = Eq.
Proof. induction n as [|n IH]; intro a; [reflexivity|]. simpl. now rewrite N.compare_refl. Qed.
Lemma rel_cmp_refl a : rel_cmp a a = Eq.
Proof. apply comps_refl. Qed.

Lemma comps_up b n after c : forall k, length b < k ->
  comps_cmp k (b ++ n :: after) (b ++ (n + 1)%N :: c) = Lt.
Proof.
  induction b as [|x b IH]; intros k Hk; (destruct k as [|k]; [simpl in Hk; lia|]); cbn [comps_cmp app hd tl].
  - assert (H : (n ?= n + 1)%N = Lt) by (apply N.compare_lt_iff; lia). now rewrite H.
  - rewrite N.compare_refl. apply IH. simpl in Hk. lia.
Qed.
Lemma rel_cmp_up b n after c : rel_cmp (b ++ n :: after) (b ++ (n + 1)%N :: c) = Lt.
Proof. apply comps_up. rewrite !app_length. simpl. lia. Qed.

Lemma one_step_lt c a b : one_step c a b -> rel_cmp a b = Lt.
Proof. intros (x & n & y & -> & -> & _). apply rel_cmp_up. Qed.

Lemma map_zero (l : list N) : map (fun _ => 0%N) l = repeat 0%N (length l).
Proof. induction l; simpl; congruence. Qed.

Lemma skipn_mid (l1 : list N) n l2 : skipn (S (length l1)) (l1 ++ n :: l2) = l2.
Proof. induction l1 as [|x l1 IH]; [reflexivity|]. exact IH. Qed.

Lemma firstn_mid (l1 l2 : list N) : firstn (length l1) (l1 ++ l2) = l1.
Proof. induction l1 as [|x l1 IH]; simpl; congruence. Qed.

Lemma bump_nth i a b : bump i a = Ok b -> one_step (Nth i) a b.
Proof.
  unfold bump. destruct (nth_error a i) as [n|] eqn:E; [|discriminate].
  apply nth_error_split in E as (l1 & l2 & -> & L). subst i.
  rewrite skipn_mid, firstn_mid, map_zero. intro H. injection H as <-.
  exists l1, n, l2. repeat split; reflexivity.
Qed.

Lemma bump_last a b : bump (length a - 1) a = Ok b -> one_step Last a b.
Proof.
  intro H. destruct (bump_nth _ _ _ H) as (x & n & y & -> & -> & L).
  exists x, n, y. split; [reflexivity|]. split; [reflexivity|].
  rewrite app_length in L. simpl in L. destruct y; [reflexivity|simpl in L; lia].
Qed.

Lemma bump_ok i a : (exists b, bump i a = Ok b) <-> i < length a.
Proof.
  unfold bump. split.
  - intros [b H]. destruct (nth_error a i) eqn:E; [|discriminate]. apply nth_error_Some. congruence.
  - intro H. destruct (nth_error a i) eqn:E; [now eexists|]. apply nth_error_None in E. lia.
Qed.

Ltac step_in H :=
  repeat match type of H with
  | Err _ = Ok _ => discriminate H
  | rbind (bump ?i ?a) _ = Ok _ =>
      let E := fresh "B" in destruct (bump i a) as [?r|] eqn:E; [|discriminate H]; cbn [rbind] in H
  | rbind (Ok _) _ = Ok _ => cbn [rbind] in H
  end.

Lemma inf_refl {A} (c : A -> A -> comparison) x : (forall a, c a a = Eq) -> inf_cmp c x x = Eq.
Proof. intro H. destruct x; simpl; auto. Qed.

Lemma lt_succ n : (n ?= n + 1)%N = Lt.
Proof. apply N.compare_lt_iff. lia. Qed.

(** Every successful call, by cases. *)
Theorem next_cases v p c v' :
  v_release v <> [] -> comp_of c <> None -> next_version v p c = Ok v' ->
  newer v' v /\ in_phase v p v' /\ v_epoch v' = v_epoch v /\
  (v_release v' = v_release v \/ exists d q, comp_of d = Some q /\ (d = p \/ d = c \/ p = Current /\ d = Release) /\
     one_step q (v_release v) (v_release v')).
Proof.
  destruct v as [ep rel pre post dev loc]. cbn [v_release v_epoch].
  intros Hr Hc H.
  unfold next_version in H.
  destruct loc as [loc|]; [|destruct post as [po|]; [|destruct pre as [[l pn]|]; [|destruct dev as [dn|]]]];
  try destruct l; destruct c; try (now elim Hc); destruct p;
  cbn -[bump N.add length Nat.sub] in H; try discriminate H;
  repeat match type of H with
         | context [bump ?i ?a] => let E := fresh "B" in destruct (bump i a) as [?r|] eqn:E;
             cbn -[bump N.add length Nat.sub] in H; try discriminate H
         end;
  apply Ok_inj in H; subst v'; cbn [v_epoch v_release].
  all: repeat match goal with
       | B : bump (length ?a - 1) ?a = Ok ?r |- _ => apply bump_last in B
       | B : bump ?i ?a = Ok ?r |- _ => apply bump_nth in B
       end.
  all: split; [|split; [|split; [reflexivity|]]].
  all: try (left; reflexivity).
  all: try (match goal with B : one_step ?q ?a ?r |- _ \/ _ => right end;
            first [ exists Release, Last; split; [reflexivity|]; split; [tauto|assumption]
                  | exists Major, (Nth 0); split; [reflexivity|]; split; [tauto|assumption]
                  | exists Minor, (Nth 1); split; [reflexivity|]; split; [tauto|assumption]
                  | exists Micro, (Nth 2); split; [reflexivity|]; split; [tauto|assumption] ]).
  all: try (unfold newer, version_cmp; cbn [v_epoch v_release v_pre v_post v_dev v_local pre_key post_key dev_key local_key];
            rewrite N.compare_refl; cbn [then_];
            first [ match goal with B : one_step ?q ?a ?r |- _ => rewrite (one_step_lt _ _ _ B); reflexivity end
                  | rewrite rel_cmp_refl; cbn [then_ inf_cmp pre_cmp letter_rank fst snd];
                    rewrite ?lt_succ, ?N.compare_refl; cbn [then_]; rewrite ?lt_succ, ?N.compare_refl;
                    try destruct dev; try destruct pre as [[[] ?]|]; cbn; rewrite ?N.compare_refl; cbn; rewrite ?N.compare_refl; reflexivity ]).
  all: try match goal with |- in_phase _ _ _ => solve [
  cbv [in_phase is_dev is_pre is_post is_local final v_pre v_post v_dev v_local next_letter];
  repeat match goal with
       | |- _ /\ _ => split
       | |- _ -> _ => intro
       | |- forall _, _ => intro
       | H : _ /\ _ |- _ => destruct H
       | H : exists _, _ |- _ => destruct H
       | H : Some _ = Some _ |- _ => injection H; clear H; intros; subst
       | |- exists _, _ => eexists; reflexivity
       end; try discriminate; try reflexivity; try congruence] end.
  all: unfold newer, version_cmp; cbn [v_epoch v_release v_pre v_post v_dev v_local pre_key];
       rewrite N.compare_refl, rel_cmp_refl; cbn [then_ inf_cmp]; unfold pre_cmp; cbn [fst snd letter_rank];
       change (0 ?= 0)%N with Eq; change (1 ?= 1)%N with Eq; change (2 ?= 2)%N with Eq; cbn [then_];
       now rewrite lt_succ.
Qed.

(** Which requests are refused. *)
Theorem refused v p c : v_release v <> [] -> comp_of c <> None ->
  (exists e, next_version v p c = Err e) <->
  refuses (current_state v) (length (v_release v)) p c.
Proof.
  destruct v as [ep rel pre post dev loc]. cbn [v_release]. intros Hr Hc.
  assert (L : 0 < length rel) by (destruct rel; [congruence|simpl; lia]).
  assert (B : forall i, i < length rel -> exists r, bump i rel = Ok r) by (intros; now apply bump_ok).
  assert (B' : forall i, length rel <= i -> exists e, bump i rel = Err e).
  { intros i Hi. destruct (bump i rel) eqn:E; [|now eexists].
    assert (i < length rel) by (apply bump_ok; exists a; exact E). lia. }
  unfold next_version, refuses.
  destruct loc as [loc|]; [|destruct post as [po|]; [|destruct pre as [[l pn]|]; [|destruct dev as [dn|]]]];
  try destruct l; destruct c; try (now elim Hc); destruct p;
  cbn -[bump N.add length Nat.sub Nat.ltb lt] in *;
  try (split; [intros [? K]; discriminate K|tauto]);
  try (split; [trivial|intros _; eexists; reflexivity]);
  match goal with |- context [bump ?i rel] => destruct (Nat.lt_ge_cases i (length rel)) as [Hi|Hi];
         [destruct (B i Hi) as [r E]|destruct (B' i Hi) as [e E]]; rewrite E; cbn [rbind] end.
  all: split; [intros [? K]; try discriminate K|intro K]; try lia; try (eexists; reflexivity); try tauto.
Qed.

(** ** The order *)
Definition good {A} (c : A -> A -> comparison) : Prop :=
  (forall a b, c b a = CompOpp (c a b)) /\
  forall a b d, (c a b = Eq -> c a d = c b d) /\ (c b d = Eq -> c a d = c a b) /\
                (c a b = Lt -> c b d = Lt -> c a d = Lt).

Lemma good_map {A B} (f : A -> B) c : good c -> good (fun a b => c (f a) (f b)).
Proof. intros [H K]. split; intros; [apply H|apply K]. Qed.

Lemma good_then {A} (c1 c2 : A -> A -> comparison) : good c1 -> good c2 ->
  good (fun a b => then_ (c1 a b) (c2 a b)).
Proof.
  intros [A1 T1] [A2 T2]. split.
  - intros a b. rewrite A1, A2. now destruct (c1 a b).
  - intros a b d. destruct (T1 a b d) as (P & Q & R), (T2 a b d) as (P' & Q' & R').
    destruct (c1 a b) eqn:E1, (c1 b d) eqn:E2; cbn [then_];
      repeat split; intros; try discriminate;
      try (rewrite (P eq_refl); cbn [then_]); try (rewrite (Q eq_refl); cbn [then_]);
      try (rewrite (R eq_refl eq_refl); cbn [then_]); auto; try congruence.
Qed.

Lemma good_ext {A} (c1 c2 : A -> A -> comparison) : (forall a b, c1 a b = c2 a b) -> good c1 -> good c2.
Proof.
  intros E [H T]. split; intros; rewrite <- !E; [apply H|apply T].
Qed.

Lemma good_N : good N.compare.
Proof.
  split.
  - intros. apply N.compare_antisym.
  - intros a b d. rewrite !N.compare_eq_iff, !N.compare_lt_iff. repeat split; intros; subst; try reflexivity. lia.
Qed.

Lemma good_inf {A} (c : A -> A -> comparison) : good c -> good (inf_cmp c).
Proof.
  intros [H T]. split.
  - intros [|a|] [|b|]; simpl; auto.
  - intros [|a|] [|b|] [|d|]; simpl; repeat split; intros; try discriminate; try reflexivity; now apply (T a b d).
Qed.

Lemma good_comps n : good (comps_cmp n).
Proof.
  induction n as [|n IH].
  - split; [reflexivity|]. repeat split; discriminate.
  - apply (good_ext (fun a b : list N => then_ ((fun a b : list N => N.compare (hd 0%N a) (hd 0%N b)) a b)
       ((fun a b : list N => comps_cmp n (tl a) (tl b)) a b))).
    { intros a b. simpl. now destruct (N.compare (hd 0%N a) (hd 0%N b)). }
    apply good_then; [exact (good_map (hd 0%N) _ good_N)|exact (good_map (@tl N) _ IH)].
Qed.

Lemma comps_more n : forall k a b, max (length a) (length b) <= n -> n <= k -> comps_cmp k a b = comps_cmp n a b.
Proof.
  induction n as [|n IH]; intros k a b Hn Hk.
  - destruct a as [|x a]; [|cbn [length] in Hn; lia]. destruct b as [|y b]; [|cbn [length] in Hn; lia].
    apply comps_refl.
  - destruct k as [|k]; [lia|]. simpl. rewrite (IH k); [reflexivity| |lia].
    destruct a, b; cbn [length tl] in *; lia.
Qed.

Lemma good_rel : good rel_cmp.
Proof.
  split.
  - intros a b. unfold rel_cmp. rewrite Nat.max_comm. apply (good_comps _).
  - intros a b d. set (m := max (length a) (max (length b) (length d))).
    assert (E : forall x y, max (length x) (length y) <= m -> rel_cmp x y = comps_cmp m x y).
    { intros x y Hm. unfold rel_cmp. symmetry. now apply comps_more. }
    rewrite !E by (subst m; lia). apply (good_comps m).
Qed.

Lemma good_pre : good pre_cmp.
Proof.
  apply (good_ext (fun a b : letter * N => then_ ((fun a b : letter * N => N.compare (letter_rank (fst a)) (letter_rank (fst b))) a b)
       ((fun a b : letter * N => N.compare (snd a) (snd b)) a b))).
  { intros a b. unfold pre_cmp. now destruct (N.compare (letter_rank (fst a)) (letter_rank (fst b))). }
  apply good_then.
  - exact (good_map (fun p : letter * N => letter_rank (fst p)) _ good_N).
  - exact (good_map (@snd letter N) _ good_N).
Qed.

Section Lex.
Context {A : Type} (c : A -> A -> comparison).
Fixpoint lex (a b : list A) : comparison :=
  match a, b with
  | [], [] => Eq | [], _ => Lt | _, [] => Gt
  | x :: a', y :: b' => match c x y with Eq => lex a' b' | r => r end
  end.
Lemma good_lex : good c -> good lex.
Proof.
  intros [H T]. split.
  - induction a as [|x a IH]; intros [|y b]; try reflexivity. simpl. rewrite H, IH. now destruct (c x y).
  - induction a as [|x a IH]; intros [|y b] [|z d]; simpl; repeat split; intros; try discriminate; try reflexivity.
    all: destruct (T x y z) as (P & Q & R), (IH b d) as (P' & Q' & R').
    all: destruct (c x y) eqn:E1, (c y z) eqn:E2; try discriminate.
    all: first [rewrite (P eq_refl) | rewrite (Q eq_refl) | rewrite (R eq_refl eq_refl)]; auto.
Qed.
End Lex.

Lemma good_seg : good seg_cmp.
Proof.
  assert (G : good str_cmp) by exact (good_lex N.compare good_N).
  destruct G as [G1 G2]. destruct good_N as [N1 N2]. split.
  - intros [] []; simpl; auto.
  - intros [x|x] [y|y] [z|z]; simpl; repeat split; intros; try discriminate; try reflexivity;
      first [now apply (G2 x y z) | now apply (N2 x y z)].
Qed.

Lemma good_version : good version_cmp.
Proof.
  unfold version_cmp.
  apply (good_then (fun a b => N.compare (v_epoch a) (v_epoch b))); [exact (good_map v_epoch _ good_N)|].
  apply (good_then (fun a b => rel_cmp (v_release a) (v_release b))); [exact (good_map v_release _ good_rel)|].
  apply (good_then (fun a b => inf_cmp pre_cmp (pre_key a) (pre_key b))); [exact (good_map pre_key _ (good_inf _ good_pre))|].
  apply (good_then (fun a b => inf_cmp N.compare (post_key a) (post_key b))); [exact (good_map post_key _ (good_inf _ good_N))|].
  apply (good_then (fun a b => inf_cmp N.compare (dev_key a) (dev_key b))); [exact (good_map dev_key _ (good_inf _ good_N))|].
  exact (good_map local_key _ (good_inf _ (good_lex seg_cmp good_seg))).
Qed.

Theorem newer_order :
  (forall v, ~ newer v v) /\ (forall a b, newer a b -> ~ newer b a) /\
  (forall a b c, newer a b -> newer b c -> newer a c).
Proof.
  destruct good_version as [H T]. unfold newer. split; [|split].
  - intros v K. specialize (H v v). rewrite K in H. discriminate.
  - intros a b K K'. rewrite H, K in K'. discriminate.
  - intros a b c K K'. now apply (T c b a).
Qed.
