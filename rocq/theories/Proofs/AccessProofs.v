(** * Proofs about permission bits and safe names *)
From Coq Require Import String NArith ZArith Bool List Lia.
From Verif Require Import Model.Py Model.Access Spec.AccessSpec Proofs.PyLemmas.
Import ListNotations.
Local Open Scope N_scope.

Lemma single_bit n k : N.land (2 ^ k) n = if N.testbit n k then 2 ^ k else 0.
Proof.
  apply N.bits_inj. intro i. rewrite N.land_spec.
  destruct (N.eq_dec i k) as [->|D].
  - rewrite N.pow2_bits_true. destruct (N.testbit n k); [now rewrite N.pow2_bits_true|now rewrite N.bits_0].
  - rewrite N.pow2_bits_false by congruence. destruct (N.testbit n k).
    + now rewrite N.pow2_bits_false by congruence.
    + now rewrite N.bits_0.
Qed.

Lemma bit_true n k : negb (N.eqb (N.land (2 ^ k) n) 0) = N.testbit n k.
Proof.
  rewrite single_bit. destruct (N.testbit n k); [|reflexivity].
  assert (2 ^ k <> 0) by (apply N.pow_nonzero; lia). destruct (N.eqb_spec (2 ^ k) 0); [contradiction|reflexivity].
Qed.

Lemma current_bit st b m k : bit_of m = Some b -> (k = 0 \/ k = 3 \/ k = 6) ->
  N.testbit (N.land (N.shiftr (N.land 292 st) 2) (times (match m with MRead => true | _ => false end) 73)
    + N.land (N.shiftr (N.land 146 st) 1) (times (match m with MWrite => true | _ => false end) 73)
    + N.land (N.land 73 st) (times (match m with MExecute => true | _ => false end) 73)) k
  = N.testbit st (k + b).
Proof.
  intros B K. destruct m; try discriminate B; injection B as <-; cbn [times];
    rewrite ?N.land_0_r, ?N.add_0_l, ?N.add_0_r, ?N.land_spec;
    rewrite ?N.shiftr_spec', ?N.land_spec;
    destruct K as [->|[->| ->]]; cbn -[N.testbit];
    repeat match goal with |- context [N.testbit (N.pos ?p) ?q] =>
      let v := eval vm_compute in (N.testbit (N.pos p) q) in
      change (N.testbit (N.pos p) q) with v end;
    now rewrite ?andb_true_r, ?andb_true_l.
Qed.

Lemma access_exact st u g uid gids m :
  ssh_access st u g uid gids m = true <->
  exists c, belongs u g uid gids c /\ granted st c m.
Proof.
  unfold ssh_access. set (cur := _ + _ + _).
  change 64 with (2 ^ 6). change 8 with (2 ^ 3). change (N.land 1 cur) with (N.land (2 ^ 0) cur).
  rewrite !bit_true.
  destruct (bit_of m) as [b|] eqn:B.
  - assert (C : forall k, (k = 0 \/ k = 3 \/ k = 6) -> N.testbit cur k = N.testbit st (k + b)).
    { intros k K. exact (current_bit st b m k B K). }
    rewrite !C by tauto.
    rewrite !orb_true_iff, !andb_true_iff, N.eqb_eq, existsb_exists. split.
    + intros [[[H ->]|[H (x & I' & E)]]|H].
      * exists Owner. split; [reflexivity|]. exists b. now split.
      * exists Group. apply N.eqb_eq in E. subst x. split; [assumption|]. exists b. now split.
      * exists Everyone. split; [exact I|]. exists b. now split.
    + intros (c & Bc & b' & B' & T). rewrite B in B'. injection B' as <-.
      destruct c; cbn [belongs shift_of] in *.
      * left. left. now split.
      * left. right. split; [assumption|]. exists g. split; [assumption|]. apply N.eqb_refl.
      * now right.
  - assert (Z : cur = 0).
    { subst cur. destruct m; try discriminate. cbn [times]. now rewrite !N.land_0_r. }
    rewrite Z, !N.bits_0. cbn [andb orb]. split; [discriminate|].
    intros (c & _ & b & K & _). congruence.
Qed.

Lemma posix_belongs u g uid gids : belongs u g uid gids (posix_class u g uid gids).
Proof.
  unfold posix_class. destruct (N.eqb_spec uid u) as [E|E]; [exact E|].
  destruct (existsb (N.eqb g) gids) eqn:X; [|exact I].
  apply existsb_exists in X as (x & I' & E'). apply N.eqb_eq in E'. now subst.
Qed.

Lemma access_posix_complete st u g uid gids m :
  granted st (posix_class u g uid gids) m -> ssh_access st u g uid gids m = true.
Proof. intro G. apply access_exact. exists (posix_class u g uid gids). split; [apply posix_belongs|assumption]. Qed.

Lemma access_posix_monotone st u g uid gids m :
  (granted st Everyone m -> granted st Group m) -> (granted st Group m -> granted st Owner m) ->
  ssh_access st u g uid gids m = true <-> granted st (posix_class u g uid gids) m.
Proof.
  intros M1 M2. split; [|apply access_posix_complete]. intro H. apply access_exact in H as (c & B & G).
  unfold posix_class. destruct (N.eqb_spec uid u) as [E|E].
  - destruct c; auto.
  - destruct (existsb (N.eqb g) gids) eqn:X.
    + destruct c; [contradiction|assumption|auto].
    + destruct c; [contradiction| |assumption]. exfalso. cbn in B.
      assert (K : existsb (N.eqb g) gids = true) by (apply existsb_exists; exists g; split; [assumption|apply N.eqb_refl]).
      congruence.
Qed.

Lemma access_posix_wrong st u g uid gids m :
  posix_class u g uid gids <> Everyone -> granted st Everyone m ->
  ~ granted st (posix_class u g uid gids) m ->
  ssh_access st u g uid gids m = true.
Proof. intros _ G _. apply access_exact. exists Everyone. split; [exact I|assumption]. Qed.

(** ** fs_safe_id *)
Lemma fold_replace_notin l : ~ In 45 l -> forall s c, In c l -> ~ In c (fold_left (fun s evil => replace1 evil 45 s) l s).
Proof.
  intro H. assert (P : forall l s c, ~ In 45 l -> c <> 45 -> ~ In c s -> ~ In c (fold_left (fun s evil => replace1 evil 45 s) l s)).
  { clear. induction l as [|e l IH]; intros s c H C N; [assumption|]. simpl. apply IH.
    - intro K. apply H. now right.
    - assumption.
    - intro K. apply replace1_In in K as [K|[K _]]; [congruence|contradiction]. }
  induction l as [|e l IH]; intros s c Hc; [destruct Hc|]. simpl. destruct Hc as [->|Hc].
  - apply P.
    + intro K. apply H. now right.
    + intro; subst. apply H. now left.
    + apply replace1_no. intro; subst. apply H. now left.
  - apply IH; [|assumption]. intro K. apply H. now right.
Qed.

Lemma fold_replace_id l : forall s, (forall c, In c l -> ~ In c s) -> fold_left (fun s evil => replace1 evil 45 s) l s = s.
Proof.
  induction l as [|e l IH]; intros s H; [reflexivity|]. simpl. rewrite replace1_id by (apply H; now left).
  apply IH. intros c Hc. apply H. now right.
Qed.

Lemma fold_replace_nth l : ~ In 45 l -> forall s i, nth_error (fold_left (fun s evil => replace1 evil 45 s) l s) i =
  option_map (fun c => if existsb (N.eqb c) l then 45 else c) (nth_error s i).
Proof.
  induction l as [|e l IH]; intros H s i.
  - simpl. now destruct (nth_error s i).
  - cbn [fold_left]. rewrite IH by (intro K; apply H; now right).
    unfold replace1. rewrite nth_error_map. destruct (nth_error s i) as [c|]; [|reflexivity].
    cbn [option_map existsb]. f_equal. destruct (N.eqb_spec c e) as [->|D]; cbn [orb]; [|reflexivity].
    destruct (existsb (N.eqb 45) l); reflexivity.
Qed.

Lemma unsafe_evils c : unsafe c <-> In c evils.
Proof. unfold unsafe, evils. cbn. tauto. Qed.
Lemma no_dash : ~ In 45 evils.
Proof. cbn. intuition discriminate. Qed.

Lemma fs_safe_spec s :
  length (fs_safe_id s) = length s /\
  (forall c, In c (fs_safe_id s) -> ~ unsafe c) /\
  ((forall c, In c s -> ~ unsafe c) -> fs_safe_id s = s) /\
  fs_safe_id (fs_safe_id s) = fs_safe_id s /\
  (forall i c, nth_error s i = Some c ->
     (unsafe c -> nth_error (fs_safe_id s) i = Some (chr "-")) /\
     (~ unsafe c -> nth_error (fs_safe_id s) i = Some c)).
Proof.
  assert (S : forall s c, In c (fs_safe_id s) -> ~ unsafe c).
  { intros s0 c Hc U. apply unsafe_evils in U. exact (fold_replace_notin evils no_dash s0 c U Hc). }
  assert (K : forall s, (forall c, In c s -> ~ unsafe c) -> fs_safe_id s = s).
  { intros s0 H. apply fold_replace_id. intros c Hc I'. apply (H c I'). now apply unsafe_evils. }
  split; [|split; [apply S|split; [apply K|split]]].
  - unfold fs_safe_id. generalize evils. intro l. revert s. induction l as [|e l IH]; intro s; [reflexivity|].
    simpl. rewrite IH. apply replace1_length.
  - apply K, S.
  - intros i c H. unfold fs_safe_id. change (chr "-") with 45. rewrite (fold_replace_nth evils no_dash), H. cbn [option_map].
    split; intro U.
    + destruct (existsb (N.eqb c) evils) eqn:E; [reflexivity|]. exfalso. apply unsafe_evils in U.
      assert (existsb (N.eqb c) evils = true) by (apply existsb_exists; exists c; split; [assumption|apply N.eqb_refl]). congruence.
    + destruct (existsb (N.eqb c) evils) eqn:E; [|reflexivity]. exfalso. apply U, unsafe_evils.
      apply existsb_exists in E as (x & I' & E'). apply N.eqb_eq in E'. now subst.
Qed.
