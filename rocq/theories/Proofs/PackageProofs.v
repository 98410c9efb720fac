(** * The next version of a package *)
From Coq Require Import String NArith ZArith Bool List Lia.
From Verif Require Import Model.Py Model.Version Model.Package Spec.VersionSpec Spec.PackageSpec
  Proofs.VersionProofs.
Import ListNotations.

Definition le (a b : version) : Prop := version_cmp b a <> Lt.

Lemma cmp_refl a : version_cmp a a = Eq.
Proof.
  destruct good_version as [H _]. specialize (H a a). destruct (version_cmp a a); [reflexivity|discriminate|discriminate].
Qed.
Lemma le_refl a : le a a.
Proof. unfold le. rewrite cmp_refl. discriminate. Qed.
Lemma le_trans a b c : le a b -> le b c -> le a c.
Proof.
  destruct good_version as [H T]. unfold le. intros A B C.
  destruct (T c b a) as (P & Q & R). destruct (T b c a) as (P' & Q' & R').
  destruct (version_cmp b a) eqn:E1; [|easy|].
  - specialize (Q eq_refl). congruence.
  - destruct (version_cmp c b) eqn:E2; [|easy|].
    + specialize (P eq_refl). congruence.
    + specialize (H b c). rewrite E2 in H. cbn in H.
      assert (version_cmp b c = Lt) by (rewrite H in E2; destruct (version_cmp b c); easy).
      specialize (R' H0 C). congruence.
Qed.
Lemma le_total a b : le a b \/ le b a.
Proof.
  destruct good_version as [H _]. unfold le. specialize (H a b). destruct (version_cmp a b); cbn in H; rewrite H; [left|left|right]; discriminate.
Qed.
Lemma cmp_le a b : version_cmp a b <> Lt -> le b a. Proof. easy. Qed.
Lemma lt_le a b : version_cmp a b = Lt -> le a b.
Proof. destruct good_version as [H _]. unfold le. rewrite (H a b). intros ->. discriminate. Qed.

(** Sorting *)
Inductive ordered : list version -> Prop :=
| o_nil : ordered []
| o_cons x l : (forall y, In y l -> le x y) -> ordered l -> ordered (x :: l).

Lemma insert_in x l y : In y (insert_v version_cmp x l) <-> y = x \/ In y l.
Proof.
  induction l as [|a l IH]; cbn; [intuition|].
  destruct (version_cmp x a); cbn; rewrite ?IH; intuition.
Qed.
Lemma insert_ordered x l : ordered l -> ordered (insert_v version_cmp x l).
Proof.
  induction 1 as [|a l Ha Ho IH]; cbn [insert_v]; [repeat constructor; easy|].
  assert (G : version_cmp x a <> Lt -> ordered (a :: insert_v version_cmp x l)).
  { intros N1. constructor; [|exact IH]. intros y Hy. apply insert_in in Hy. destruct Hy as [->|Hy]; [exact N1|now apply Ha]. }
  destruct (version_cmp x a) eqn:E; [now apply G| |now apply G].
  constructor; [|now constructor].
  intros y [<-|Hy]; [now apply lt_le|]. eapply le_trans; [apply lt_le, E|now apply Ha].
Qed.
Lemma sorted_spec l : ordered (sorted_v version_cmp l) /\ forall y, In y (sorted_v version_cmp l) <-> In y l.
Proof.
  unfold sorted_v.
  assert (G : forall l acc, ordered acc -> ordered (fold_left (fun acc x => insert_v version_cmp x acc) l acc) /\
            forall y, In y (fold_left (fun acc x => insert_v version_cmp x acc) l acc) <-> In y acc \/ In y l).
  { clear l. induction l as [|x l IH]; intros acc O; cbn [fold_left]; [split; [exact O|cbn; intuition]|].
    destruct (IH _ (insert_ordered x acc O)) as [O1 M]. split; [exact O1|].
    intros y. rewrite M, insert_in. cbn. intuition. }
  destruct (G l [] o_nil) as [O M]. split; [exact O|]. intros y. rewrite M. cbn. intuition.
Qed.
Lemma last_max l v r : ordered l -> rev l = v :: r -> In v l /\ forall y, In y l -> le y v.
Proof.
  intros O E. assert (L : l = rev r ++ [v]) by (rewrite <- (rev_involutive l), E; reflexivity).
  subst l. clear E. split; [apply in_or_app; right; now left|].
  induction (rev r) as [|a q IH]; intros y Hy.
  - destruct Hy as [<-|[]]. apply le_refl.
  - inversion O as [|x l Hx Ho]; subst. destruct Hy as [<-|Hy]; [|now apply IH].
    apply Hx, in_or_app. right. now left.
Qed.

Lemma rmap_in {A B} (f : A -> res B) l r : rmap f l = Ok r ->
  forall b, In b r <-> exists a, In a l /\ f a = Ok b.
Proof.
  revert r. induction l as [|a l IH]; cbn; intros r E b.
  - injection E as <-. split; [easy|intros (a & [] & _)].
  - destruct (f a) as [x|] eqn:F; cbn in E; [|discriminate].
    destruct (rmap f l) as [s|] eqn:F2; cbn in E; [|discriminate]. injection E as <-.
    cbn. rewrite (IH s eq_refl b). split.
    + intros [<-|(c & C & D)]; [exists a; tauto|exists c; tauto].
    + intros (c & [<-|C] & D); [left; congruence|right; now exists c].
Qed.
Lemma rmap_all {A B} (f : A -> res B) l : (forall a, In a l -> exists b, f a = Ok b) -> exists r, rmap f l = Ok r.
Proof.
  induction l as [|a l IH]; cbn; intros H; [now eexists|].
  destruct (H a (or_introl eq_refl)) as [b ->]. cbn.
  destruct IH as [r ->]; [intros; apply H; now right|]. now eexists.
Qed.
Lemma rmap_length {A B} (f : A -> res B) l r : rmap f l = Ok r -> length r = length l.
Proof.
  revert r. induction l as [|a l IH]; cbn; intros r E; [now injection E as <-|].
  destruct (f a) as [x|]; cbn in E; [|discriminate].
  destruct (rmap f l) as [s|]; cbn in E; [|discriminate]. injection E as <-. cbn. now rewrite (IH s eq_refl).
Qed.

Section S.
Variable parse : str -> res version.
Variable answers : nat -> res (option pypi).
Variable repo : res version.
Hypothesis Hparse : numbers parse.

Notation next := (version_next parse version_cmp answers repo).

Lemma json_kept s r s' : pypi_json answers s = (r, s') ->
  match r with
  | Ok (Some j) => p_kept s' = Some j
  | _ => p_kept s' = None /\ p_kept s = None
  end /\ (forall j, p_kept s = Some j -> r = Ok (Some j) /\ s' = s).
Proof.
  unfold pypi_json. destruct s as [[j|] n]; cbn.
  - intros [= <- <-]. cbn. split; [reflexivity|]. intros ? [= <-]. tauto.
  - destruct (answers n) as [[j|]|e]; intros [= <- <-]; cbn; (split; [tauto|discriminate]).
Qed.

Lemma latest_released_spec j vs v r :
  rmap parse (y_releases j) = Ok vs -> rev (sorted_v version_cmp vs) = v :: r ->
  released parse j v /\ newest parse j v.
Proof.
  intros R E. destruct (sorted_spec vs) as [O M]. destruct (last_max _ _ _ O E) as [I1 I2].
  split.
  - apply M in I1. apply (rmap_in _ _ _ R) in I1. exact I1.
  - intros w (t & It & Et) Nw. assert (Iw : In w vs) by (apply (rmap_in _ _ _ R); now exists t).
    apply M in Iw. apply I2 in Iw. unfold newer in Nw. unfold le in Iw. congruence.
Qed.

Theorem next_newer p c s v s' j :
  comp_of c <> None -> next p c s = (Ok v, s') -> p_kept s' = Some j ->
  (forall r, released parse j r -> newer v r) /\
  exists w, parse (y_version j) = Ok w /\ newer v w /\ newest parse j w /\ next_version w p c = Ok v.
Proof.
  intros Hc N1 K. unfold version_next in N1.
  unfold version_latest_pypi, version_latest_released in N1.
  destruct (pypi_json answers s) as [[[j1|]|e] s1] eqn:J1; try discriminate.
  - apply json_kept in J1. destruct J1 as [K1 _].
    destruct (parse (y_version j1)) as [w|] eqn:P; cbn [rbind] in N1; [|discriminate].
    destruct (pypi_json answers s1) as [r2 s2] eqn:J2. apply json_kept in J2. destruct J2 as [_ J2].
    destruct (J2 _ K1) as [-> ->].
    destruct (rmap parse (y_releases j1)) as [vs|] eqn:R; cbn [rbind] in N1; [|discriminate].
    destruct (rev (sorted_v version_cmp vs)) as [|m q] eqn:S1; [discriminate|].
    unfold v_eq in N1. destruct (version_cmp w m) eqn:E; cbn in N1; try discriminate.
    injection N1 as N1 <-. rewrite K1 in K. injection K as ->.
    destruct (latest_released_spec _ _ _ _ R S1) as [Rm Mx].
    assert (G : newer v w) by exact (proj1 (next_cases w p c v (Hparse _ _ P) Hc N1)).
    destruct good_version as [H T].
    assert (Mw : newest parse j w).
    { intros x X Y. apply (Mx x X). unfold newer in *. destruct (T w m x) as (Q & _). now rewrite <- (Q E). }
    split; [|exists w; tauto].
    intros x X. specialize (Mw x X). unfold newer in *.
    pose proof (le_total x w) as L. destruct (version_cmp x w) eqn:Ex.
    + destruct (T x w v) as (Q & _). now rewrite (Q Ex).
    + now apply (T x w v).
    + elim Mw. rewrite (H x w), Ex. reflexivity.
  - destruct (pypi_json answers s1) as [[[j2|]|e2] s2] eqn:J2; cbn in N1; try discriminate.
    + destruct (rmap parse (y_releases j2)) as [vs|]; cbn [rbind] in N1; [|discriminate].
      destruct (rev (sorted_v version_cmp vs)); cbn in N1; discriminate.
    + injection N1 as _ <-. apply json_kept in J2. destruct J2 as [[J2 _] _]. congruence.
Qed.

Theorem next_repo p c s v s' :
  next p c s = (Ok v, s') -> p_kept s' = None ->
  repo = Ok v /\ p_kept s = None /\ answers (p_asked s) = Ok None /\ answers (S (p_asked s)) = Ok None.
Proof.
  intros N1 K. unfold version_next, version_latest_pypi, version_latest_released in N1.
  destruct (pypi_json answers s) as [[[j1|]|e] s1] eqn:J1; try discriminate.
  - apply json_kept in J1. destruct J1 as [K1 _].
    destruct (parse (y_version j1)) as [w|] eqn:P; cbn [rbind] in N1; [|discriminate].
    destruct (pypi_json answers s1) as [r2 s2] eqn:J2. apply json_kept in J2. destruct J2 as [_ J2].
    destruct (J2 _ K1) as [-> ->].
    destruct (rmap parse (y_releases j1)) as [vs|] eqn:R; cbn [rbind] in N1; [|discriminate].
    destruct (rev (sorted_v version_cmp vs)) as [|m q]; [discriminate|].
    destruct (negb _) in N1; [discriminate|]. injection N1 as _ <-. congruence.
  - destruct (pypi_json answers s1) as [[[j2|]|e2] s2] eqn:J2; cbn in N1; try discriminate.
    + destruct (rmap parse (y_releases j2)) as [vs|]; cbn [rbind] in N1; [|discriminate].
      destruct (rev (sorted_v version_cmp vs)); cbn in N1; discriminate.
    + injection N1 as -> <-. unfold pypi_json in J1, J2.
      destruct s as [[?|] n]; cbn in *; [discriminate|].
      destruct (answers n) as [[?|]|] eqn:A1; try discriminate. injection J1 as <-. cbn in *.
      destruct (answers (S n)) as [[?|]|] eqn:A2; try discriminate. tauto.
Qed.

(** PyPI's version must be the newest of all releases. *)
Theorem next_asserts p c s j w :
  p_kept s = Some j -> readable parse j -> y_releases j <> [] -> parse (y_version j) = Ok w ->
  ((exists r, released parse j r /\ newer r w) \/ (forall r, released parse j r -> newer w r)) ->
  next p c s = (Err AssertionError, s).
Proof.
  intros K R Ne P B. unfold version_next, version_latest_pypi, version_latest_released.
  assert (J : pypi_json answers s = (Ok (Some j), s)) by (unfold pypi_json; now rewrite K).
  rewrite J, P. cbn [rbind]. rewrite J.
  destruct (rmap_all parse (y_releases j) R) as [vs V]. rewrite V. cbn [rbind].
  destruct (rev (sorted_v version_cmp vs)) as [|m q] eqn:S1.
  - destruct vs as [|v vs].
    + apply rmap_length in V. destruct (y_releases j); [easy|discriminate].
    + assert (I1 : In v (sorted_v version_cmp (v :: vs))) by (apply sorted_spec; now left).
      apply in_rev in I1. rewrite S1 in I1. destruct I1.
  - destruct (latest_released_spec _ _ _ _ V S1) as [Rm Mx].
    assert (G : version_cmp w m <> Eq).
    { intros Q. destruct good_version as [H T]. unfold newer in *. destruct B as [(x & X & Y)|B].
      - apply (Mx x X). unfold newer. destruct (T w m x) as (T1 & _). now rewrite <- (T1 Q).
      - specialize (B m Rm). rewrite (H w m), Q in B. discriminate. }
    unfold v_eq. destruct (version_cmp w m); [now elim G| |]; reflexivity.
Qed.

(** Bump does not find the version released when PyPI answered the first time. *)
Theorem bump_fresh p c s v s' j :
  comp_of c <> None -> next p c s = (Ok v, s') -> p_kept s' = Some j ->
  forall w s2, bump parse version_cmp answers repo p c s <> (Ok (AlreadyReleased w), s2).
Proof.
  intros Hc N1 K w s2 B. destruct (next_newer p c s v s' j Hc N1 K) as [G _].
  unfold bump in B. rewrite N1 in B. unfold version_latest_released in B.
  assert (J : pypi_json answers s' = (Ok (Some j), s')) by (unfold pypi_json; now rewrite K).
  rewrite J in B.
  destruct (rmap parse (y_releases j)) as [vs|] eqn:V; cbn [rbind] in B; [|discriminate].
  destruct (rev (sorted_v version_cmp vs)) as [|m q] eqn:S1; [discriminate|].
  destruct (latest_released_spec _ _ _ _ V S1) as [Rm Mx].
  specialize (G m Rm). unfold newer in G. unfold v_eq in B.
  destruct good_version as [H T]. rewrite (H m v), G in B. cbn in B.
  destruct repo; cbn in B; [|discriminate]. destruct (version_cmp v a); discriminate.
Qed.

(** Where PyPI's version is the newest release, that is the one counted from. *)
Theorem next_gives p c s j w r :
  p_kept s = Some j -> readable parse j -> parse (y_version j) = Ok w ->
  released parse j r -> same_version w r -> newest parse j w ->
  next p c s = (next_version w p c, s).
Proof.
  intros K R P Rr Sr Nw. unfold version_next, version_latest_pypi, version_latest_released.
  assert (J : pypi_json answers s = (Ok (Some j), s)) by (unfold pypi_json; now rewrite K).
  rewrite J, P. cbn [rbind]. rewrite J.
  destruct (rmap_all parse (y_releases j) R) as [vs V]. rewrite V. cbn [rbind].
  destruct Rr as (t & It & Pt).
  assert (Ir : In r vs) by (apply (rmap_in _ _ _ V); now exists t).
  destruct (rev (sorted_v version_cmp vs)) as [|m q] eqn:S1.
  - apply sorted_spec in Ir. apply in_rev in Ir. rewrite S1 in Ir. destruct Ir.
  - destruct (latest_released_spec _ _ _ _ V S1) as [Rm Mx].
    assert (Nm := Nw m Rm). assert (Nr := Mx r (ex_intro _ t (conj It Pt))).
    destruct Sr as [Sa Sb]. unfold newer in *. destruct good_version as [H T].
    assert (E : version_cmp w m = Eq).
    { destruct (version_cmp w m) eqn:E; [reflexivity|now elim Nm|].
      elim Nr. destruct (T r w m) as (T1 & _).
      assert (E2 : version_cmp r w = Eq).
      { pose proof (H r w) as H1. destruct (version_cmp r w); [reflexivity|now elim Sa|].
        rewrite H1 in Sb. now elim Sb. }
      specialize (T1 E2). rewrite (H r m), T1, E. reflexivity. }
    unfold v_eq. rewrite E. reflexivity.
Qed.
End S.
