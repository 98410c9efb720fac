(** * Lemmas on bootstrapping *)
From Coq Require Import NArith Bool List Permutation Sorted.
From Verif Require Import Model.Py Model.Bootstrap Spec.BootstrapSpec Proofs.PyLemmas.
Import ListNotations.

Lemma one_of_in i l : one_of i l = true <-> In i l.
Proof.
  unfold one_of; rewrite existsb_exists; split.
  - intros (x & A & B). apply str_eqb_eq in B. now subst.
  - intros A. exists i. split; [exact A|apply str_eqb_refl].
Qed.
Lemma insert_len_perm x l : Permutation (insert_len x l) (x :: l).
Proof.
  induction l as [|y r IH]; cbn; [reflexivity|]. destruct (N.leb (d_len x) (d_len y)); [reflexivity|].
  rewrite IH. apply perm_swap.
Qed.
Lemma by_len_perm l : Permutation (by_len l) l.
Proof. induction l as [|x r IH]; cbn; [reflexivity|]. rewrite insert_len_perm. now constructor. Qed.

Lemma filtered_some h i only skip sparse s m :
  filtered h i only skip sparse = Some (s, m) -> b_root h = true \/ wanted only skip i.
Proof.
  unfold filtered, wanted.
  destruct (given only || given skip || given sparse) eqn:G.
  - destruct (b_root h); [now left|right]. destruct (one_of i skip) eqn:K; [discriminate|].
    assert (N1 : ~ In i skip) by (rewrite <- one_of_in, K; discriminate).
    destruct (given only) eqn:O; cbn [andb] in H.
    + destruct (one_of i only) eqn:L; [|discriminate]. split; [exact N1|right; now apply one_of_in].
    + split; [exact N1|left; now destruct only].
  - apply orb_false_iff in G as [G _]. apply orb_false_iff in G as [G1 G2]. intros _. right.
    destruct only; [|discriminate]. destruct skip; [|discriminate]. split; [now intros []|now left].
Qed.
Lemma filtered_root h i only skip sparse : b_root h = true -> filtered h i only skip sparse = Some (SparseIds sparse, false).
Proof. unfold filtered. intros ->. now destruct (given only || given skip || given sparse). Qed.
Lemma filtered_none h i only skip sparse : b_root h = false -> ~ wanted only skip i -> filtered h i only skip sparse = None.
Proof.
  intros R N. destruct (filtered h i only skip sparse) as [[s m]|] eqn:F; [|reflexivity].
  destruct (filtered_some _ _ _ _ _ _ _ F); [congruence|contradiction].
Qed.

Lemma prepare_touched h i f s j : touched j (fst (prepare h i f s)) -> j = i.
Proof.
  assert (K : forall l, (forall e, In e l -> e = MakeDir i \/ e = Touch i \/ e = Parent) -> touched j l -> j = i).
  { intros l A [B|[B|[B|[B|B]]]]; apply A in B as [B|[B|B]]; congruence. }
  apply K. unfold prepare. intros e.
  repeat match goal with |- context [if ?b then _ else _] => destruct b end; try (destruct (b_meta h) as [[? []]|]);
    cbn; intuition congruence.
Qed.
Lemma child_made c e : In e (child c) ->
  e = Kept (d_id c) \/ (e = Made (d_id c) \/ e = Handed (d_id c)) /\ d_cached c = false /\ (d_file c = true -> d_local c <> Some true).
Proof.
  unfold child. destruct (d_cached c); [cbn; intuition|].
  destruct (d_file c); [destruct (d_local c) as [[]|]|]; cbn; intuition; right; intuition congruence.
Qed.
Lemma recursive_in rc only skip s e : In e (bootstrap_recursive rc only skip s) ->
  exists c, In c (rc s) /\ (sparse_true s = true -> d_dir c = true \/ d_file c = true /\ d_include c = true) /\ In e (child c).
Proof.
  unfold bootstrap_recursive. intros H. apply in_flat_map in H as (c & A & B). exists c.
  destruct (sparse_true s).
  - apply filter_In in A as [A1 A2]. apply orb_true_iff in A2. rewrite andb_true_iff in A2. auto.
  - split; [|split; [discriminate|exact B]]. eapply Permutation_in; [apply by_len_perm|exact A].
Qed.

(** What is touched is the path itself, when wanted or the root, or what is below. *)
Lemma bootstrap_touched h i rec f only skip sparse rc j :
  touched j (fst (bootstrap h (Some i) rec f only skip sparse rc)) ->
  (b_root h = true \/ wanted only skip i) /\
  (j = i \/ rec = true /\ exists s c, In c (rc s) /\ d_id c = j /\ d_cached c = false).
Proof.
  unfold bootstrap, bootstrap_. destruct (filtered h i only skip sparse) as [[s m]|] eqn:F.
  2:{ cbn. intros [[]|[[]|[[]|[[]|[]]]]]. }
  intros H. split; [exact (filtered_some _ _ _ _ _ _ _ F)|].
  assert (M : forall l, touched j (l ++ (if m then [MarkSparse i] else [])) -> touched j l \/ j = i).
  { intros l. unfold touched. rewrite !in_app_iff. destruct m; cbn; intuition congruence. }
  destruct (_ && negb rec); [cbn in H; apply (M []) in H; unfold touched in H; cbn in H; intuition|].
  set (p := if b_exists h && _ then _ else _) in H.
  assert (P : touched j (fst p) -> j = i).
  { subst p. destruct (_ && _); [cbn; unfold touched; cbn; intuition congruence|apply prepare_touched]. }
  destruct p as [e [x|]]; cbn [fst] in *; apply M in H as [H|H]; [left; auto|now left| |now left].
  destruct rec.
  2:{ left. apply P. unfold touched in *. rewrite !in_app_iff in H. cbn in H. intuition congruence. }
  unfold touched in H, P. rewrite !in_app_iff in H.
  assert (R : forall v, In v (bootstrap_recursive rc only skip s) -> v = MakeDir j \/ v = Touch j \/ v = Update j \/ v = Made j \/ v = MarkSparse j ->
    j = i \/ true = true /\ exists s c, In c (rc s) /\ d_id c = j /\ d_cached c = false).
  { intros v A B. apply recursive_in in A as (c & A1 & A2 & A3). right. split; [reflexivity|]. exists s, c.
    apply child_made in A3. intuition; subst; try congruence. }
  destruct H as [[H|[H|[H|[]]]]|[[H|[H|[H|[]]]]|[[H|[H|[H|[]]]]|[[H|[H|[H|[]]]]|[H|[H|[H|[]]]]]]]];
    try discriminate H; try (left; apply P; tauto); eapply R; eauto; tauto.
Qed.
Lemma bootstrap_unwanted h i rec f only skip sparse rc :
  b_root h = false -> ~ wanted only skip i -> bootstrap h (Some i) rec f only skip sparse rc = ([], None).
Proof. intros A B. unfold bootstrap, bootstrap_. now rewrite filtered_none. Qed.
Lemma bootstrap_root h i rec f only skip sparse rc :
  b_root h = true -> bootstrap h (Some i) rec f only skip sparse rc = bootstrap h (Some i) rec f [] [] sparse rc.
Proof. intros A. unfold bootstrap, bootstrap_. now rewrite !filtered_root by exact A. Qed.
Lemma bootstrap_one h i f only skip sparse rc j :
  touched j (fst (bootstrap h (Some i) false f only skip sparse rc)) -> j = i /\ (b_root h = true \/ wanted only skip i).
Proof. intros H. apply bootstrap_touched in H as [A [B|[B _]]]; [auto|discriminate]. Qed.

Definition new (c : below_it) : Prop := d_cached c = false /\ (d_file c = true -> d_local c <> Some true).
Lemma child_new c : new c -> In (Made (d_id c)) (child c).
Proof.
  intros [A B]. unfold child. rewrite A. destruct (d_file c); [|now left].
  destruct (d_local c) as [[]|]; [now destruct B|now left|now left].
Qed.
Lemma bootstrap_all h i f only skip rc c :
  b_root h = true \/ wanted only skip i -> snd (bootstrap h (Some i) true f only skip [] rc) = None ->
  In c (rc (SparseIds [])) -> new c -> In (Made (d_id c)) (fst (bootstrap h (Some i) true f only skip [] rc)).
Proof.
  intros W. unfold bootstrap, bootstrap_.
  assert (F : filtered h i only skip [] = Some (SparseIds [], false)).
  { destruct (b_root h) eqn:R; [now apply filtered_root|]. destruct W as [W|[W1 W2]]; [discriminate|].
    unfold filtered. rewrite R. destruct (one_of i skip) eqn:K; [now apply one_of_in in K|].
    destruct W2 as [->|W2]; cbn; [now destruct (given skip)|]. apply one_of_in in W2. rewrite W2, andb_false_r. now destruct (_ || _ || _). }
  rewrite F, andb_false_r. destruct (if b_exists h && _ then _ else _) as [e [x|]]; [discriminate|].
  cbn [fst]. intros _ A B. rewrite app_nil_r, !in_app_iff. right. left. unfold bootstrap_recursive. cbn [sparse_true].
  apply in_flat_map. exists c. split; [|now apply child_new].
  eapply Permutation_in; [symmetry; apply by_len_perm|exact A].
Qed.
Lemma bootstrap_makes_root h i rec f only skip rc :
  b_root h = true -> b_dir h = true -> b_meta h = None -> b_exists h = false ->
  In (MakeDir i) (fst (bootstrap h (Some i) rec f only skip [] rc)) /\ snd (bootstrap h (Some i) rec f only skip [] rc) = None.
Proof.
  intros A B C D. unfold bootstrap, bootstrap_. rewrite filtered_root by exact A. rewrite C. cbn [andb].
  rewrite D. cbn [andb]. unfold prepare. rewrite B, D. cbn. auto.
Qed.
Lemma bootstrap_no_id h rec f only skip sparse rc :
  bootstrap h None rec f only skip sparse rc = ([], Some BootstrappingErr).
Proof. reflexivity. Qed.
(** Nothing is made twice, and what is there is kept. *)
Lemma bootstrap_keeps h i rec f only skip sparse rc :
  forall j, In (Made j) (fst (bootstrap h (Some i) rec f only skip sparse rc)) -> exists s c, In c (rc s) /\ d_id c = j /\ new c /\
    (sparse_true s = true -> d_dir c = true \/ d_file c = true /\ d_include c = true).
Proof.
  intros j. unfold bootstrap, bootstrap_. destruct (filtered h i only skip sparse) as [[s m]|] eqn:F; [|intros []].
  assert (M : In (Made j) (if m then [MarkSparse i] else []) -> False) by (destruct m; cbn; intuition congruence).
  destruct (_ && negb rec); cbn [fst]; [intros [] % M|].
  set (p := if b_exists h && _ then _ else _).
  assert (P : In (Made j) (fst p) -> False).
  { subst p. destruct (_ && _); [cbn; intuition congruence|]. unfold prepare.
    repeat match goal with |- context [if ?b then _ else _] => destruct b end; try (destruct (b_meta h) as [[? []]|]); cbn; intuition congruence. }
  destruct p as [e [x|]]; cbn [fst] in *; rewrite !in_app_iff; [intuition|].
  intros [[H|[H|[H|[]]]]|H]; [easy| |discriminate|easy].
  destruct rec; [|easy]. apply recursive_in in H as (c & A & B & C). exists s, c. apply child_made in C.
  unfold new. intuition congruence.
Qed.

(** ** Exactly what happens *)
Lemma filtered_asked h i only skip sparse s m : filtered h i only skip sparse = Some (s, m) ->
  asked h i only skip sparse s /\ (m = true <-> sparse_here h i only skip sparse).
Proof.
  intro F. pose proof (filtered_some _ _ _ _ _ _ _ F) as W. unfold filtered in F. unfold asked, sparse_here.
  destruct (b_root h) eqn:R.
  - assert (s = SparseIds sparse /\ m = false) as [-> ->] by (destruct (given only || given skip || given sparse); injection F as <- <-; auto).
    split; [right; split; [reflexivity|]; intros [X _]; discriminate|]. split; [discriminate|]. intros [X _]; discriminate.
  - destruct W as [W|W]; [discriminate|]. destruct (given only || given skip || given sparse) eqn:G.
    + destruct (one_of i skip); [discriminate|]. destruct (given only && negb (one_of i only)); [discriminate|].
      destruct (given sparse && one_of i sparse) eqn:Q; injection F as <- <-.
      * apply andb_true_iff in Q as [_ Q]. apply one_of_in in Q. split; [left; tauto|]. tauto.
      * assert (N : ~ In i sparse).
        { intro I. pose proof I as I'. apply one_of_in in I'. rewrite I', andb_true_r in Q. destruct sparse; [contradiction|discriminate]. }
        split; [right; tauto|]. split; [discriminate|tauto].
    + injection F as <- <-. apply orb_false_iff in G as [_ G]. destruct sparse; [|discriminate].
      split; [right; split; [reflexivity|]; intros (_ & _ & [])|]. split; [discriminate|]. intros (_ & _ & []).
Qed.
Lemma filtered_wanted h i only skip sparse : b_root h = true \/ wanted only skip i ->
  filtered h i only skip sparse = filtered h i [] [] sparse.
Proof.
  intros W. destruct (b_root h) eqn:R; [now rewrite !filtered_root|]. destruct W as [W|[W1 W2]]; [discriminate|].
  unfold filtered. rewrite R. destruct (one_of i skip) eqn:K; [now apply one_of_in in K|].
  assert (O : given only && negb (one_of i only) = false).
  { destruct W2 as [->|W2]; [reflexivity|]. apply one_of_in in W2. now rewrite W2, andb_false_r. }
  rewrite O. cbn [given one_of existsb orb andb]. destruct (given only || given skip); cbn [orb]; [|reflexivity].
  destruct (given sparse) eqn:G; cbn [andb]; reflexivity.
Qed.
Lemma bootstrap_wanted h i rec f only skip sparse rc : b_root h = true \/ wanted only skip i ->
  bootstrap h (Some i) rec f only skip sparse rc = bootstrap h (Some i) rec f [] [] sparse rc.
Proof. intro W. unfold bootstrap, bootstrap_. rewrite (filtered_wanted _ _ _ _ _ W). reflexivity. Qed.
Lemma asked_true h i only skip sparse s : asked h i only skip sparse s -> (sparse_true s = true <-> sparsely sparse).
Proof.
  unfold asked, sparsely, sparse_here. intros [[-> (_ & _ & I)]|[-> _]]; cbn.
  - split; [|reflexivity]. intros _ ->. contradiction.
  - destruct sparse; split; congruence.
Qed.

Lemma recursive_iff rc only skip s j : In (Made j) (bootstrap_recursive rc only skip s) <->
  exists c, In c (rc s) /\ d_id c = j /\ lacking c /\ (sparse_true s = true -> belongs c).
Proof.
  split.
  - intro H. apply recursive_in in H as (c & A & B & C). exists c. apply child_made in C. unfold lacking, belongs. intuition congruence.
  - intros (c & A & <- & L & B). unfold bootstrap_recursive. apply in_flat_map. exists c. split; [|now apply child_new].
    destruct (sparse_true s).
    + apply filter_In. split; [exact A|]. apply orb_true_iff. rewrite andb_true_iff. exact (B eq_refl).
    + eapply Permutation_in; [symmetry; apply by_len_perm|exact A].
Qed.

(** What is made below, exactly. *)
Lemma bootstrap_made h i rec f only skip sparse rc j : snd (bootstrap h (Some i) rec f only skip sparse rc) = None ->
  (In (Made j) (fst (bootstrap h (Some i) rec f only skip sparse rc)) <->
   rec = true /\ (b_root h = true \/ wanted only skip i) /\
   exists s c, asked h i only skip sparse s /\ In c (rc s) /\ d_id c = j /\ lacking c /\ (sparsely sparse -> belongs c)).
Proof.
  unfold bootstrap, bootstrap_. destruct (filtered h i only skip sparse) as [[s m]|] eqn:F.
  2:{ intros _. split; [intros []|]. intros (_ & W & _). exfalso. rewrite (filtered_wanted _ _ _ _ _ W) in F. unfold filtered in F.
      cbn in F. destruct (given sparse); [|discriminate]. destruct (b_root h); [discriminate|]. destruct (one_of i sparse); discriminate. }
  destruct (filtered_asked _ _ _ _ _ _ _ F) as [As _]. pose proof (filtered_some _ _ _ _ _ _ _ F) as W.
  assert (Mk : ~ In (Made j) (if m then [MarkSparse i] else [])) by (destruct m; cbn; intuition congruence).
  assert (Sn : forall s', asked h i only skip sparse s' -> s' = s).
  { intros s' A'. destruct As as [[-> B]|[-> B]], A' as [[-> B']|[-> B']]; tauto. }
  destruct (_ && negb rec) eqn:Z; [discriminate|].
  set (p := if b_exists h && _ then _ else _).
  assert (P : ~ In (Made j) (fst p)).
  { subst p. destruct (_ && _); [cbn; intuition congruence|]. unfold prepare.
    repeat match goal with |- context [if ?b then _ else _] => destruct b end; try (destruct (b_meta h) as [[? []]|]); cbn; intuition congruence. }
  destruct p as [e [x|]]; cbn [fst snd] in *; [discriminate|]. intros _. rewrite !in_app_iff. split.
  - intros [[H|[H|[H|[]]]]|H]; [contradiction| |discriminate|contradiction]. destruct rec; [|contradiction]. split; [reflexivity|]. split; [exact W|].
    apply recursive_iff in H as (c & A & B & C & D). exists s, c. repeat split; try assumption; try apply C. intro K. apply D. now apply (asked_true _ _ _ _ _ _ As).
  - intros (-> & _ & s' & c & A & B & C & D & E). apply Sn in A. subst s'. left. right. left. apply recursive_iff. exists c.
    repeat split; try assumption; try apply D. intro K. apply E. now apply (asked_true _ _ _ _ _ _ As).
Qed.

(** What is done to the path itself. *)
Definition own (h : here) (i : str) (f : bool) (sparse : list str) (v : event) : Prop :=
  v = Parent \/
  (v = Update i /\ b_exists h = true /\ exists k, b_meta h = Some (i, k)) \/
  (v = MakeDir i /\ b_dir h = true /\ b_exists h = false /\ sparse = []) \/
  (v = Touch i /\ f = true /\ b_file h = true /\ b_dir h = false /\ (sparsely sparse -> b_include h = true) /\ exists k, b_meta h = Some (k, true)).
Lemma prepare_own h i f sparse s v : (sparse_true s = true <-> sparsely sparse) -> In v (fst (prepare h i f s)) -> own h i f sparse v.
Proof.
  intros St. unfold prepare, own. destruct (b_dir h).
  - destruct (sparse_true s) eqn:S1; [intros []|]. destruct (b_exists h); [intros []|]. intros [<-|[]]. right. right. left.
    repeat split; auto. destruct sparse; [reflexivity|]. destruct St as [_ St]. discriminate St. discriminate.
  - destruct (b_file h); [|intros []]. destruct (sparse_true s && negb (b_include h)) eqn:S1; [intros []|].
    assert (Inc : sparsely sparse -> b_include h = true).
    { intro K. apply St in K. rewrite K in S1. now destruct (b_include h). }
    destruct f; [|destruct (b_parent h); cbn; intuition].
    destruct (b_meta h) as [[k z]|] eqn:M.
    + cbn [fst]. rewrite in_app_iff. intros [A|A].
      * destruct (b_parent h); cbn in A; intuition.
      * destruct z; [|contradiction]. destruct A as [<-|[]]. right. right. right. repeat split; auto. now exists k.
    + destruct (b_parent h); cbn; intuition.
Qed.
Lemma bootstrap_events h i rec f only skip sparse rc v :
  In v (fst (bootstrap h (Some i) rec f only skip sparse rc)) ->
  (b_root h = true \/ wanted only skip i) /\
  (v = Handed i \/ own h i f sparse v \/ (exists s c, rec = true /\ asked h i only skip sparse s /\ In c (rc s) /\ In v (child c)) \/
   v = MarkSparse i /\ sparse_here h i only skip sparse).
Proof.
  unfold bootstrap, bootstrap_. destruct (filtered h i only skip sparse) as [[s m]|] eqn:F; [|intros []].
  destruct (filtered_asked _ _ _ _ _ _ _ F) as [As Mk]. pose proof (asked_true _ _ _ _ _ _ As) as St.
  intro H. split; [exact (filtered_some _ _ _ _ _ _ _ F)|].
  assert (Me : In v (if m then [MarkSparse i] else []) -> v = MarkSparse i /\ sparse_here h i only skip sparse).
  { destruct m; [|intros []]. intros [<-|[]]. split; [reflexivity|now apply Mk]. }
  destruct (_ && negb rec); cbn [fst app] in H; [auto|].
  set (p := if b_exists h && _ then _ else _) in H.
  assert (P : In v (fst p) -> own h i f sparse v).
  { subst p. destruct (b_exists h && _) eqn:B; [|now apply prepare_own].
    intros [<-|[]]. right. left. apply andb_true_iff in B as [B1 B2]. split; [reflexivity|]. split; [exact B1|].
    destruct (b_meta h) as [[k z]|]; [|discriminate]. apply str_eqb_eq in B2. subst k. now exists z. }
  destruct p as [e [x|]]; cbn [fst] in *; rewrite !in_app_iff in H; [intuition|].
  destruct H as [[H|[H|[H|[]]]]|H]; auto. destruct rec; [|contradiction].
  apply recursive_in in H as (c & A & _ & B). right. right. left. exists s, c. auto.
Qed.
Lemma bootstrap_mark h i rec f only skip sparse rc j :
  In (MarkSparse j) (fst (bootstrap h (Some i) rec f only skip sparse rc)) <-> j = i /\ sparse_here h i only skip sparse.
Proof.
  split.
  - intro H. apply bootstrap_events in H as [_ [H|[H|[(s & c & _ & _ & _ & H)|[H A]]]]].
    + discriminate.
    + destruct H as [H|[[H _]|[[H _]|[H _]]]]; discriminate.
    + apply child_made in H. intuition congruence.
    + injection H as ->. auto.
  - intros [-> K]. unfold bootstrap, bootstrap_. destruct (filtered h i only skip sparse) as [[s m]|] eqn:F.
    + destruct (filtered_asked _ _ _ _ _ _ _ F) as [_ Mk]. apply Mk in K. subst m.
      destruct (_ && negb rec); [now left|]. destruct (if b_exists h && _ then _ else _) as [e [x|]]; cbn [fst]; rewrite in_app_iff; right; now left.
    + destruct K as (R & W & _). rewrite (filtered_wanted _ _ _ _ _ (or_intror W)) in F. unfold filtered in F.
      cbn in F. destruct (given sparse); [|discriminate]. rewrite R in F. destruct (one_of i sparse); discriminate.
Qed.
Lemma bootstrap_own h i rec f only skip sparse rc j :
  let e := fst (bootstrap h (Some i) rec f only skip sparse rc) in
  (In (Touch j) e -> j = i /\ f = true /\ b_file h = true /\ (sparsely sparse -> b_include h = true) /\ exists k, b_meta h = Some (k, true)) /\
  (In (MakeDir j) e -> j = i /\ b_dir h = true /\ b_exists h = false /\ sparse = []) /\
  (In (Update j) e -> j = i /\ b_exists h = true /\ exists small, b_meta h = Some (i, small)).
Proof.
  cbv zeta. refine (conj _ (conj _ _)); intro H; apply bootstrap_events in H as [_ [H|[H|[(s & c & _ & _ & _ & H)|[H _]]]]]; try discriminate H;
    try (apply child_made in H; intuition congruence); destruct H as [H|[[H A]|[[H A]|[H A]]]]; try discriminate H; injection H as ->; tauto.
Qed.
(** An entry with the right id is updated and nothing else is done to it; one without is made. *)
Lemma bootstrap_updates h i f only skip sparse rc k rec : b_root h = true \/ wanted only skip i ->
  b_exists h = true -> b_meta h = Some (i, k) -> rec = true ->
  In (Update i) (fst (bootstrap h (Some i) rec f only skip sparse rc)) /\ snd (bootstrap h (Some i) rec f only skip sparse rc) = None.
Proof.
  intros W X M ->. unfold bootstrap, bootstrap_. destruct (filtered h i only skip sparse) as [[s m]|] eqn:F.
  - rewrite M, X, str_eqb_refl, andb_false_r. cbn. auto.
  - exfalso. rewrite (filtered_wanted _ _ _ _ _ W) in F. unfold filtered in F.
    cbn in F. destruct (given sparse); [|discriminate]. destruct (b_root h); [discriminate|]. destruct (one_of i sparse); discriminate.
Qed.

(** ** The order *)
Lemma insert_len_sorted x l : Sorted.StronglySorted (fun a b => (d_len a <= d_len b)%N) l -> Sorted.StronglySorted (fun a b => (d_len a <= d_len b)%N) (insert_len x l).
Proof.
  induction 1 as [|y r S IH A]; cbn; [repeat constructor|]. destruct (N.leb_spec (d_len x) (d_len y)).
  - constructor; [now constructor|]. constructor; [assumption|]. eapply Forall_impl; [|exact A]. cbn. intros z Z. now transitivity (d_len y).
  - constructor; [exact IH|]. eapply Permutation_Forall; [symmetry; apply insert_len_perm|]. constructor; [now apply N.lt_le_incl|exact A].
Qed.
Lemma by_len_sorted l : Sorted.StronglySorted (fun a b => (d_len a <= d_len b)%N) (by_len l).
Proof. induction l as [|x l IH]; cbn; [constructor|now apply insert_len_sorted]. Qed.
(** Whatever is handed back, what is shorter came before. *)
Lemma sorted_split l x y : Sorted.StronglySorted (fun a b => (d_len a <= d_len b)%N) l -> In x l -> In y l -> (d_len x < d_len y)%N ->
  exists a b c, l = a ++ x :: b ++ y :: c.
Proof.
  induction 1 as [|z r S IH A]; [intros []|]. intros X Y L. destruct X as [->|X].
  - destruct Y as [->|Y]; [now apply N.lt_irrefl in L|]. apply in_split in Y as (b & c & ->). now exists [], b, c.
  - destruct Y as [->|Y].
    + rewrite Forall_forall in A. apply A in X. exfalso. apply (N.lt_irrefl (d_len x)). eapply N.lt_le_trans; [exact L|exact X].
    + destruct (IH X Y L) as (a & b & c & ->). now exists (z :: a), b, c.
Qed.
Lemma bootstrap_order h i f only skip rc c d : b_root h = true \/ wanted only skip i ->
  snd (bootstrap h (Some i) true f only skip [] rc) = None ->
  In c (rc (SparseIds [])) -> In d (rc (SparseIds [])) -> lacking c -> lacking d -> (d_len c < d_len d)%N ->
  exists a b e, fst (bootstrap h (Some i) true f only skip [] rc) = a ++ Made (d_id c) :: b ++ Made (d_id d) :: e.
Proof.
  intros W. rewrite (bootstrap_wanted _ _ _ _ _ _ _ _ W). unfold bootstrap, bootstrap_.
  change (filtered h i [] [] []) with (Some (SparseIds [], false)). cbv iota beta. rewrite andb_false_r.
  destruct (if b_exists h && _ then _ else _) as [e [x|]]; [discriminate|]. cbn [fst]. intros _ A B C D L.
  unfold bootstrap_recursive. cbn [sparse_true].
  destruct (sorted_split (by_len (rc (SparseIds []))) c d) as (l1 & l2 & l3 & E); auto using by_len_sorted.
  { eapply Permutation_in; [symmetry; apply by_len_perm|exact A]. } { eapply Permutation_in; [symmetry; apply by_len_perm|exact B]. }
  rewrite E, flat_map_app. cbn [flat_map]. rewrite flat_map_app. cbn [flat_map].
  destruct (in_split _ _ (child_new c C)) as (c1 & c2 & ->). destruct (in_split _ _ (child_new d D)) as (d1 & d2 & ->).
  eexists (e ++ flat_map child l1 ++ c1), (c2 ++ flat_map child l2 ++ d1), _. rewrite <- !app_assoc. cbn [app]. reflexivity.
Qed.
