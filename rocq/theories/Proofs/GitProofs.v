(** * Lemmas on the git model *)
From Coq Require Import String Arith NArith Bool List.
From Verif Require Import Model.Py Model.Git Spec.GitSpec Proofs.PyLemmas.
Import ListNotations.

Lemma tget_in t k v : tget t k = Some v -> In k (keys t).
Proof.
  induction t as [|[x y] r IH]; cbn; [discriminate|]. destruct (str_eqb x k) eqn:E; [apply str_eqb_eq in E; now left|].
  intros H. right. auto.
Qed.
Lemma tget_tab_in ks f k : In k ks -> tget (tab ks f) k = f k.
Proof.
  assert (N : forall ks, f k = None -> tget (tab ks f) k = None).
  { induction ks0 as [|x r IH]; cbn; [reflexivity|]. intros F. destruct (f x) as [v|] eqn:X; [|now apply IH].
    cbn. destruct (str_eqb x k) eqn:E; [apply str_eqb_eq in E; congruence|now apply IH]. }
  destruct (f k) as [v|] eqn:F; [|intros _; now apply N]. clear N.
  induction ks as [|x r IH]; intros H; [easy|]. cbn. destruct (str_eqb x k) eqn:E.
  - apply str_eqb_eq in E. subst x. rewrite F. cbn. now rewrite str_eqb_refl.
  - destruct H as [->|H]; [now rewrite str_eqb_refl in E|]. destruct (f x) as [y|]; [cbn; rewrite E|]; auto.
Qed.
Lemma tget_tab_out ks f k : ~ In k ks -> tget (tab ks f) k = None.
Proof.
  induction ks as [|x r IH]; cbn; [reflexivity|]. intros H. destruct (f x) as [v|]; [cbn|apply IH; tauto].
  destruct (str_eqb x k) eqn:E; [apply str_eqb_eq in E; tauto|apply IH; tauto].
Qed.
Lemma tget_tab ks f k : (f k <> None -> In k ks) -> tget (tab ks f) k = f k.
Proof.
  intros H. destruct (f k) as [v|] eqn:F.
  - rewrite <- F. apply tget_tab_in. apply H. discriminate.
  - destruct (in_dec (list_eq_dec N.eq_dec) k ks) as [I|O]; [rewrite <- F; now apply tget_tab_in|now apply tget_tab_out].
Qed.
Lemma tget_keys t k : tget t k <> None -> In k (keys t).
Proof. destruct (tget t k) as [v|] eqn:E; [|congruence]. intros _. eapply tget_in; exact E. Qed.
Lemma blob_eqb_eq a b : blob_eqb a b = true <-> a = b.
Proof.
  destruct a as [x|], b as [y|]; cbn; split; try discriminate; try reflexivity.
  - intros H. apply bytes_eqb_eq in H. now subst.
  - intros H. injection H as ->. now apply bytes_eqb_eq.
Qed.
Lemma blob_eqb_refl a : blob_eqb a a = true. Proof. now apply blob_eqb_eq. Qed.
Lemma blob_eqb_neq a b : blob_eqb a b = false <-> a <> b.
Proof. rewrite <- blob_eqb_eq. now destruct (blob_eqb a b). Qed.
Lemma is_some_iff {A} (o : option A) : is_some o = true <-> o <> None.
Proof. destruct o; cbn; split; easy. Qed.

(** ** Local changes *)
Lemma dirty_iff g h l : commits g = h :: l -> (dirty false g = true <-> changes g h).
Proof.
  intros C. unfold dirty, changes, tracked, all_keys. rewrite C. cbn [top]. rewrite existsb_exists. split.
  - intros (k & K & H). exists k. cbn in H. rewrite orb_false_r in H. apply orb_true_iff in H as [H|H].
    + apply negb_true_iff, blob_eqb_neq in H. now left.
    + apply andb_true_iff in H as [A B]. apply negb_true_iff, blob_eqb_neq in B. apply orb_true_iff in A.
      rewrite !is_some_iff in A. right. auto.
  - intros (k & H). exists k. rewrite !in_app_iff, !orb_true_iff, !andb_true_iff, orb_true_iff, !negb_true_iff, !blob_eqb_neq, !is_some_iff.
    split; [|tauto].
    destruct (tget h k) eqn:E1; [left; eapply tget_in; exact E1|].
    destruct (tget (g_index g) k) eqn:E2; [right; left; eapply tget_in; exact E2|].
    destruct H as [H|[[H|H] _]]; congruence.
Qed.
Lemma dirty_all_iff g h l : commits g = h :: l -> (dirty true g = true <-> changes_all g h).
Proof.
  intros C. unfold dirty, changes_all, tracked, all_keys. rewrite C. cbn [top]. rewrite existsb_exists. split.
  - intros (k & K & H). exists k. rewrite !orb_true_iff, !andb_true_iff, !negb_true_iff, !blob_eqb_neq in H.
    destruct H as [[H|[_ H]]|[[_ A] B]]; [now left|now right|]. apply orb_false_iff in A as [A _].
    right. destruct (tget h k); [discriminate|]. now apply is_some_iff.
  - intros (k & H). exists k. rewrite !in_app_iff, !orb_true_iff, !andb_true_iff, !negb_true_iff, !blob_eqb_neq.
    split.
    + destruct (tget h k) eqn:E1; [left; eapply tget_in; exact E1|].
      destruct (tget (g_index g) k) eqn:E2; [right; left; eapply tget_in; exact E2|].
      destruct H as [H|H]; [congruence|]. right. right. now apply tget_keys.
    + destruct H as [H|H]; [auto|]. destruct (is_some (tget h k) || is_some (tget (g_index g) k)) eqn:T.
      * left. right. split; [reflexivity|exact H].
      * right. split; [split; reflexivity|]. apply orb_false_iff in T as [T _]. destruct (tget h k); [discriminate|]. now apply is_some_iff.
Qed.
Lemma tracked_not g h l k : commits g = h :: l -> tracked g k = false -> tget h k = None /\ tget (g_index g) k = None.
Proof.
  intros C T. unfold tracked in T. rewrite C in T. cbn [top] in T. apply orb_false_iff in T as [A B].
  destruct (tget h k); [discriminate|]. destruct (tget (g_index g) k); [discriminate|]. auto.
Qed.

(** ** The stash *)
Definition pushed (all : bool) (g : git) (h : tree) (e : stashed) (g1 : git) : Prop :=
  g_refs g1 = g_refs g /\ g_head g1 = g_head g /\ g_index g1 = h /\ g_stash g1 = e :: g_stash g /\
  (forall k, tget (g_work g1) k = if tracked g k then tget h k else if all then None else tget (g_work g) k) /\
  s_base e = h /\ s_index e = g_index g /\
  (forall k, tget (s_work e) k = if tracked g k then tget (g_work g) k else None) /\
  (forall k, tget (s_rest e) k = if tracked g k || negb all then None else tget (g_work g) k).
Lemma push_dirty all g h l : commits g = h :: l -> dirty all g = true ->
  exists e g1, stash_push all g = (Ok true, g1) /\ pushed all g h e g1.
Proof.
  intros C D. unfold stash_push. rewrite C, D. eexists _, _. split; [reflexivity|].
  assert (K : forall k, tget h k <> None \/ tget (g_index g) k <> None \/ tget (g_work g) k <> None -> In k (all_keys g)).
  { intros k H. unfold all_keys. rewrite C. cbn [top]. rewrite !in_app_iff.
    destruct H as [H|[H|H]]; apply tget_keys in H; auto. }
  unfold pushed. cbn [g_refs g_head g_index g_stash g_work s_base s_index s_work s_rest].
  repeat (split; [reflexivity|]). split; [|split; [reflexivity|split; [reflexivity|split]]]; intros k; apply tget_tab; intros H; apply K.
  - destruct (tracked g k); [auto|]. destruct all; [congruence|auto].
  - destruct (tracked g k); [auto|congruence].
  - destruct (tracked g k || negb all); [congruence|auto].
Qed.
Lemma push_clean all g h l : commits g = h :: l -> dirty all g = false -> stash_push all g = (Ok false, g).
Proof. intros C D. unfold stash_push. now rewrite C, D. Qed.
Lemma commits_same g g' : g_refs g' = g_refs g -> g_head g' = g_head g -> commits g' = commits g.
Proof. unfold commits. now intros -> ->. Qed.

Section Merge.
Variable merge : option bytes -> option bytes -> option bytes -> option (option bytes).

(** A stash whose base is the index everywhere but where the index already has what is
    stashed. *)
Lemma pop_run n g e : nth_error (g_stash g) n = Some e ->
  (forall k, tget (g_index g) k = tget (s_base e) k \/ tget (g_index g) k = tget (s_work e) k) ->
  (forall k, tget (s_work e) k <> tget (g_index g) k -> tget (g_work g) k = tget (g_index g) k) ->
  (forall k, tget (s_rest e) k <> None -> tget (g_work g) k = None) ->
  exists g', stash_pop merge n g = (Ok tt, g') /\ g_refs g' = g_refs g /\ g_head g' = g_head g /\
    g_stash g' = firstn n (g_stash g) ++ skipn (S n) (g_stash g) /\
    (forall k, tget (g_index g') k = if is_some (tget (g_index g) k) then tget (g_index g) k else tget (s_work e) k) /\
    (forall k, tget (g_work g') k = if is_some (tget (s_rest e) k) then tget (s_rest e) k
       else if blob_eqb (tget (s_work e) k) (tget (g_index g) k) then tget (g_work g) k else tget (s_work e) k).
Proof.
  intros E B W R. unfold stash_pop. rewrite E.
  assert (M : forall k, merge3 merge (tget (s_base e) k) (tget (g_index g) k) (tget (s_work e) k) = Some (tget (s_work e) k)).
  { intros k. unfold merge3. destruct (blob_eqb (tget (g_index g) k) (tget (s_work e) k)) eqn:O; [apply blob_eqb_eq in O; now rewrite O|].
    destruct (B k) as [K|K]; [|rewrite K, blob_eqb_refl in O; discriminate]. now rewrite K, blob_eqb_refl. }
  set (ks := keys (s_base e) ++ keys (g_index g) ++ keys (s_work e)).
  assert (C1 : forallb (fun k => is_some (merge3 merge (tget (s_base e) k) (tget (g_index g) k) (tget (s_work e) k)) &&
    (negb (negb (blob_eqb (match merge3 merge (tget (s_base e) k) (tget (g_index g) k) (tget (s_work e) k) with Some v => v | None => None end)
       (tget (g_index g) k))) || blob_eqb (tget (g_work g) k) (tget (g_index g) k))) ks = true).
  { apply forallb_forall. intros k _. rewrite M. cbn [is_some andb]. rewrite negb_involutive.
    destruct (blob_eqb (tget (s_work e) k) (tget (g_index g) k)) eqn:O; [reflexivity|]. apply blob_eqb_neq in O. cbn.
    now apply blob_eqb_eq, W. }
  rewrite C1.
  assert (C2 : forallb (fun k => negb (is_some (tget (s_rest e) k)) || negb (is_some (tget (g_work g) k))) (keys (s_rest e)) = true).
  { apply forallb_forall. intros k _. destruct (is_some (tget (s_rest e) k)) eqn:O; [|reflexivity]. apply is_some_iff in O.
    now rewrite (R k O). }
  rewrite C2. cbn [andb]. eexists. split; [reflexivity|]. cbn [g_refs g_head g_stash g_index g_work].
  repeat (split; [reflexivity|]). split; intros k.
  - rewrite tget_tab.
    + rewrite M. now destruct (is_some (tget (g_index g) k)).
    + rewrite M. intros H. unfold ks. rewrite !in_app_iff. destruct (tget (g_index g) k) eqn:O; cbn in H.
      * right. left. eapply tget_in; exact O.
      * right. right. now apply tget_keys.
  - rewrite tget_tab.
    + rewrite M. destruct (blob_eqb (tget (s_work e) k) (tget (g_index g) k)); reflexivity.
    + rewrite M. intros H. unfold ks. rewrite !in_app_iff. destruct (tget (s_rest e) k) as [v|] eqn:O; cbn in H.
      * right. right. eapply tget_in; exact O.
      * destruct (negb _); apply tget_keys in H; auto.
Qed.

(** ** commit *)
Lemma checkout_run sel g e s : g_stash g = e :: s ->
  exists g', ignore_git (checkout_paths sel g) = (Ok tt, g') /\ g_refs g' = g_refs g /\ g_head g' = g_head g /\ g_stash g' = g_stash g /\
    (forall k, tget (g_index g') k = if sel k && is_some (tget (s_work e) k) then tget (s_work e) k else tget (g_index g) k) /\
    (forall k, tget (g_work g') k = if sel k && is_some (tget (s_work e) k) then tget (s_work e) k else tget (g_work g) k).
Proof.
  intros S. unfold checkout_paths. rewrite S. destruct (existsb sel _) eqn:X.
  - eexists. split; [reflexivity|]. cbn [g_refs g_head g_stash g_index g_work]. repeat (split; [first [reflexivity|now symmetry]|]).
    split; intros k; (rewrite tget_tab; [reflexivity|]); intros H; apply in_app_iff;
      (destruct (sel k && is_some (tget (s_work e) k)); apply tget_keys in H; auto).
  - exists g. cbn [ignore_git]. repeat (split; [first [reflexivity|assumption]|]).
    assert (N : forall k, sel k && is_some (tget (s_work e) k) = false).
    { intros k. destruct (sel k) eqn:A; [|reflexivity]. destruct (tget (s_work e) k) as [v|] eqn:B; [|reflexivity]. exfalso.
      assert (existsb sel (filter (fun k => is_some (tget (s_work e) k)) (keys (s_work e))) = true); [|congruence].
      apply existsb_exists. exists k. split; [|exact A]. apply filter_In. split; [eapply tget_in; exact B|now rewrite B]. }
    split; intros k; now rewrite N.
Qed.
Lemma commit_on b fails g : g_head g = On b ->
  exists r g', index_commit fails g = (r, g') /\ r = match fails with Some e => Err e | None => Ok (g_index g) end /\
    g_head g' = On b /\ g_index g' = g_index g /\ g_work g' = g_work g /\ g_stash g' = g_stash g /\
    commits g' = (match fails with Some _ => commits g | None => g_index g :: commits g end) /\
    forall n, n <> b -> find_ref n (g_refs g') = find_ref n (g_refs g).
Proof.
  intros H. unfold index_commit. destruct fails as [x|].
  - exists (Err x), g. repeat (split; [first [reflexivity|assumption]|]). reflexivity.
  - rewrite H. eexists _, _. split; [reflexivity|]. cbn [g_head g_index g_work g_stash g_refs]. repeat (split; [reflexivity|]). split.
    + unfold commits at 1. cbn [g_head g_refs set_ref find_ref]. now rewrite str_eqb_refl.
    + intros n N. cbn [set_ref find_ref]. destruct (str_eqb b n) eqn:E; [apply str_eqb_eq in E; congruence|reflexivity].
Qed.

Lemma commit_run sel fails g b h l : g_head g = On b -> commits g = h :: l -> changes g h ->
  exists t g', commit_path merge sel fails g = (match fails with Some e => Err e | None => Ok t end, g') /\
    g_head g' = On b /\ commits g' = (match fails with Some _ => h :: l | None => t :: h :: l end) /\
    (forall n, n <> b -> find_ref n (g_refs g') = find_ref n (g_refs g)) /\
    g_stash g' = g_stash g /\ same_tree (g_work g') (g_work g) /\
    (forall k, tget t k = if sel k && tracked g k && is_some (tget (g_work g) k) then tget (g_work g) k else tget h k) /\
    (forall k, tget (g_index g') k = if is_some (tget t k) then tget t k else if tracked g k then tget (g_work g) k else None).
Proof.
  intros H C D. apply (dirty_iff g h l C) in D. destruct (push_dirty false g h l C D) as (e & g1 & E1 & P).
  destruct P as (P1 & P2 & P3 & P4 & P5 & P6 & P7 & P8 & P9).
  unfold commit_path. rewrite H, C, E1.
  destruct (checkout_run sel g1 e _ P4) as (g2 & E2 & Q1 & Q2 & Q3 & Q4 & Q5). rewrite E2.
  assert (H2 : g_head g2 = On b) by congruence.
  assert (C2 : commits g2 = h :: l) by (rewrite <- C; apply commits_same; congruence).
  destruct (commit_on b fails g2 H2) as (r & g3 & E3 & R & S1 & S2 & S3 & S4 & S5 & S6). rewrite E3.
  rewrite P3 in Q4.
  assert (T : forall k, tget (s_work e) k = if tracked g k then tget (g_work g) k else None) by exact P8.
  destruct (pop_run 0 g3 e) as (g4 & E4 & U1 & U2 & U3 & U4 & U5).
  - rewrite S4, Q3, P4. reflexivity.
  - intros k. rewrite S2, Q4, P6. destruct (sel k && is_some (tget (s_work e) k)); [now right|now left].
  - intros k N. rewrite S3, S2, Q4, Q5 in *. destruct (sel k && is_some (tget (s_work e) k)); [congruence|].
    rewrite P5. destruct (tracked g k) eqn:K; [reflexivity|]. exfalso. apply N. rewrite T, K.
    now destruct (tracked_not _ _ _ _ C K) as [-> _].
  - intros k N. rewrite P9, orb_true_r in N. congruence.
  - rewrite E4. cbn [ignore_git]. exists (g_index g2), g4.
    assert (I : forall k, tget (g_index g2) k = if sel k && tracked g k && is_some (tget (g_work g) k) then tget (g_work g) k else tget h k).
    { intros k. rewrite Q4, T. destruct (sel k), (tracked g k); reflexivity. }
    split; [rewrite R; now destruct fails|]. split; [congruence|].
    split; [rewrite (commits_same _ _ U1 U2), S5, C2; reflexivity|].
    split; [intros n N; rewrite U1, (S6 n N), Q1, P1; reflexivity|].
    split; [rewrite U3, S4, Q3, P4; reflexivity|]. split; [|split; [exact I|]].
    + intros k. rewrite U5, P9, orb_true_r. cbn [is_some]. rewrite S3, S2, Q5, P5, Q4, T.
      destruct (tracked g k) eqn:K; cbn [is_some].
      * destruct (sel k && is_some (tget (g_work g) k)); [now rewrite blob_eqb_refl|].
        destruct (blob_eqb (tget (g_work g) k) (tget h k)) eqn:O; [apply blob_eqb_eq in O; now symmetry|reflexivity].
      * rewrite andb_false_r. destruct (tracked_not _ _ _ _ C K) as [-> _]. now rewrite blob_eqb_refl.
    + intros k. rewrite U4, S2, T. reflexivity.
Qed.
(** Nothing changed, nothing stashed: an empty commit. *)
Lemma commit_nothing sel g b h l : g_head g = On b -> commits g = h :: l -> ~ changes g h -> g_stash g = [] ->
  exists g', commit_path merge sel None g = (Ok (g_index g), g') /\ commits g' = g_index g :: h :: l /\
    g_index g' = g_index g /\ g_work g' = g_work g /\ g_stash g' = [] /\ same_tree (g_index g) h.
Proof.
  intros H C D S. assert (D' : dirty false g = false).
  { destruct (dirty false g) eqn:X; [|reflexivity]. now apply (dirty_iff g h l C) in X. }
  unfold commit_path. rewrite H, C, (push_clean false g h l C D'). unfold checkout_paths. rewrite S. cbn [ignore_git].
  destruct (commit_on b None g H) as (r & g3 & E3 & R & S1 & S2 & S3 & S4 & S5 & S6). rewrite E3.
  unfold stash_pop. rewrite S4, S. cbn [nth_error ignore_git]. exists g3. rewrite R. repeat (split; [congruence|]).
  intros k. destruct (blob_eqb (tget (g_index g) k) (tget h k)) eqn:O; [now apply blob_eqb_eq|]. exfalso. apply D.
  exists k. left. now apply blob_eqb_neq.
Qed.
Lemma commit_first sel g b : g_head g = On b -> commits g = [] ->
  exists g', commit_path merge sel None g = (Ok (g_index g), g') /\ commits g' = [g_index g] /\ g_work g' = g_work g /\ g_stash g' = g_stash g.
Proof.
  intros H C. unfold commit_path. rewrite H, C.
  destruct (commit_on b None g H) as (r & g3 & E3 & R & S1 & S2 & S3 & S4 & S5 & S6). rewrite E3.
  exists g3. rewrite R, S5, C. auto.
Qed.

(** ** The context *)
Lemma find_checkout b g t tl : find_ref b (g_refs g) = Some (mkRef true (t :: tl)) ->
  checkout b g = (Ok tt, mkGit (g_refs g) (On b) t t (g_stash g)).
Proof. intros F. unfold checkout. now rewrite F. Qed.

(** Stashing all, in either case: the working tree is as in the commit. *)
Lemma push_all g h l : commits g = h :: l ->
  exists s g1 m, stash_push true g = (Ok s, g1) /\ g_refs g1 = g_refs g /\ g_head g1 = g_head g /\
    same_tree (g_index g1) h /\ same_tree (g_work g1) h /\ g_stash g1 = m ++ g_stash g /\
    (if s then exists e, m = [e] /\ pushed true g h e g1 else m = [] /\ same_tree (g_work g) h /\ same_tree (g_index g) h).
Proof.
  intros C. destruct (dirty true g) eqn:D.
  - destruct (push_dirty true g h l C D) as (e & g1 & E & P). pose proof P as (P1 & P2 & P3 & P4 & P5 & _).
    exists true, g1, [e]. rewrite P3. repeat (split; [first [assumption|reflexivity|now intros ?]|]). split.
    + intros k. rewrite P5. destruct (tracked g k) eqn:K; [reflexivity|]. now destruct (tracked_not _ _ _ _ C K) as [-> _].
    + split; [exact P4|]. now exists e.
  - assert (N : ~ changes_all g h) by (rewrite <- (dirty_all_iff g h l C); congruence).
    assert (W : same_tree (g_work g) h).
    { intros k. destruct (blob_eqb (tget (g_work g) k) (tget h k)) eqn:O; [now apply blob_eqb_eq|]. destruct N. exists k. right. now apply blob_eqb_neq. }
    assert (X : same_tree (g_index g) h).
    { intros k. destruct (blob_eqb (tget (g_index g) k) (tget h k)) eqn:O; [now apply blob_eqb_eq|]. destruct N. exists k. left. now apply blob_eqb_neq. }
    exists false, g, []. rewrite (push_clean true g h l C D). repeat (split; [first [assumption|reflexivity]|]). auto.
Qed.
Lemma pushed_keeps g h l e g1 : commits g = h :: l -> pushed true g h e g1 -> keeps e g.
Proof.
  intros C (P1 & P2 & P3 & P4 & P5 & P6 & P7 & P8 & P9). split; [intros k; now rewrite P7|]. intros k. rewrite P8, P9.
  cbn [negb]. rewrite orb_false_r. destruct (tracked g k); auto.
Qed.

Lemma within_run self body g b h l t tl : g_head g = On b -> find_ref b (g_refs g) = Some (mkRef true (h :: l)) ->
  find_ref self (g_refs g) = Some (mkRef true (t :: tl)) -> careful self b body ->
  exists g1 x g2 g' m, within merge self body g = (match x with Some e => Err e | None => Ok tt end, g') /\
    body g1 = (x, g2) /\ g_head g1 = On self /\ g_refs g1 = g_refs g /\ same_tree (g_index g1) t /\ same_tree (g_work g1) t /\
    g_head g' = On b /\ commits g' = h :: l /\ g_refs g' = g_refs g2 /\ same_tree (g_work g') (g_work g) /\
    g_stash g' = m ++ g_stash g /\
    ((exists e, m = [e] /\ keeps e g2) \/ m = [] /\ exists h2 l2, commits g2 = h2 :: l2 /\ same_tree (g_work g2) h2 /\ same_tree (g_index g2) h2) /\
    (forall k, tget (g_index g') k = if is_some (tget h k) then tget h k else if tracked g k then tget (g_work g) k else None).
Proof.
  intros H FB F B. assert (C : commits g = h :: l) by (unfold commits; now rewrite H, FB).
  unfold within, enter. rewrite F. cbn [r_commits r_branch]. rewrite H.
  destruct (push_all g h l C) as (s & g0 & m0 & E0 & A1 & A2 & A3 & A4 & A5 & A6). rewrite E0. cbn [andb].
  assert (F0 : find_ref self (g_refs g0) = Some (mkRef true (t :: tl))) by congruence.
  assert (K : exists g1, (if str_eqb self b then (Ok (mkHeld b s), g0) else match checkout self g0 with (Err e, g2) => (Err e, g2) | (Ok _, g2) => (Ok (mkHeld b s), g2) end)
      = (Ok (mkHeld b s), g1) /\ g_head g1 = On self /\ g_refs g1 = g_refs g /\ same_tree (g_index g1) t /\ same_tree (g_work g1) t /\ g_stash g1 = g_stash g0).
  { destruct (str_eqb self b) eqn:Q.
    - apply str_eqb_eq in Q. subst self. exists g0. rewrite FB in F. injection F as -> ->.
      split; [reflexivity|]. split; [congruence|]. auto.
    - rewrite (find_checkout _ _ _ _ F0). eexists. split; [reflexivity|]. cbn. repeat split; try assumption. }
  destruct K as (g1 & E1 & K1 & K2 & K3 & K4 & K5). rewrite E1. destruct (body g1) as [x g2] eqn:EB.
  assert (C1 : commits g1 <> []) by (unfold commits; rewrite K1, K2, F; discriminate).
  destruct (B _ _ _ K1 C1 EB) as (B1 & B2 & B3 & B4).
  destruct (commits g2) as [|h2 l2] eqn:C2; [congruence|]. clear B3.
  destruct (push_all g2 h2 l2 C2) as (s2 & g3 & m & E3 & D1 & D2 & D3 & D4 & D5 & D6).
  unfold leave. cbn [h_branch h_stash]. rewrite E3.
  assert (LM : (if s2 then 1 else 0) = length m). { destruct s2; [destruct D6 as (? & -> & _)|destruct D6 as (-> & _)]; reflexivity. }
  rewrite LM.
  assert (FQ : find_ref b (g_refs g3) = Some (mkRef true (h :: l))) by congruence.
  assert (G4 : exists g4, (if str_eqb b self then (Ok tt, g3) else checkout b g3) = (Ok tt, g4) /\ g_head g4 = On b /\ g_refs g4 = g_refs g3 /\
     same_tree (g_index g4) h /\ same_tree (g_work g4) h /\ g_stash g4 = g_stash g3).
  { destruct (str_eqb b self) eqn:Q.
    - apply str_eqb_eq in Q. subst self. exists g3. specialize (B4 eq_refl).
      assert (h2 = h). { unfold commits in C2. rewrite B4, B2, K2, FB in C2. now injection C2. } subst h2.
      repeat split; try assumption. congruence.
    - rewrite (find_checkout _ _ _ _ FQ). eexists. repeat split. }
  destruct G4 as (g4 & E4 & I1 & I2 & I3 & I4 & I5). rewrite E4.
  assert (KP : (exists e, m = [e] /\ keeps e g2) \/ m = [] /\ exists h2 l2, commits g2 = h2 :: l2 /\ same_tree (g_work g2) h2 /\ same_tree (g_index g2) h2).
  { destruct s2.
    - destruct D6 as (e & -> & P). left. exists e. split; [reflexivity|]. eapply pushed_keeps; eassumption.
    - destruct D6 as (-> & ? & ?). right. split; [reflexivity|]. now exists h2, l2. }
  assert (FIN : forall g5, g_head g5 = g_head g4 -> g_refs g5 = g_refs g4 -> g_head g5 = On b /\ commits g5 = h :: l /\ g_refs g5 = g_refs g2).
  { intros g5 J R. rewrite J, I1. split; [reflexivity|]. split; [|congruence].
    unfold commits. now rewrite J, I1, R, I2, FQ. }
  destruct s.
  - destruct A6 as (e0 & -> & P). pose proof P as (P1 & P2 & P3 & P4 & P5 & P6 & P7 & P8 & P9).
    assert (ST : g_stash g4 = m ++ e0 :: g_stash g) by (rewrite I5, D5, B1, K5, A5; reflexivity).
    assert (T : forall k, tget (s_work e0) k = if tracked g k then tget (g_work g) k else None) by exact P8.
    assert (R : forall k, tget (s_rest e0) k = if tracked g k then None else tget (g_work g) k).
    { intros k. rewrite P9. cbn [negb]. now rewrite orb_false_r. }
    destruct (pop_run (length m) g4 e0) as (g5 & E5 & U1 & U2 & U3 & U4 & U5).
    + rewrite ST, nth_error_app2, Nat.sub_diag by auto. reflexivity.
    + intros k. left. rewrite P6. apply I3.
    + intros k _. now rewrite I3, I4.
    + intros k N. rewrite R in N. destruct (tracked g k) eqn:Q; [congruence|]. rewrite I4. now destruct (tracked_not _ _ _ _ C Q) as [-> _].
    + rewrite E5. destruct (FIN g5 U2 U1) as (V1 & V2 & V3).
      exists g1, x, g2, g5, m. repeat (split; [first [reflexivity|assumption]|]). split; [|split; [|split; [exact KP|]]].
      * intros k. rewrite U5, R, T, I3, I4. destruct (tracked g k) eqn:Q; cbn [is_some].
        -- destruct (blob_eqb (tget (g_work g) k) (tget h k)) eqn:O; [apply blob_eqb_eq in O; now symmetry|reflexivity].
        -- destruct (tracked_not _ _ _ _ C Q) as [-> _]. destruct (tget (g_work g) k); reflexivity.
      * rewrite U3, ST. rewrite firstn_app, Nat.sub_diag, firstn_all. cbn [firstn]. rewrite app_nil_r. f_equal.
        replace (m ++ e0 :: g_stash g) with ((m ++ [e0]) ++ g_stash g) by now rewrite <- app_assoc.
        replace (S (length m)) with (length (m ++ [e0])) by (rewrite app_length; cbn; apply Nat.add_1_r).
        rewrite skipn_app, skipn_all, Nat.sub_diag. reflexivity.
      * intros k. rewrite U4, I3, T. reflexivity.
  - destruct A6 as (-> & W & X). destruct (FIN g4 eq_refl eq_refl) as (V1 & V2 & V3).
    exists g1, x, g2, g4, m. repeat (split; [first [reflexivity|assumption]|]). split; [|split; [|split; [exact KP|]]].
    + intros k. now rewrite I4, W.
    + rewrite I5, D5, B1, K5, A5. reflexivity.
    + intros k. rewrite I3. destruct (tget h k) eqn:O; [reflexivity|]. unfold tracked. rewrite C. cbn [top]. rewrite W, O, X, O. reflexivity.
Qed.

(** ** In the words of the specification *)
Lemma known_iff g h l k : commits g = h :: l -> (known g h k <-> tracked g k = true).
Proof. intros C. unfold known, tracked. rewrite C. cbn [top]. rewrite orb_true_iff, !is_some_iff. reflexivity. Qed.
Lemma index_of_ok g h l t i : commits g = h :: l ->
  (forall k, tget i k = if is_some (tget t k) then tget t k else if tracked g k then tget (g_work g) k else None) -> index_of g h t i.
Proof.
  intros C H k. rewrite (known_iff g h l k C), H.
  repeat split; destruct (tget t k), (tracked g k); cbn [is_some]; try reflexivity; try congruence.
Qed.
Lemma commit_spec sel fails g b h l : g_head g = On b -> commits g = h :: l -> changes g h ->
  exists t g', commit_path merge sel fails g = (match fails with Some e => Err e | None => Ok t end, g') /\
    g_head g' = On b /\ commits g' = (match fails with Some _ => h :: l | None => t :: h :: l end) /\
    (forall n, n <> b -> find_ref n (g_refs g') = find_ref n (g_refs g)) /\
    g_stash g' = g_stash g /\ same_tree (g_work g') (g_work g) /\ only sel g h t /\ index_of g h t (g_index g').
Proof.
  intros H C D. destruct (commit_run sel fails g b h l H C D) as (t & g' & E & A1 & A2 & A3 & A4 & A5 & A6 & A7).
  exists t, g'. repeat (split; [assumption|]). split; [|now apply (index_of_ok g h l)].
  intros k. rewrite (known_iff g h l k C), A6. split.
  - intros -> -> N. apply is_some_iff in N. rewrite N. reflexivity.
  - intros [->|[N| ->]]; [reflexivity| |rewrite andb_false_r; reflexivity].
    destruct (tracked g k); [now destruct N|]. now rewrite andb_false_r.
Qed.
Lemma within_spec self body g b h l t tl : g_head g = On b -> find_ref b (g_refs g) = Some (mkRef true (h :: l)) ->
  find_ref self (g_refs g) = Some (mkRef true (t :: tl)) -> careful self b body ->
  exists g1 x g2 g' m, within merge self body g = (match x with Some e => Err e | None => Ok tt end, g') /\
    (body g1 = (x, g2) /\ g_head g1 = On self /\ g_refs g1 = g_refs g /\ same_tree (g_index g1) t /\ same_tree (g_work g1) t) /\
    g_head g' = On b /\ commits g' = h :: l /\ g_refs g' = g_refs g2 /\ same_tree (g_work g') (g_work g) /\ index_of g h h (g_index g') /\
    g_stash g' = m ++ g_stash g /\
    ((exists e, m = [e] /\ keeps e g2) \/ m = [] /\ exists h2 l2, commits g2 = h2 :: l2 /\ same_tree (g_work g2) h2 /\ same_tree (g_index g2) h2).
Proof.
  intros H FB F B. destruct (within_run self body g b h l t tl H FB F B) as (g1 & x & g2 & g' & m & E & A1 & A2 & A3 & A4 & A5 & A6 & A7 & A8 & A9 & A10 & A11 & A12).
  assert (C : commits g = h :: l) by (unfold commits; now rewrite H, FB).
  exists g1, x, g2, g', m. repeat (split; [first [assumption|repeat split; assumption]|]). split; [now apply (index_of_ok g h l)|]. now split.
Qed.
End Merge.
