(** * Lemmas on repositories *)
From Coq Require Import String NArith ZArith Bool List Lia.
From Verif Require Import Model.Py Model.PurePath Model.RelPath Model.Fs Model.PathOps Model.RemoteUri Model.Repo
  Spec.FsSpec Spec.LoopSpec Spec.ZipSpec Spec.RepoSpec
  Proofs.PyLemmas Proofs.FsLemmas Proofs.RunLemmas Proofs.RelPathProofs Proofs.RmtreeProofs Proofs.RmdirtreeProofs Proofs.ZipProofs.
Import ListNotations.

Lemma exists_run p w : no_fault w -> exists w', same w w' /\ p_exists p w = (Ok (there_b (w_fs w) (w_cwd w) p), w').
Proof.
  intros N. destruct (test_run true p (fun _ => true) w N) as (w' & S & E). exists w'. split; [exact S|].
  unfold p_exists. rewrite E. unfold there_b. destruct (walk _ _ _ _) as [q n|d x|e] eqn:W; try reflexivity.
  apply walk_fail in W. now rewrite W.
Qed.
Lemma there_git fs cwd p : there_b fs cwd (child p $".git") = true <-> has_git fs cwd p.
Proof.
  unfold there_b, has_git, child. destruct (walk _ _ _ _) as [q n|d x|e]; split; try discriminate; try easy.
  - intros _. now exists q, n.
  - now intros (? & ? & ?).
  - now intros (? & ? & ?).
Qed.
Lemma there_git_not fs cwd p : there_b fs cwd (child p $".git") = false -> ~ has_git fs cwd p.
Proof. rewrite <- there_git. now intros ->. Qed.

Lemma walk_dirs root follow b rest : forall l cur xs es, Forall good_name l -> get root (cur ++ l) = Some (Dir xs es) ->
  walk_from root follow b cur (l ++ rest) = walk_from root follow b (cur ++ l) rest.
Proof.
  induction l as [|x l IH]; intros cur xs es N G; [now rewrite app_nil_r|].
  inversion N as [|? ? (N1 & N2 & N3 & N4) N5]; subst. apply str_eqb_neq in N2, N3.
  pose proof G as G'. change (x :: l) with ([x] ++ l) in G'. rewrite app_assoc, get_app, get_snoc in G'.
  assert (K : walk_from root follow b (cur ++ [x]) (l ++ rest) = walk_from root follow b (cur ++ x :: l) rest).
  { change (x :: l) with ([x] ++ l). rewrite app_assoc. apply (IH _ xs es); [assumption|]. rewrite <- app_assoc. exact G. }
  rewrite <- K. cbn [app]. rewrite (walk_eq root follow b cur). destruct (get root cur) as [[d xs0|xs0 es0|t]|] eqn:G0; try discriminate.
  rewrite N2, N3. destruct (entry x es0) as [[d' xs'|xs' es'|t']|] eqn:E; try discriminate; try reflexivity.
  destruct l; discriminate.
Qed.
Lemma walk_absolute fs cwd follow l : good_fs fs -> is_dir_at fs cwd ->
  walk fs cwd follow (mkPP true (cwd ++ l)) = walk fs cwd follow (mkPP false l).
Proof.
  intros G (xs & D). unfold walk. cbn [pp_abs pp_parts]. apply look_dir in D as (es & D).
  rewrite (walk_dirs fs follow max_links l cwd [] xs es); [reflexivity| |exact D].
  exact (good_names _ _ _ (proj1 G) D).
Qed.

Lemma same_refl w : same w w.
Proof. now repeat split. Qed.
Lemma same_fs w w' : same w w' -> w_fs w' = w_fs w /\ w_cwd w' = w_cwd w.
Proof. intros (A & B & _). auto. Qed.

Lemma no_cycle q q' : deep_below q q' -> at_or_below q' q -> False.
Proof.
  intros D W. assert (F : deep_below q q) by (destruct W as [<-|W]; [exact D|eapply deep_trans; eassumption]).
  destruct F as (_ & y & l & F). apply (f_equal (@length _)) in F. rewrite app_length in F. cbn in F. lia.
Qed.
Lemma nearest_unique fs cwd p r r' : nearest fs cwd p r -> nearest fs cwd p r' -> r = r'.
Proof.
  assert (T : forall a b, at_or_below a p -> at_or_below b p -> a = b \/ deep_below a b \/ deep_below b a).
  { intros a b A B. apply at_or_below_parts in A as (A1 & l & A2), B as (B1 & m & B2).
    assert (E : pp_parts a ++ l = pp_parts b ++ m) by congruence. destruct a as [aa al], b as [ba bl]; cbn in *.
    assert (EA : aa = ba) by congruence. clear A1 B1. subst ba. revert bl m E A2 B2. clear. intros bl m E _ _.
    destruct (app_eq_app _ _ _ _ E) as (k & [[-> _]|[-> _]]); destruct k as [|x k]; rewrite ?app_nil_r; auto; right.
    - right. split; [reflexivity|]. now exists x, k.
    - left. split; [reflexivity|]. now exists x, k. }
  destruct r as [q|], r' as [q'|]; cbn; intros A B; [| | |reflexivity].
  - destruct A as (A1 & A2 & A3), B as (B1 & B2 & B3). destruct (T q q' A1 B1) as [->|[D|D]]; [reflexivity| |].
    + now destruct (A3 q' D B1).
    + now destruct (B3 q D A1).
  - destruct A as (A1 & A2 & _). now destruct (B q A1).
  - destruct B as (B1 & B2 & _). now destruct (A q' B1).
Qed.

Section Repo.
Variable home_of : str -> res ppath.
Variable git_open : ppath -> M ppath.
Variable git_init : ppath -> M ppath.
Variable git_clone : str -> ppath -> M ppath.

Lemma nearest_up fs cwd x r o : ~ has_git fs cwd (mkPP true (rev (x :: r))) ->
  nearest fs cwd (mkPP true (rev r)) o -> nearest fs cwd (mkPP true (rev (x :: r))) o.
Proof.
  intros H. set (self := mkPP true (rev (x :: r))) in *.
  assert (B : forall q, at_or_below q self -> q = self \/ at_or_below q (mkPP true (rev r))).
  { intros q [Q|Q]; [now left|right]. subst self. cbn [rev] in Q. exact (proj1 (below_snoc _ _ _ _) Q). }
  destruct o as [q|]; cbn [nearest].
  - intros (A1 & A2 & A3). split; [right; subst self; cbn [rev]; exact (proj2 (below_snoc _ _ _ _) A1)|]. split; [exact A2|].
    intros q' D W. apply B in W as [->|W]; [exact H|now apply A3].
  - intros A q W. apply B in W as [->|W]; [exact H|now apply A].
Qed.
Lemma working_abs_run : forall r w, no_fault w ->
  exists o w', same w w' /\ working_dir_abs r w = (Ok o, w') /\ nearest (w_fs w) (w_cwd w) (mkPP true (rev r)) o.
Proof.
  induction r as [|x r IH]; intros w N; cbn [working_dir_abs].
  - destruct (exists_run (child (mkPP true (rev [])) $".git") w N) as (w1 & S & E).
    unfold bind. rewrite E. destruct (there_b _ _ _) eqn:T.
    + exists (Some (mkPP true (rev []))), w1. split; [exact S|]. split; [reflexivity|].
      split; [now left|]. split; [now apply there_git|]. intros q D W. now destruct (no_cycle _ _ D W).
    + exists None, w1. split; [exact S|]. split; [reflexivity|]. apply there_git_not in T.
      intros q [Q|(_ & y & l & W)]; [now rewrite <- Q|]. cbn in W. now destruct (pp_parts q).
  - destruct (exists_run (child (mkPP true (rev (x :: r))) $".git") w N) as (w1 & S & E).
    unfold bind. rewrite E. destruct (there_b _ _ _) eqn:T.
    + exists (Some (mkPP true (rev (x :: r)))), w1. split; [exact S|]. split; [reflexivity|].
      split; [now left|]. split; [now apply there_git|]. intros q D W. now destruct (no_cycle _ _ D W).
    + apply there_git_not in T. destruct (IH w1 (no_fault_same _ _ S N)) as (o & w2 & S2 & E2 & X).
      destruct (same_fs _ _ S) as [F1 F2]. rewrite F1, F2 in X. exists o, w2. split; [eapply same_trans; eassumption|].
      split; [exact E2|]. now apply nearest_up.
Qed.
Lemma getcwd_run w : no_fault w -> is_dir_at (w_fs w) (w_cwd w) -> exists w', same w w' /\ sys_getcwd w = (Ok (mkPP true (w_cwd w)), w').
Proof.
  intros N (xs & D). apply look_dir in D as (es & D). unfold sys_getcwd, ask. rewrite N, D.
  eexists. split; [|reflexivity]. now repeat split.
Qed.
Lemma plain_expand p : plain p -> expanduser home_of p = Ok p.
Proof.
  intros P. unfold expanduser. destruct P as [->|P]; [reflexivity|]. destruct (pp_abs p); [reflexivity|].
  destruct (pp_parts p) as [|x r] eqn:E; [reflexivity|]. now rewrite (P x r eq_refl).
Qed.
Lemma expanded_run p w : no_fault w -> is_dir_at (w_fs w) (w_cwd w) -> plain p ->
  exists w', same w w' /\ expanded home_of p w = (Ok (absolute_of (w_cwd w) p), w').
Proof.
  intros N D P. unfold expanded, bind, lift. rewrite plain_expand by exact P. unfold absolute, absolute_of.
  destruct (pp_abs p) eqn:A; [exists w; split; [apply same_refl|reflexivity]|].
  destruct (getcwd_run w N D) as (w' & S & E). exists w'. split; [exact S|]. unfold bind. rewrite E. unfold ret, pp_join. now rewrite A.
Qed.
Lemma working_dir_run p w : no_fault w -> good_fs (w_fs w) -> is_dir_at (w_fs w) (w_cwd w) -> plain p ->
  exists o w', same w w' /\ working_dir home_of p w = (Ok o, w') /\ nearest (w_fs w) (w_cwd w) (absolute_of (w_cwd w) p) o.
Proof.
  intros N G D P. unfold working_dir, absolute_of at 1. destruct (pp_abs p) eqn:A.
  - destruct (working_abs_run (rev (pp_parts p)) w N) as (o & w' & S & E & X). rewrite rev_involutive in X.
    exists o, w'. split; [exact S|]. split; [exact E|]. destruct p; cbn in *. now subst.
  - unfold bind at 1. destruct (exists_run (child p $".git") w N) as (w1 & S & E). rewrite E.
    unfold bind. destruct (same_fs _ _ S) as [F1 F2].
    destruct (expanded_run p w1 (no_fault_same _ _ S N) ltac:(now rewrite F1, F2) P) as (w2 & S2 & E2). rewrite E2.
    unfold absolute_of. rewrite A, F2. set (a := mkPP true (w_cwd w ++ pp_parts p)).
    pose proof (same_trans _ _ _ S S2) as S3.
    assert (H : has_git (w_fs w) (w_cwd w) a <-> there_b (w_fs w) (w_cwd w) (child p $".git") = true).
    { rewrite there_git. unfold has_git, a. cbn [pp_abs pp_parts]. rewrite A, <- app_assoc.
      now rewrite (walk_absolute _ _ _ _ G D). }
    destruct (there_b _ _ _) eqn:T.
    + exists (Some a), w2. split; [exact S3|]. split; [reflexivity|]. split; [now left|]. split; [now apply H|].
      intros q' D1 W. now destruct (no_cycle _ _ D1 W).
    + assert (HN : ~ has_git (w_fs w) (w_cwd w) a) by (rewrite H; discriminate). clear H.
      destruct (working_abs_run (rev (pp_parts (pp_parent a))) w2 (no_fault_same _ _ S3 N)) as (o & w3 & S4 & E4 & X).
      exists o, w3. split; [eapply same_trans; eassumption|]. split; [exact E4|].
      destruct (same_fs _ _ S3) as [F3 F4]. rewrite F3, F4, rev_involutive in X.
      subst a. unfold pp_parent in X. cbn [pp_parts pp_abs] in X. revert HN X. generalize (w_cwd w ++ pp_parts p) as l. intros l.
      destruct l as [|y l] using rev_ind; [intros _ X; exact X|]. rewrite removelast_last. intros HN X.
      rewrite <- (rev_involutive l) in *. change (rev (rev l) ++ [y]) with (rev (y :: rev l)) in *. apply nearest_up; assumption.
Qed.

Notation opens := (opens git_open) (only parsing).
Lemma pp_refl p : pp_eqb p p = true.
Proof. now apply pp_eqb_eq. Qed.
Lemma pp_neq a b : a <> b -> pp_eqb a b = false.
Proof. destruct (pp_eqb a b) eqn:E; [apply pp_eqb_eq in E; now subst|reflexivity]. Qed.
Lemma known_forget p s : forall k, known k (forget p s) = if pp_eqb p k then None else known k s.
Proof.
  intros k. unfold forget. induction s as [|[k' h] s IH]; cbn [filter known fst]; [now destruct (pp_eqb p k)|].
  destruct (pp_eqb k' p) eqn:E; cbn [negb].
  - apply pp_eqb_eq in E. subst k'. rewrite IH. now destruct (pp_eqb p k).
  - cbn [known]. rewrite IH. destruct (pp_eqb k' k) eqn:F; [|reflexivity].
    apply pp_eqb_eq in F. subst k'. destruct (pp_eqb p k) eqn:Q; [|reflexivity].
    apply pp_eqb_eq in Q. subst. now rewrite pp_refl in E.
Qed.
Lemma known_remember p h s k : known k (remember p h s) = if pp_eqb p k then Some h else known k s.
Proof. unfold remember. cbn [known]. rewrite known_forget. now destruct (pp_eqb p k). Qed.

Lemma normal_above q p : normal p -> at_or_below q p -> normal q.
Proof.
  intros N [<-|(_ & x & l & E)]; [exact N|]. intros y I. apply N. rewrite E. apply in_or_app. now left.
Qed.
Lemma repo_run p s w : opens -> no_fault w -> good_fs (w_fs w) -> is_dir_at (w_fs w) (w_cwd w) -> plain p ->
  normal (absolute_of (w_cwd w) p) ->
  exists o s' w', same w w' /\ nearest (w_fs w) (w_cwd w) (absolute_of (w_cwd w) p) o /\
    match o with
    | Some wd => exists h, repo home_of git_open p s w = (Ok h, s', w') /\ known wd s' = Some h /\
        (known wd s = Some h /\ s' = s \/ h = mkH wd (length (w_hist w)) /\ s' = remember wd h s)
    | None => repo home_of git_open p s w = (Err NotInRepoErr, s', w') /\ s' = s
    end.
Proof.
  intros O N G D P NO. destruct (working_dir_run p w N G D P) as (o & w1 & S & E & X). unfold repo. rewrite E.
  destruct o as [wd|]; [|exists None, s, w1; auto 8].
  destruct (known wd s) as [h|] eqn:K.
  - exists (Some wd), s, w1. repeat (split; [assumption|]). exists h. auto.
  - destruct (O wd w1 (no_fault_same _ _ S N)) as (w2 & S2 & E2); [exact (normal_above _ _ NO (proj1 X))| |].
    { destruct (same_fs _ _ S) as [-> ->]. exact (proj1 (proj2 X)). }
    rewrite E2.
    exists (Some wd), (remember wd (made wd w2) s), w2.
    pose proof (same_trans _ _ _ S S2) as S3. split; [exact S3|]. split; [exact X|]. exists (made wd w2). split; [reflexivity|].
    split; [now rewrite known_remember, pp_refl|]. right. split; [|reflexivity]. unfold made. destruct S3 as (_ & _ & -> & _). reflexivity.
Qed.
Lemma relative_run p s w wd : opens -> no_fault w -> good_fs (w_fs w) -> is_dir_at (w_fs w) (w_cwd w) -> plain p ->
  normal (absolute_of (w_cwd w) p) -> told s ->
  nearest (w_fs w) (w_cwd w) (absolute_of (w_cwd w) p) (Some wd) ->
  exists r s' w', repo_relative_path home_of git_open p s w = (Ok r, s', w') /\ same w w' /\
    pp_abs r = false /\ pp_join wd r = absolute_of (w_cwd w) p.
Proof.
  intros O N G D P NO T X. destruct (repo_run p s w O N G D P NO) as (o & s1 & w1 & S & X' & E).
  pose proof (nearest_unique _ _ _ _ _ X X') as <-. destruct E as (h & E & _ & C). unfold repo_relative_path. rewrite E.
  assert (HD : h_dir h = wd) by (destruct C as [[C _]|[-> _]]; [now apply T|reflexivity]). rewrite HD. clear C E T HD h.
  assert (K : exists w2, same w1 w2 /\ (if pp_abs p then ret p else expanded home_of p) w1 = (Ok (absolute_of (w_cwd w) p), w2)).
  { destruct (same_fs _ _ S) as [F1 F2]. destruct (pp_abs p) eqn:A.
    - exists w1. split; [apply same_refl|]. unfold absolute_of. now rewrite A.
    - rewrite <- F2. apply expanded_run; [exact (no_fault_same _ _ S N)|now rewrite F1, F2|exact P]. }
  destruct K as (w2 & S2 & ->). destruct X as (W & _). apply at_or_below_parts in W as (W1 & l & W2).
  exists (mkPP false l), s1, w2. split; [|split; [eapply same_trans; eassumption|split; [reflexivity|]]].
  - f_equal. f_equal. destruct (absolute_of (w_cwd w) p) as [a m], wd as [b n]; cbn in W1, W2. subst. apply relative_to_app.
  - unfold pp_join. cbn. destruct (absolute_of (w_cwd w) p) as [a m]; cbn in *. now subst.
Qed.

Lemma walk_prefix root b x : forall cur comps p n, walk_from root true b cur (comps ++ [x]) = Found p n ->
  exists q m, walk_from root true b cur comps = Found q m.
Proof.
  induction b as [|b IHb]; intros cur comps; revert cur; induction comps as [|c rest IH]; intros cur p n H;
    rewrite walk_eq in H; rewrite walk_eq; cbn [app] in H;
    (destruct (get root cur) as [m|] eqn:G; [|discriminate]); try (now eexists _, _);
    destruct m as [d xs|xs es|t]; try discriminate;
    destruct (str_eqb c $"."); try (now apply IH in H); destruct (str_eqb c $".."); try (now apply IH in H);
    destruct (entry c es) as [[d' xs'|xs' es'|t']|] eqn:E; try (now apply IH in H);
    try (destruct (rest ++ [x]) eqn:Z; [destruct rest; discriminate|discriminate]).
  destruct (rest ++ [x]) as [|z l] eqn:Z; [destruct rest; discriminate|]. rewrite <- Z in H.
  assert (F : (match rest with [] => negb true | _ => false end) = false) by (destruct rest; reflexivity).
  rewrite F. destruct t' as [|a t']; [discriminate|]. rewrite app_assoc in H. now apply IHb in H.
Qed.
Lemma git_there fs cwd p : has_git fs cwd p -> there_b fs cwd p = true.
Proof.
  intros (q & n & W). unfold walk in W. cbn [pp_abs pp_parts] in W. apply walk_prefix in W as (q' & m & W).
  unfold there_b, walk. now rewrite W.
Qed.
Lemma init_refuses p remote s w wd : opens -> no_fault w -> good_fs (w_fs w) -> is_dir_at (w_fs w) (w_cwd w) -> plain p ->
  normal (absolute_of (w_cwd w) p) -> told_there (w_fs w) (w_cwd w) s ->
  nearest (w_fs w) (w_cwd w) (absolute_of (w_cwd w) p) (Some wd) ->
  exists s' w', same w w' /\ init home_of git_open git_init git_clone p remote s w =
    (Err (if there_b (w_fs w) (w_cwd w) p then RepoExistsErr else AssertionError), s', w').
Proof.
  intros O N G D P NO T X. destruct (repo_run p s w O N G D P NO) as (o & s1 & w1 & S & X' & E).
  pose proof (nearest_unique _ _ _ _ _ X X') as <-. destruct E as (h & E & _ & C). unfold init. rewrite E.
  destruct (exists_run p w1 (no_fault_same _ _ S N)) as (w2 & S2 & E2). rewrite E2.
  destruct (same_fs _ _ S) as [F1 F2]. rewrite F1, F2. exists s1, w2.
  split; [eapply same_trans; eassumption|]. destruct (there_b (w_fs w) (w_cwd w) p) eqn:B; [reflexivity|].
  assert (Q : h_dir h <> p).
  { intros Q. rewrite <- Q in B. destruct C as [[C _]|[-> _]]; [apply T in C; congruence|].
    cbn in B. destruct X as (_ & H & _). apply git_there in H. congruence. }
  apply pp_neq in Q. now rewrite Q.
Qed.
Lemma init_fresh p remote s w : no_fault w -> good_fs (w_fs w) -> is_dir_at (w_fs w) (w_cwd w) -> plain p ->
  nearest (w_fs w) (w_cwd w) (absolute_of (w_cwd w) p) None ->
  exists w1, same w w1 /\ init home_of git_open git_init git_clone p remote s w =
    match (match remote with Some r => git_clone r p | None => git_init p end) w1 with
    | (Ok q, w') => (Ok (made q w'), remember p (made q w') s, w')
    | (Err e, w') => (Err e, s, w')
    end.
Proof.
  intros N G D P X. destruct (working_dir_run p w N G D P) as (o & w1 & S & E & X').
  pose proof (nearest_unique _ _ _ _ _ X X') as <-. exists w1. split; [exact S|].
  unfold init, repo. rewrite E. destruct (match remote with Some r => git_clone r p | None => git_init p end w1) as [[u|e] w']; reflexivity.
Qed.
Lemma clone_fresh p remote s w : no_fault w -> good_fs (w_fs w) -> is_dir_at (w_fs w) (w_cwd w) -> plain (clone_path p remote) ->
  nearest (w_fs w) (w_cwd w) (absolute_of (w_cwd w) (clone_path p remote)) None ->
  exists w1, unchanged w w1 /\ clone_from home_of git_open git_init git_clone p remote s w =
    match git_clone remote (clone_path p remote) w1 with
    | (Ok q, w') => (Ok (clone_path p remote), remember (clone_path p remote) (made q w') s, w')
    | (Err e, w') => (Err e, s, w')
    end.
Proof.
  intros N G D P X. destruct (init_fresh (clone_path p remote) (Some remote) s w N G D P X) as (w1 & S & E).
  exists w1. split; [exact S|]. unfold clone_from. rewrite E. now destruct (git_clone remote (clone_path p remote) w1) as [[q|e] w2].
Qed.
Lemma clone_refuses p remote s w wd : opens -> no_fault w -> good_fs (w_fs w) -> is_dir_at (w_fs w) (w_cwd w) ->
  plain (clone_path p remote) -> normal (absolute_of (w_cwd w) (clone_path p remote)) -> told_there (w_fs w) (w_cwd w) s ->
  nearest (w_fs w) (w_cwd w) (absolute_of (w_cwd w) (clone_path p remote)) (Some wd) ->
  exists e s' w', unchanged w w' /\ clone_from home_of git_open git_init git_clone p remote s w = (Err e, s', w').
Proof.
  intros O N G D P NO T X. destruct (init_refuses (clone_path p remote) (Some remote) s w wd O N G D P NO T X) as (s' & w' & S & E).
  eexists _, s', w'. split; [exact S|]. unfold clone_from. now rewrite E.
Qed.
End Repo.
