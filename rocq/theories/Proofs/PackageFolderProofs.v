(** * Lemmas on the folder of a package *)
From Coq Require Import String NArith ZArith Bool List Lia.
From Verif Require Import Model.Py Model.PurePath Model.RelPath Model.Fs Model.PathOps Model.DataDir Model.Repo Model.PackageFolder
  Spec.FsSpec Spec.LoopSpec Spec.ZipSpec Spec.RepoSpec Spec.PackageFolderSpec
  Proofs.PyLemmas Proofs.FsLemmas Proofs.RunLemmas Proofs.RelPathProofs Proofs.RmtreeProofs Proofs.RmdirtreeProofs Proofs.ZipProofs
  Proofs.RepoProofs.
Import ListNotations.

Definition dir_b (fs : node) (cwd : place) (p : ppath) : bool :=
  match walk fs cwd true p with Found _ (Dir _ _) => true | _ => false end.
Lemma isdir_run p w : no_fault w -> exists w', same w w' /\ p_is_dir p w = (Ok (dir_b (w_fs w) (w_cwd w) p), w').
Proof.
  intros N. destruct (test_run true p (fun n => match n with Dir _ _ => true | _ => false end) w N) as (w' & S & E).
  exists w'. split; [exact S|].
  unfold p_is_dir. rewrite E. unfold dir_b. destruct (walk _ _ _ _) as [q n|d x|e] eqn:W; try reflexivity.
  apply walk_fail in W. now rewrite W.
Qed.
Lemma there_setup fs cwd p : there_b fs cwd (child p $"setup.py") = true <-> has_setup fs cwd p.
Proof.
  unfold there_b, has_setup, child. destruct (walk _ _ _ _) as [q n|d x|e]; split; try discriminate; try easy.
  - intros _. now exists q, n.
  - now intros (? & ? & ?).
  - now intros (? & ? & ?).
Qed.
(** What has something in it is a directory. *)
Lemma walk_into root b x : x <> $"." -> x <> $".." -> forall cur comps p n, walk_from root true b cur (comps ++ [x]) = Found p n ->
  exists q xs es, walk_from root true b cur comps = Found q (Dir xs es).
Proof.
  intros X1 X2. apply str_eqb_neq in X1, X2.
  induction b as [|b IHb]; intros cur comps; revert cur; induction comps as [|c rest IH]; intros cur p n H;
    rewrite walk_eq in H; rewrite walk_eq; cbn [app] in H;
    (destruct (get root cur) as [m|] eqn:G; [|discriminate]);
    destruct m as [d xs|xs es|t]; try discriminate; try (now eexists _, _, _);
    destruct (str_eqb c $"."); try (now apply IH in H); destruct (str_eqb c $".."); try (now apply IH in H);
    destruct (entry c es) as [[d' xs'|xs' es'|t']|] eqn:E; try (now apply IH in H);
    try (destruct (rest ++ [x]) eqn:Z; [destruct rest; discriminate|discriminate]).
  destruct (rest ++ [x]) as [|z l] eqn:Z; [destruct rest; discriminate|]. rewrite <- Z in H.
  assert (F : (match rest with [] => negb true | _ => false end) = false) by (destruct rest; reflexivity).
  rewrite F. destruct t' as [|a t']; [discriminate|]. rewrite app_assoc in H. now apply IHb in H.
Qed.
Lemma setup_dir fs cwd p : has_setup fs cwd p -> dir_b fs cwd p = true.
Proof.
  intros (q & n & W). unfold walk in W. cbn [pp_abs pp_parts] in W.
  apply walk_into in W as (q' & xs & es & W); [|discriminate|discriminate].
  unfold dir_b, walk. now rewrite W.
Qed.

Lemma innermost_unique fs cwd p r r' : innermost fs cwd p r -> innermost fs cwd p r' -> r = r'.
Proof.
  assert (T : forall a b, at_or_below a p -> at_or_below b p -> a = b \/ deep_below a b \/ deep_below b a).
  { intros a b A B. apply at_or_below_parts in A as (A1 & l & A2), B as (B1 & m & B2).
    assert (E : pp_parts a ++ l = pp_parts b ++ m) by congruence. destruct a as [aa al], b as [ba bl]; cbn in *.
    assert (EA : aa = ba) by congruence. clear A1 B1. subst ba. revert bl m E A2 B2. clear. intros bl m E _ _.
    destruct (app_eq_app _ _ _ _ E) as (k & [[-> _]|[-> _]]); destruct k as [|x k]; rewrite ?app_nil_r; auto; right.
    - right. split; [reflexivity|]. now exists x, k.
    - left. split; [reflexivity|]. now exists x, k. }
  destruct r as [q|], r' as [q'|]; cbn; intros A B; [| | |reflexivity].
  - destruct A as (A1 & A2 & A3), B as (B1 & B2 & B3). destruct (T q q' A1 B1) as [->|[D|D]]; [reflexivity| |].
    + now destruct (A3 q' D B1).
    + now destruct (B3 q D A1).
  - destruct A as (A1 & A2 & _). now destruct (B q A1).
  - destruct B as (B1 & B2 & _). now destruct (A q' B1).
Qed.
Lemma innermost_up fs cwd x r o : ~ has_setup fs cwd (mkPP true (rev (x :: r))) ->
  innermost fs cwd (mkPP true (rev r)) o -> innermost fs cwd (mkPP true (rev (x :: r))) o.
Proof.
  intros H. set (self := mkPP true (rev (x :: r))) in *.
  assert (B : forall q, at_or_below q self -> q = self \/ at_or_below q (mkPP true (rev r))).
  { intros q [Q|Q]; [now left|right]. subst self. cbn [rev] in Q. exact (proj1 (below_snoc _ _ _ _) Q). }
  destruct o as [q|]; cbn [innermost].
  - intros (A1 & A2 & A3). split; [right; subst self; cbn [rev]; exact (proj2 (below_snoc _ _ _ _) A1)|]. split; [exact A2|].
    intros q' D W. apply B in W as [->|W]; [exact H|now apply A3].
  - intros A q W. apply B in W as [->|W]; [exact H|now apply A].
Qed.

Definition found_or (o : option ppath) : res ppath := match o with Some q => Ok q | None => Err ValueError end.

Definition has_it (self : ppath) : M bool :=
  let! d <- p_is_dir self ;
  (if d then let! d' <- p_is_dir self ; if d' then p_exists (child self $"setup.py") else ret false
   else ret false).
Lemma folder_abs_eq parts w : folder_abs parts w =
  match has_it (mkPP true (rev parts)) w with
  | (Ok b, w1) => (if b then ret (mkPP true (rev parts))
                   else match parts with [] => raise ValueError | _ :: r => folder_abs r end) w1
  | (Err e, w1) => (Err e, w1)
  end.
Proof.
  destruct parts; cbn [folder_abs]; unfold has_it, bind;
    (destruct (p_is_dir _ w) as [[d|e] wx]; [|reflexivity]); reflexivity.
Qed.

Lemma one_step_run self w : no_fault w ->
  exists b w', same w w' /\
    has_it self w = (Ok b, w') /\ (b = true <-> has_setup (w_fs w) (w_cwd w) self).
Proof.
  intros N. destruct (isdir_run self w N) as (w1 & S1 & E1). unfold has_it. unfold bind at 1. rewrite E1.
  destruct (same_fs _ _ S1) as [F1 F2].
  destruct (dir_b (w_fs w) (w_cwd w) self) eqn:D.
  - destruct (isdir_run self w1 (no_fault_same _ _ S1 N)) as (w2 & S2 & E2). unfold bind. rewrite E2, F1, F2, D.
    pose proof (same_trans _ _ _ S1 S2) as S12. destruct (same_fs _ _ S12) as [F3 F4].
    destruct (exists_run (child self $"setup.py") w2 (no_fault_same _ _ S12 N)) as (w3 & S3 & E3).
    rewrite E3. exists (there_b (w_fs w) (w_cwd w) (child self $"setup.py")), w3. split; [eapply same_trans; eassumption|].
    split; [rewrite F3, F4; reflexivity|]. apply there_setup.
  - exists false, w1. split; [exact S1|]. split; [reflexivity|]. split; [discriminate|].
    intros H. apply setup_dir in H. congruence.
Qed.

Lemma folder_abs_run : forall r w, no_fault w ->
  exists o w', same w w' /\ folder_abs r w = (found_or o, w') /\ innermost (w_fs w) (w_cwd w) (mkPP true (rev r)) o.
Proof.
  induction r as [|x r IH]; intros w N.
  - destruct (one_step_run (mkPP true (rev [])) w N) as (b & w1 & S & E & H).
    rewrite folder_abs_eq, E. destruct b.
    + exists (Some (mkPP true (rev []))), w1. split; [exact S|]. split; [reflexivity|].
      split; [now left|]. split; [now apply H|]. intros q D W. now destruct (no_cycle _ _ D W).
    + exists None, w1. split; [exact S|]. split; [reflexivity|].
      intros q [Q|(_ & y & l & W)]; [rewrite <- Q; intro K; apply H in K; discriminate|]. cbn in W. now destruct (pp_parts q).
  - destruct (one_step_run (mkPP true (rev (x :: r))) w N) as (b & w1 & S & E & H).
    rewrite folder_abs_eq, E. destruct b.
    + exists (Some (mkPP true (rev (x :: r)))), w1. split; [exact S|]. split; [reflexivity|].
      split; [now left|]. split; [now apply H|]. intros q D W. now destruct (no_cycle _ _ D W).
    + destruct (IH w1 (no_fault_same _ _ S N)) as (o & w2 & S2 & E2 & X).
      destruct (same_fs _ _ S) as [F1 F2]. rewrite F1, F2 in X. exists o, w2. split; [eapply same_trans; eassumption|].
      split; [exact E2|]. apply innermost_up; [|exact X]. intro K. apply H in K. discriminate.
Qed.

Section Folder.
Variable far : node -> place -> ppath -> res ppath.
Variable home_of : str -> res ppath.

Lemma straight_test p : straight p -> (negb (pp_abs p) || existsb (str_eqb $"..") (pp_parts p))%bool = false.
Proof.
  intros [A B]. rewrite A. cbn [negb orb]. apply not_true_is_false. intro H. apply existsb_exists in H. destruct H as (x & X & Y).
  apply str_eqb_eq in Y. now subst x.
Qed.
Theorem folder_run p w : no_fault w -> straight p ->
  exists o w', same w w' /\ folder far p w = (found_or o, w') /\ innermost (w_fs w) (w_cwd w) p o.
Proof.
  intros N St. unfold folder. rewrite straight_test by exact St.
  destruct (folder_abs_run (rev (pp_parts p)) w N) as (o & w' & S & E & X). exists o, w'.
  split; [exact S|]. split; [exact E|]. rewrite rev_involutive in X. destruct St as [A _]. destruct p; cbn in *. now subst.
Qed.
(** Any other path: that of the place it leads to. *)
Theorem folder_resolved p w l n : no_fault w -> ~ straight p -> walk (w_fs w) (w_cwd w) true p = Found l n ->
  exists o w', same w w' /\ folder far p w = (found_or o, w') /\ innermost (w_fs w) (w_cwd w) (mkPP true l) o.
Proof.
  intros N St W. unfold folder.
  assert (B : (negb (pp_abs p) || existsb (str_eqb $"..") (pp_parts p))%bool = true).
  { apply not_false_is_true. intro F. apply orb_false_iff in F. destruct F as [F1 F2]. apply St. split.
    - now destruct (pp_abs p).
    - intro I1. assert (T : existsb (str_eqb $"..") (pp_parts p) = true) by (apply existsb_exists; exists $".."; split; [exact I1|apply str_eqb_refl]).
      congruence. }
  rewrite B. unfold bind, p_resolve, ask. rewrite N, W. cbn [pp_parts].
  match goal with |- context [folder_abs _ ?w1] => assert (S1 : same w w1) by (now repeat split); destruct (folder_abs_run (rev l) w1 (no_fault_same _ _ S1 N)) as (o & w2 & S2 & E2 & X) end.
  rewrite rev_involutive in X. exists o, w2. split; [exact (same_trans _ _ _ S1 S2)|]. split; [exact E2|]. exact X.
Qed.

Lemma parent_child p x : pp_parent (child p x) = p.
Proof. destruct p. unfold pp_parent, child. cbn. now rewrite removelast_last. Qed.

Theorem prefix_run p w f : no_fault w -> good_fs (w_fs w) -> is_dir_at (w_fs w) (w_cwd w) -> straight p ->
  innermost (w_fs w) (w_cwd w) p (Some f) ->
  exists o w', same w w' /\ nearest (w_fs w) (w_cwd w) p o /\
    exists b, tag_prefix far home_of p w = (Ok b, w') /\ (b = false <-> o = Some f).
Proof.
  intros N G D St X. destruct (folder_run p w N St) as (o & w1 & S1 & E1 & X1).
  pose proof (innermost_unique _ _ _ _ _ X X1) as <-. unfold tag_prefix, setup_file, bind. rewrite E1. cbn [found_or ret].
  destruct (same_fs _ _ S1) as [F1 F2].
  destruct (working_dir_run home_of p w1 (no_fault_same _ _ S1 N)) as (wd & w2 & S2 & E2 & X2);
    [now rewrite F1|now rewrite F1, F2|now left; destruct St|].
  rewrite E2. unfold absolute_of in X2. destruct St as [A _]. rewrite A, F1, F2 in X2.
  exists wd, w2. split; [eapply same_trans; eassumption|]. split; [exact X2|].
  eexists. split; [reflexivity|]. rewrite parent_child. destruct wd as [wd|]; [|split; discriminate].
  rewrite negb_false_iff, pp_eqb_eq. split; [now intros ->|now intros [= ->]].
Qed.
(** The folder below the repository, with the name of the directory of the repository. *)
Theorem arg_folder_run p w f wd l : no_fault w -> good_fs (w_fs w) -> is_dir_at (w_fs w) (w_cwd w) -> straight p ->
  innermost (w_fs w) (w_cwd w) p (Some f) -> nearest (w_fs w) (w_cwd w) p (Some wd) ->
  pp_parts f = pp_parts wd ++ l -> pp_parts wd <> [] ->
  exists w', same w w' /\ arg_folder far home_of p w = (Ok (mkPP false (pp_name wd :: l)), w').
Proof.
  intros N G D St X Y Q Ne. destruct (folder_run p w N St) as (o & w1 & S1 & E1 & X1).
  pose proof (innermost_unique _ _ _ _ _ X X1) as <-. unfold arg_folder, bind. rewrite E1. cbn [found_or].
  destruct (same_fs _ _ S1) as [F1 F2].
  destruct (working_dir_run home_of p w1 (no_fault_same _ _ S1 N)) as (wd' & w2 & S2 & E2 & X2);
    [now rewrite F1|now rewrite F1, F2|now left; destruct St|].
  rewrite E2. unfold absolute_of in X2. destruct St as [A _]. rewrite A, F1, F2 in X2.
  pose proof (nearest_unique _ _ _ _ _ Y X2) as <-. exists w2. split; [eapply same_trans; eassumption|].
  unfold lift. f_equal. destruct X as (X & _), Y as (Y & _).
  apply at_or_below_parts in X as (A1 & _), Y as (A2 & _).
  destruct f as [fa fl], wd as [wa wl]; cbn [pp_abs pp_parts] in *.
  assert (EA : fa = wa) by congruence. rewrite EA. subst fl.
  destruct wl as [|x wl _] using rev_ind; [easy|].
  unfold pp_parent, pp_name. cbn [pp_abs pp_parts]. rewrite removelast_last, last_last, <- app_assoc. cbn [app].
  apply relative_to_app.
Qed.
End Folder.
