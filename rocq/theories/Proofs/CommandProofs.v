(** * Proofs about the release command *)
From Coq Require Import String NArith ZArith Bool List Lia.
From Verif Require Import Model.Py Model.PurePath Model.Fs Model.PathOps Model.Version Model.RemoteUri Model.PackageFolder Model.Command
  Spec.FsSpec Spec.LoopSpec Spec.ZipSpec Spec.RepoSpec Spec.PackageFolderSpec Spec.RemoteUriSpec Spec.ShellSpec Spec.CommandSpec
  Proofs.PyLemmas Proofs.FileSizeProofs Proofs.ShellProofs Proofs.RemoteUriProofs Proofs.PackageFolderProofs.
Import ListNotations.
Local Open Scope N_scope.

(** ** Words with one blank between them *)
Definition meas (q : st) (s : str) (l : list str) : Prop :=
  match q with
  | Out => (tot l + length l <= length s + 1)%nat /\ ((tot l + length l = length s + 1)%nat -> Forall bare l)
  | Wd w => (tot l + length l <= length w + length s + 1)%nat /\
            ((tot l + length l = length w + length s + 1)%nat -> exists u l', l = (w ++ u) :: l' /\ (forall c, In c u -> plainc c) /\ Forall bare l')
  | Single w | Double w => (tot l + length l < length w + length s + 1)%nat
  end.
Lemma meas_le q s l : meas q s l -> (tot l + length l <= length (acc q) + length s + 1)%nat.
Proof. destruct q; cbn [meas acc length]; intros; lia. Qed.

Ltac strict := split; [lens|intro; exfalso; lens].
Lemma lex_meas : forall n s q l rest, (length s <= n)%nat -> lex q s = Some (l, rest) -> meas q s l.
Proof.
  induction n as [|n IH]; intros s q l rest L H.
  { destruct s; [|cbn in L; lia]. destruct q; cbn in H; try discriminate; injection H as <- <-; cbn [meas].
    - split; [cbn; lia|]. intro; constructor.
    - split; [lens|]. intros _. exists [], []. rewrite app_nil_r. split; [reflexivity|]. split; [intros ? []|constructor]. }
  destruct s as [|c r].
  { destruct q; cbn in H; try discriminate; injection H as <- <-; cbn [meas].
    - split; [cbn; lia|]. intro; constructor.
    - split; [lens|]. intros _. exists [], []. rewrite app_nil_r. split; [reflexivity|]. split; [intros ? []|constructor]. }
  assert (Lr : (length r <= n)%nat) by (cbn in L; lia).
  assert (J1 := fun q l rest (K : lex q r = Some (l, rest)) => meas_le q r l (IH r q l rest Lr K)).
  assert (J2 : forall d r' q l rest, r = d :: r' -> lex q r' = Some (l, rest) -> (tot l + length l <= length (acc q) + length r' + 1)%nat).
  { intros d r' q' l' rest' E K. apply meas_le, (IH r' q' l' rest'); [subst r; cbn in Lr; lia|exact K]. }
  assert (P : blank c = false -> special c = false -> (c =? 124) = false -> (c =? 39) = false -> (c =? 34) = false ->
    (c =? 92) = false -> plainc c).
  { intros. repeat split; try assumption; apply N.eqb_neq; assumption. }
  destruct q.
  - rewrite lex_out in H. cbn [meas].
    destruct (blank c) eqn:B; [apply J1 in H; strict|].
    destruct (c =? 124) eqn:N1; [injection H as <- <-; strict|].
    destruct (special c || special_first c)%bool eqn:S; [discriminate|]. apply orb_false_iff in S as [S S'].
    destruct (c =? 39) eqn:N2; [apply IH in H; [|exact Lr]; cbn [meas] in H; strict|].
    destruct (c =? 34) eqn:N3; [apply IH in H; [|exact Lr]; cbn [meas] in H; strict|].
    destruct (c =? 92) eqn:N4.
    { destruct r as [|d r']; [discriminate|]. destruct (d =? 10); apply (J2 d r' _ _ _ eq_refl) in H; strict. }
    apply IH in H; [|exact Lr]. cbn [meas] in H. destruct H as [H1 H2]. split; [lens|]. intro E.
    destruct H2 as (u & l' & -> & Pu & Bl); [lens|]. constructor; [|exact Bl].
    split; [discriminate|]. split; [exact S'|]. intros x [<-|I]; [now apply P|now apply Pu].
  - rewrite lex_wd in H. cbn [meas].
    destruct (blank c) eqn:B.
    { destruct (lex Out r) as [[l0 rest0]|] eqn:E; [|discriminate]. cbn [word] in H. injection H as <- <-.
      apply IH in E; [|exact Lr]. cbn [meas] in E. destruct E as [E1 E2]. split; [lens|]. intro E.
      exists [], l0. rewrite app_nil_r. split; [reflexivity|]. split; [intros ? []|]. apply E2. lens. }
    destruct (c =? 124) eqn:N1; [injection H as <- <-; strict|].
    destruct (special c) eqn:S; [discriminate|].
    destruct (c =? 39) eqn:N2; [apply IH in H; [|exact Lr]; cbn [meas] in H; strict|].
    destruct (c =? 34) eqn:N3; [apply IH in H; [|exact Lr]; cbn [meas] in H; strict|].
    destruct (c =? 92) eqn:N4.
    { destruct r as [|d r']; [discriminate|]. destruct (d =? 10); apply (J2 d r' _ _ _ eq_refl) in H; strict. }
    apply IH in H; [|exact Lr]. cbn [meas] in H. destruct H as [H1 H2]. split; [lens|]. intro E.
    destruct H2 as (u & l' & -> & Pu & Bl); [lens|]. exists (c :: u), l'. rewrite <- app_assoc. split; [reflexivity|]. split; [|exact Bl].
    intros x [<-|I]; [now apply P|now apply Pu].
  - rewrite lex_single in H. cbn [meas]. destruct (c =? 39).
    + apply J1 in H. lens.
    + apply IH in H; [|exact Lr]. cbn [meas] in H. lens.
  - rewrite lex_double in H. cbn [meas]. destruct (c =? 34).
    { apply J1 in H. lens. }
    destruct (_ || _)%bool; [discriminate|]. destruct (c =? 92).
    + destruct r as [|d r']; [discriminate|]. destruct (escapable d).
      * apply IH in H; [|cbn in Lr; lia]. cbn [meas] in H. destruct (d =? 10); lens.
      * apply IH in H; [|exact Lr]. cbn [meas] in H. lens.
    + apply IH in H; [|exact Lr]. cbn [meas] in H. lens.
Qed.

Lemma last_word p : bare p -> lex Out p = Some ([p], None).
Proof.
  intros (N & F & H). destruct p as [|c p]; [congruence|]. cbn [hd] in F.
  destruct (H c (or_introl eq_refl)) as (B & S & N1 & N2 & N3 & N4).
  apply N.eqb_neq in N1, N2, N3, N4. rewrite lex_out, B, N1, S, F, N2, N3, N4. cbn [orb].
  assert (G : forall p w, (forall c, In c p -> plainc c) -> lex (Wd w) p = Some ([w ++ p], None)).
  { clear. induction p as [|c p IH]; intros w H; [now rewrite app_nil_r|].
    destruct (H c (or_introl eq_refl)) as (B & S & N1 & N2 & N3 & N4).
    apply N.eqb_neq in N1, N2, N3, N4. rewrite lex_wd, B, N1, S, N2, N3, N4.
    rewrite IH by (intros; apply H; now right). now rewrite <- app_assoc. }
  rewrite G; [reflexivity|]. intros x I. apply H. now right.
Qed.

Lemma words_apart ps : runs (join $" " ps) ps <-> Forall bare ps.
Proof.
  split.
  - intro H. unfold runs, words in H. destruct (lex Out (join $" " ps)) as [[l rest]|] eqn:E; [|discriminate].
    cbn [option_map fst] in H. injection H as ->. apply (lex_meas _ _ _ _ _ (le_n _)) in E. cbn [meas] in E. destruct E as [_ E].
    destruct ps as [|p ps]; [constructor|]. apply E.
    clear. revert p. induction ps as [|p' ps IH]; intro p; [cbn [join tot length]; lens|].
    change (join $" " (p :: p' :: ps)) with (p ++ $" " ++ join $" " (p' :: ps)). specialize (IH p'). rewrite !app_length. cbn [tot length] in *. change (length $" ") with 1%nat. lia.
  - intro H. unfold runs, words. enough (G : lex Out (join $" " ps) = Some (ps, None)) by (now rewrite G).
    induction H as [|p ps B H IH]; [reflexivity|]. destruct ps as [|p' ps]; [now apply last_word|].
    change (join $" " (p :: p' :: ps)) with (p ++ 32 :: join $" " (p' :: ps)). rewrite out_bare by assumption. now rewrite IH.
Qed.

(** ** Parts that need no quotes *)
Definition safe (c : N) : Prop := letter c \/ c = 43 \/ c = 45 \/ c = 46 \/ c = 95.
Lemma safe_plain c : safe c -> plainc c /\ special_first c = false.
Proof.
  intro H. assert (Q : forall k, In k [10; 33; 36; 38; 40; 41; 42; 59; 60; 62; 63; 91; 96; 123; 32; 9; 124; 39; 34; 92; 35; 126] -> (c =? k) = false).
  { intros k I. apply N.eqb_neq. intros ->. unfold safe, letter in H. cbn [In] in I.
    repeat (destruct I as [<-|I]; [lia|]). exact I. }
  assert (N : forall k, (c =? k) = false -> c <> k) by (intros k; apply N.eqb_neq).
  unfold plainc, blank, special, special_first. cbn [existsb]. rewrite !Q by (cbn; tauto). cbn [orb].
  repeat split; apply N, Q; cbn; tauto.
Qed.
Lemma safe_bare p : p <> [] -> Forall safe p -> bare p.
Proof.
  intros Ne H. rewrite Forall_forall in H. split; [exact Ne|]. split.
  - destruct p as [|c p]; [congruence|]. apply safe_plain, H. now left.
  - intros c I. now apply safe_plain, H.
Qed.
Lemma safe_dec n : dec_N n <> [] /\ Forall safe (dec_N n).
Proof.
  destruct (dec_numeral n) as [H K]. split; [intro E; rewrite E in K; discriminate K|].
  apply Forall_forall. intros c I. rewrite forallb_forall in H. specialize (H c I). unfold is_digit in H.
  apply andb_true_iff in H as [H1 H2]. apply N.leb_le in H1, H2. left. left. now split.
Qed.
Lemma safe_join s ps : Forall safe s -> Forall (Forall safe) ps -> Forall safe (join s ps).
Proof.
  intros Hs H. apply Forall_forall. intros c I. apply join_In in I as [I|(x & I & J)].
  - rewrite Forall_forall in Hs. now apply Hs.
  - rewrite Forall_forall in H. specialize (H x I). rewrite Forall_forall in H. now apply H.
Qed.
Lemma owner_bare o : owner_name o -> bare o.
Proof.
  intros [Ne H]. apply safe_bare; [exact Ne|]. apply Forall_forall. intros c I. destruct (H c I) as [L| ->]; [now left|]. right. right. now left.
Qed.
Lemma repo_bare o : repo_name o -> bare o.
Proof.
  intros (Ne & _ & _ & H). apply safe_bare; [exact Ne|]. apply Forall_forall. intros c I.
  destruct (H c I) as [L|[-> |[-> | ->]]]; [now left| | |]; right; right; [now left|right; now left|right; now right].
Qed.
Lemma safe_b s : forallb (fun c => ((48 <=? c) && (c <=? 57)) || ((65 <=? c) && (c <=? 90)) || ((97 <=? c) && (c <=? 122)) || (c =? 43) || (c =? 45) || (c =? 46) || (c =? 95))%bool s = true -> Forall safe s.
Proof.
  intro H. apply Forall_forall. intros c I. rewrite forallb_forall in H. specialize (H c I). unfold safe, letter.
  rewrite !orb_true_iff, !andb_true_iff, !N.leb_le, !N.eqb_eq in H. lia.
Qed.
Ltac safe_lit := apply safe_b; reflexivity.

Lemma version_bare v : proper_version v -> (bare (version_text v) <-> v_epoch v = 0).
Proof.
  intros [Ne Hl]. split.
  - intros (_ & _ & H). destruct (N.eqb_spec (v_epoch v) 0) as [E|E]; [exact E|exfalso].
    assert (I : In 33 (version_text v)).
    { unfold version_text. apply N.eqb_neq in E. rewrite E. apply in_app_iff. left. apply in_app_iff. right. now left. }
    destruct (H 33 I) as (_ & S & _). discriminate S.
  - intro E. unfold version_text. rewrite E. cbn [N.eqb app]. apply safe_bare.
    + destruct (v_release v) as [|n r]; [congruence|]. intro Q. apply app_eq_nil in Q as [Q _]. cbn [map] in Q.
      destruct (map dec_N r) as [|x l]; [exact (proj1 (safe_dec n) Q)|]. rewrite join_cons in Q. apply app_eq_nil in Q as [Q _]. exact (proj1 (safe_dec n) Q).
    + assert (D : forall l, Forall safe (join $"." (map dec_N l))).
      { intro l. apply safe_join; [safe_lit|]. apply Forall_forall. intros x I. apply in_map_iff in I as (n & <- & _). apply safe_dec. }
      repeat (apply Forall_app; split).
      * apply D.
      * destruct (v_pre v) as [[[] n]|]; [| | |constructor]; (apply Forall_app; split; [safe_lit|apply safe_dec]).
      * destruct (v_post v); [|constructor]. apply Forall_app; split; [safe_lit|apply safe_dec].
      * destruct (v_dev v); [|constructor]. apply Forall_app; split; [safe_lit|apply safe_dec].
      * destruct (v_local v) as [l|] eqn:Ev; [|constructor]. apply Forall_app; split; [safe_lit|]. apply safe_join; [safe_lit|].
        apply Forall_forall. intros x I. apply in_map_iff in I as ([n|t] & <- & I); [apply safe_dec|]. cbn [segment_text].
        destruct (Hl l eq_refl) as [_ Hs]. rewrite Forall_forall in Hs. destruct (Hs _ I) as [Ht _].
        eapply Forall_impl; [|exact Ht]. intros c [S|S]; left; [left|right; right]; exact S.
Qed.

(** ** The command *)
Lemma command_run facts find_ref there far home_of n p w o r u branch rel bs f wd l next name nv nm :
  owner_name o -> repo_name r -> understood o r u ->
  facts p = Ok (mkRF u branch (mkPP false rel)) -> asked (Ok tt) branch None bs ->
  no_fault w -> good_fs (w_fs w) -> is_dir_at (w_fs w) (w_cwd w) -> straight p ->
  innermost (w_fs w) (w_cwd w) p (Some f) -> nearest (w_fs w) (w_cwd w) p (Some wd) ->
  pp_parts f = pp_parts wd ++ l -> pp_parts wd <> [] ->
  next = Ok nv -> proper_version nv -> name = Ok nm ->
  exists t w', unchanged w w' /\ command facts find_ref there far home_of (S n) next name p w = (Ok t, w') /\
    (runs t [$"build-release"; o; r; join $"/" (pp_name wd :: l); nm; version_text nv] <->
     bare (join $"/" (pp_name wd :: l)) /\ bare nm /\ v_epoch nv = 0).
Proof.
  intros Ho Hr Hu F A Nw G D S X Y Q Ne -> V ->.
  destruct (arg_folder_run far home_of p w f wd l Nw G D S X Y Q Ne) as (w' & Sm & E).
  exists (join $" " [$"build-release"; o; r; join $"/" (pp_name wd :: l); nm; version_text nv]), w'. split; [exact Sm|]. split.
  - unfold command. rewrite (org_repo facts find_ref there n p o r u branch rel bs Ho Hr Hu F A). unfold bind, lift, ret. rewrite E. cbn [fst snd].
    rewrite !join_cons. reflexivity.
  - rewrite words_apart. rewrite <- (version_bare nv V).
    assert (B1 : bare $"build-release") by (apply safe_bare; [discriminate|safe_lit]).
    apply owner_bare in Ho. apply repo_bare in Hr. split.
    + intro H. repeat match goal with H : Forall _ (_ :: _) |- _ => apply Forall_cons_iff in H as [? H] end. tauto.
    + intros (? & ? & ?). repeat (constructor; [assumption|]). constructor.
Qed.
