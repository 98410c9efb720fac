From Coq Require Import String NArith ZArith Bool List Lia.
From Verif Require Import Model.Py Model.PurePath Model.Fs Model.PathOps Model.Cwd Spec.FsSpec Spec.LoopSpec Spec.CwdSpec
  Proofs.PyLemmas Proofs.FsLemmas Proofs.RunLemmas Proofs.RmtreeProofs Proofs.RmdirtreeProofs.
Import ListNotations.

Lemma same_moved w w' : same w w' -> moved (w_cwd w) w w'.
Proof. unfold same, moved. tauto. Qed.
Lemma moved_trans p q a b c : moved p a b -> moved q b c -> moved q a c.
Proof. unfold moved. intros (A & B & C & D) (A' & B' & C' & D'). rewrite A', C', D'. tauto. Qed.
Lemma no_fault_moved q w w' : moved q w w' -> no_fault w -> no_fault w'.
Proof. intros (_ & _ & _ & F) N t. rewrite F. apply N. Qed.

Lemma getcwd_of w : no_fault w -> is_dir_at (w_fs w) (w_cwd w) -> exists w', sys_getcwd w = (Ok (path_of (w_cwd w)), w') /\ same w w'.
Proof. intros N (xs & D). apply look_dir in D as (es & D). unfold sys_getcwd. apply ask_ok; [assumption|]. now rewrite D. Qed.

Lemma chdir_ok w p q : no_fault w -> dir_by (w_fs w) (w_cwd w) p q -> exists w', p_chdir p w = (Ok tt, w') /\ moved q w w'.
Proof.
  intros N (xs & es & W). unfold p_chdir, sys_chdir. 
  destruct (ask_ok (fun fs cwd => do r <- lookup true p fs cwd ; match snd r with Dir _ _ => Ok (fst r) | _ => fail ENOTDIR end) w (Ok q) N) as (w1 & E & (A & B & C & D)).
  - unfold lookup. now rewrite W.
  - rewrite E. eexists. split; [reflexivity|]. repeat split; assumption.
Qed.

Lemma is_dir_of w p : no_fault w -> exists b w', p_is_dir p w = (Ok b, w') /\ same w w' /\
  (b = true <-> exists q, dir_by (w_fs w) (w_cwd w) p q).
Proof.
  intro N. destruct (test_run true p (fun n => match n with Dir _ _ => true | _ => false end) w N) as (w' & S & E).
  unfold p_is_dir, dir_by. rewrite E. destruct (walk (w_fs w) (w_cwd w) true p) as [q n|d x|e] eqn:W.
  - exists (match n with Dir _ _ => true | _ => false end), w'. split; [reflexivity|]. split; [assumption|]. destruct n; split; try discriminate.
    + intros (q' & xs' & es & K). discriminate.
    + intros _. now exists q, xs, ents.
    + reflexivity.
    + intros (q' & xs' & es & K). discriminate.
  - exists false, w'. split; [reflexivity|]. split; [assumption|]. split; [discriminate|]. intros (q' & xs & es & K). discriminate.
  - unfold walk in W. rewrite (walk_fail _ _ _ _ _ _ W). exists false, w'. split; [reflexivity|]. split; [assumption|]. split; [discriminate|]. intros (q' & xs & es & K). discriminate.
Qed.

Lemma dir_by_place fs cwd q : good_fs fs -> is_dir_at fs q -> dir_by fs cwd (path_of q) q.
Proof. intros G (xs & D). apply look_dir in D as (es & D). exists xs, es. apply walk_of; [assumption|assumption|discriminate]. Qed.
Lemma dir_by_is_dir fs cwd p q : dir_by fs cwd p q -> is_dir_at fs q.
Proof. intros (xs & es & W). unfold walk in W. apply walk_found_get in W. exists xs. apply look_dir. now exists es. Qed.

Lemma pushd_ok p q stack w : no_fault w -> is_dir_at (w_fs w) (w_cwd w) -> dir_by (w_fs w) (w_cwd w) p q ->
  exists w', pushd p stack w = (Ok tt, stack ++ [path_of (w_cwd w)], w') /\ moved q w w'.
Proof.
  intros N D Q. unfold pushd. destruct (is_dir_of w p N) as (b & w1 & E1 & S1 & K). assert (b = true) as -> by (apply K; eauto).
  rewrite E1. pose proof (no_fault_same _ _ S1 N) as N1. destruct S1 as (F1 & C1 & H1 & T1).
  destruct (getcwd_of w1 N1) as (w2 & E2 & S2); [now rewrite F1, C1|]. rewrite E2.
  pose proof (no_fault_same _ _ S2 N1) as N2. destruct S2 as (F2 & C2 & H2 & T2).
  destruct (chdir_ok w2 p q N2) as (w3 & E3 & M3); [now rewrite F2, C2, F1, C1|]. rewrite E3.
  pose proof (no_fault_moved _ _ _ M3 N2) as N3. destruct M3 as (F3 & C3 & H3 & T3).
  destruct (getcwd_of w3 N3) as (w4 & E4 & (F4 & C4 & H4 & T4)).
  { rewrite C3, F3, F2, F1. now apply (dir_by_is_dir _ _ _ _ Q). }
  rewrite E4, C1. exists w4. split; [reflexivity|]. unfold moved. rewrite F4, C4, H4, T4, F3, C3, H3, T3, F2, H2, T2, F1, H1, T1. tauto.
Qed.
Lemma pushd_not p stack w : no_fault w -> (forall q, ~ dir_by (w_fs w) (w_cwd w) p q) ->
  exists w', pushd p stack w = (Err (OSErr ENOTDIR), stack, w') /\ same w w'.
Proof.
  intros N Q. unfold pushd. destruct (is_dir_of w p N) as (b & w1 & E1 & S1 & K). exists w1.
  rewrite E1. destruct b; [|now split]. destruct (proj1 K eq_refl) as (q & X). now apply Q in X.
Qed.

Lemma py_pop_top {A} (a b : list A) x : py_pop (a ++ x :: b) (- (Z.of_nat (length b) + 1)) = Ok (x, a ++ b).
Proof.
  unfold py_pop. rewrite app_length. cbn [length].
  destruct (Z.ltb_spec (- (Z.of_nat (length b) + 1)) 0); [|lia].
  replace (- (Z.of_nat (length b) + 1) + Z.of_nat (length a + S (length b)))%Z with (Z.of_nat (length a)) by lia.
  destruct (Z.ltb_spec (Z.of_nat (length a)) 0); [lia|]. rewrite Nat2Z.id, skipn_app, skipn_all, Nat.sub_diag, firstn_app, firstn_all, Nat.sub_diag.
  cbn. now rewrite app_nil_r.
Qed.
Lemma py_pop_short {A} (l : list A) n : (length l <= n)%nat -> py_pop l (- (Z.of_nat n + 1)) = Err IndexError.
Proof.
  intro L. unfold py_pop. destruct (Z.ltb_spec (- (Z.of_nat n + 1)) 0); [|lia].
  destruct (Z.ltb_spec (- (Z.of_nat n + 1) + Z.of_nat (length l)) 0); [reflexivity|lia].
Qed.

Lemma popd_ok n a e b q w : no_fault w -> length b = n -> dir_by (w_fs w) (w_cwd w) e q ->
  exists w', popd (Z.of_nat n) (a ++ e :: b) w = (Ok (Some e), a ++ b, w') /\ moved q w w'.
Proof.
  intros N L Q. unfold popd. destruct (a ++ e :: b) as [|z l] eqn:Z; [destruct a; discriminate|]. rewrite <- Z. clear Z z l.
  subst n. rewrite py_pop_top. destruct (chdir_ok w e q N Q) as (w1 & E1 & M1). rewrite E1.
  destruct (getcwd_of w1 (no_fault_moved _ _ _ M1 N)) as (w2 & E2 & S2).
  { destruct M1 as (F & C & _). rewrite F, C. now apply dir_by_is_dir in Q. }
  rewrite E2. exists w2. split; [reflexivity|]. apply (moved_trans q q w w1); [assumption|]. destruct M1 as (_ & C & _). rewrite <- C. now apply same_moved.
Qed.
Lemma popd_empty N w : popd N [] w = (Ok None, [], w).
Proof. reflexivity. Qed.
Lemma popd_short n stack w : stack <> [] -> (length stack <= n)%nat -> popd (Z.of_nat n) stack w = (Err IndexError, stack, w).
Proof. intros N L. unfold popd. destruct stack as [|x l]; [congruence|]. now rewrite py_pop_short. Qed.

Lemma history_app a : forall b stack w, history (a ++ b) stack w =
  match history a stack w with (Ok _, stack, w) => history b stack w | (Err e, stack, w) => (Err e, stack, w) end.
Proof.
  induction a as [|[p|] a IH]; intros b stack w; [reflexivity| |]; cbn [app history].
  - destruct (pushd p stack w) as [[[u|e] s] w1]; [apply IH|reflexivity].
  - destruct (popd 0 stack w) as [[[u|e] s] w1]; [apply IH|reflexivity].
Qed.

Lemma balanced_run l : balanced l -> forall stack w r stack' w', no_fault w -> good_fs (w_fs w) -> is_dir_at (w_fs w) (w_cwd w) ->
  history l stack w = (r, stack', w') ->
  (r = Ok tt /\ stack' = stack /\ moved (w_cwd w) w w') \/ (r = Err (OSErr ENOTDIR) /\ w_fs w' = w_fs w /\ exists m, stack' = stack ++ m).
Proof.
  induction 1 as [|p a b Ba IHa Bb IHb]; intros stack w r stack' w' N G D H.
  - injection H as <- <- <-. left. now repeat split.
  - cbn [history] in H. destruct (is_dir_of w p N) as (t & w0 & _ & _ & K). destruct t.
    + destruct (proj1 K eq_refl) as (q & Q). destruct (pushd_ok p q stack w N D Q) as (w1 & E1 & M1). rewrite E1 in H.
      rewrite history_app in H. destruct (history a (stack ++ [path_of (w_cwd w)]) w1) as [[r2 s2] w2] eqn:E2.
      pose proof (no_fault_moved _ _ _ M1 N) as N1. pose proof M1 as (F1 & C1 & _).
      apply IHa in E2; [|assumption|now rewrite F1|rewrite F1, C1; now apply dir_by_is_dir in Q].
      destruct E2 as [(-> & -> & M2)|(-> & F2 & m & ->)].
      * cbn [history] in H. pose proof (no_fault_moved _ _ _ M2 N1) as N2. pose proof M2 as (F2 & C2 & _).
        destruct (popd_ok 0 stack (path_of (w_cwd w)) [] (w_cwd w) w2 N2 eq_refl) as (w3 & E3 & M3).
        { rewrite F2, F1. now apply dir_by_place. }
        change (Z.of_nat 0) with 0%Z in E3. rewrite E3, app_nil_r in H.
        pose proof (no_fault_moved _ _ _ M3 N2) as N3. pose proof M3 as (F3 & C3 & _).
        apply IHb in H; [|assumption|now rewrite F3, F2, F1|rewrite F3, F2, F1, C3; assumption].
        assert (M : moved (w_cwd w) w w3) by (apply (moved_trans (w_cwd w1) (w_cwd w) w w2); [apply (moved_trans q _ w w1)|]; assumption).
        destruct H as [(-> & -> & M4)|(-> & F4 & m & ->)].
        -- left. split; [reflexivity|]. split; [reflexivity|]. rewrite C3 in M4. now apply (moved_trans (w_cwd w) _ w w3).
        -- right. split; [reflexivity|]. split; [rewrite F4; apply M|]. now exists m.
      * injection H as <- <- <-. right. split; [reflexivity|]. split; [now rewrite F2, F1|]. rewrite <- app_assoc. now eexists.
    + destruct (pushd_not p stack w N) as (w1 & E1 & S1).
      { intros q Q. assert (false = true) by (apply K; eauto). discriminate. }
      rewrite E1 in H. injection H as <- <- <-. right. split; [reflexivity|]. split; [now destruct S1|]. exists []. now rewrite app_nil_r.
Qed.

(** ** Blocks *)
Lemma enter_keeps path_at o o' s w r1 s1 w1 : o <> o' -> enter path_at o' s w = (r1, s1, w1) -> s1 o = s o.
Proof.
  intros U E. unfold enter in E. destruct (p_is_dir (path_at o') w) as [[[|]|e] w2]; try (now injection E as _ <- _).
  destruct (sys_getcwd w2) as [[c|e] w3]; try (now injection E as _ <- _). destruct (p_chdir (path_at o') w3) as [r3 w4].
  injection E as _ <- _. unfold set_obj. destruct (Nat.eqb_spec o o'); [tauto|reflexivity].
Qed.
Lemma cache_enter_keeps path_at o o' s w r1 s1 w1 : o <> o' -> cache_enter path_at o' s w = (r1, s1, w1) -> s1 o = s o.
Proof.
  intros U E. unfold cache_enter in E. destruct (p_is_dir (path_at o') w) as [[[|]|e] w2]; try (now injection E as _ <- _).
  destruct (sys_getcwd w2) as [[c|e] w3]; try (now injection E as _ <- _). destruct (p_chdir (path_at o') w3) as [r3 w4].
  injection E as _ <- _. unfold set_obj. destruct (Nat.eqb_spec o o'); [tauto|reflexivity].
Qed.
Lemma run_keeps path_at o : forall p s w r s' w', ~ uses o p -> run path_at p s w = (r, s', w') -> s' o = s o.
Proof.
  induction p as [m|a IHa b IHb|o' body IH|o' body IH]; intros s w r s' w' U H; cbn [run uses] in *.
  - destruct (m w) as [r1 w1]. now injection H as _ <- _.
  - destruct (run path_at a s w) as [[[u|e] s1] w1] eqn:E.
    + apply IHa in E; [|tauto]. apply IHb in H; [|tauto]. congruence.
    + injection H as _ <- _. apply IHa in E; tauto.
  - destruct (enter path_at o' s w) as [[[u|e] s1] w1] eqn:E; apply (enter_keeps path_at o) in E; try tauto; [|injection H as _ <- _; assumption].
    destruct (run path_at body s1 w1) as [[r2 s2] w2] eqn:E2. apply IH in E2; [|tauto].
    destruct (exit_ o' s2 w2) as [[u'|e'] w3]; injection H as _ <- _; congruence.
  - destruct (cache_enter path_at o' s w) as [[[u|e] s1] w1] eqn:E; apply (cache_enter_keeps path_at o) in E; try tauto; [|injection H as _ <- _; assumption].
    destruct (run path_at body s1 w1) as [[r2 s2] w2] eqn:E2. apply IH in E2; [|tauto].
    destruct (exit_ o' s2 w2) as [[u'|e'] w3]; injection H as _ <- _; congruence.
Qed.

Lemma block_restores path_at cache o body s w q : no_fault w -> good_fs (w_fs w) -> is_dir_at (w_fs w) (w_cwd w) ->
  dir_by (w_fs w) (w_cwd w) (path_at o) q -> ~ uses o body ->
  exists s1 w1, moved q w w1 /\ forall r s2 w2, run path_at body s1 w1 = (r, s2, w2) ->
    no_fault w2 -> good_fs (w_fs w2) -> is_dir_at (w_fs w2) (w_cwd w) ->
    exists w3, run path_at (block cache o body) s w = (r, s2, w3) /\ moved (w_cwd w) w2 w3.
Proof.
  intros N G D Q U. destruct (is_dir_of w (path_at o) N) as (b & wa & Ea & Sa & K). assert (b = true) as -> by (apply K; eauto).
  pose proof (no_fault_same _ _ Sa N) as Na. destruct Sa as (Fa & Ca & Ha & Ta).
  destruct (getcwd_of wa Na) as (wb & Eb & Sb); [now rewrite Fa, Ca|]. pose proof (no_fault_same _ _ Sb Na) as Nb. destruct Sb as (Fb & Cb & Hb & Tb).
  destruct (chdir_ok wb (path_at o) q Nb) as (w1 & E1 & M1); [now rewrite Fb, Cb, Fa, Ca|].
  exists (set_obj o (path_of (w_cwd w)) s), w1. split.
  - destruct M1 as (F1 & C1 & H1 & T1). unfold moved. rewrite F1, C1, H1, T1, Fb, Hb, Tb, Fa, Ha, Ta. tauto.
  - intros r s2 w2 R N2 G2 D2.
    destruct (chdir_ok w2 (path_of (w_cwd w)) (w_cwd w) N2) as (w3 & E3 & M3); [now apply dir_by_place|]. exists w3. split; [|assumption].
    destruct cache; cbn [block run]; unfold enter, cache_enter; rewrite Ea, Eb, E1, Ca, R; unfold exit_;
      rewrite (run_keeps path_at o body _ _ _ _ _ U R); unfold set_obj; rewrite Nat.eqb_refl, E3; reflexivity.
Qed.
Lemma with_restores path_at o body s w q : no_fault w -> good_fs (w_fs w) -> is_dir_at (w_fs w) (w_cwd w) ->
  dir_by (w_fs w) (w_cwd w) (path_at o) q -> ~ uses o body ->
  exists s1 w1, moved q w w1 /\ forall r s2 w2, run path_at body s1 w1 = (r, s2, w2) ->
    no_fault w2 -> good_fs (w_fs w2) -> is_dir_at (w_fs w2) (w_cwd w) ->
    exists w3, run path_at (With o body) s w = (r, s2, w3) /\ moved (w_cwd w) w2 w3.
Proof. exact (block_restores path_at false o body s w q). Qed.

(** ** What is no directory *)
Lemma no_dir_block path_at o body s w : no_fault w -> (forall q, ~ dir_by (w_fs w) (w_cwd w) (path_at o) q) ->
  exists w1, moved (w_cwd w) w w1 /\
    (s o = None -> ~ uses o body -> run path_at (With o body) s w = run path_at body s w1) /\
    run path_at (WithCache o body) s w = (Err TypeError, s, w1).
Proof.
  intros N Q. destruct (is_dir_of w (path_at o) N) as (b & w1 & E1 & S1 & K).
  destruct b; [destruct (proj1 K eq_refl) as (q & Z); destruct (Q q Z)|].
  exists w1. split; [now apply same_moved|]. split; [|cbn [run]; unfold cache_enter; now rewrite E1].
  intros So U. cbn [run]. unfold enter. rewrite E1. destruct (run path_at body s w1) as [[r s2] w2] eqn:R.
  unfold exit_. rewrite (run_keeps path_at o body _ _ _ _ _ U R), So. reflexivity.
Qed.
