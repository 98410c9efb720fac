(** * Lemmas on remembered repositories *)
From Coq Require Import String NArith ZArith Bool List Lia.
From Verif Require Import Model.Py Model.PurePath Model.RelPath Model.Fs Model.PathOps Model.RemoteUri Model.Repo
  Spec.FsSpec Spec.LoopSpec Spec.ZipSpec Spec.RepoSpec Spec.RepoCacheSpec
  Proofs.PyLemmas Proofs.FsLemmas Proofs.RunLemmas Proofs.RelPathProofs Proofs.RmtreeProofs Proofs.RepoProofs.
Import ListNotations.

(** ** rmtree only takes away *)
Lemma pruned_refl fs : pruned fs fs.
Proof. intros q. now left. Qed.
Lemma pruned_trans a b c : pruned a b -> pruned b c -> pruned a c.
Proof. intros P Q q. destruct (Q q) as [-> | ->]; auto. Qed.
Lemma pruned_del fs P : pruned fs (del fs P).
Proof.
  intros q. destruct (below_dec P q) as [B|B]; [|left; now apply look_del_other].
  destruct P as [|x P]; [now left|]. right. now apply look_del_below.
Qed.

Definition prunes (w w' : world) : Prop :=
  pruned (w_fs w) (w_fs w') /\
  exists l, w_hist w' = l ++ w_hist w /\ forall s, In s l -> pruned (w_fs w) s /\ pruned s (w_fs w').
Lemma prunes_same w w' : same w w' -> prunes w w'.
Proof.
  intros (A & _ & B & _). split; [rewrite A; apply pruned_refl|]. exists []. split; [now rewrite B|now intros].
Qed.
Lemma prunes_trans a b c : prunes a b -> prunes b c -> prunes a c.
Proof.
  intros (A & l & A1 & A2) (B & m & B1 & B2). split; [eapply pruned_trans; eassumption|].
  exists (m ++ l). split; [now rewrite B1, A1, app_assoc|]. intros s H. apply in_app_or in H as [H|H].
  - destruct (B2 s H). split; [eapply pruned_trans; eassumption|assumption].
  - destruct (A2 s H). split; [assumption|eapply pruned_trans; eassumption].
Qed.
Definition pruner {A} (m : M A) : Prop := forall w, prunes w (snd (m w)).

Lemma pr_ret {A} (a : A) : pruner (ret a).
Proof. intros w. apply prunes_same, same_refl. Qed.
Lemma pr_raise {A} e : pruner (@raise A e).
Proof. intros w. apply prunes_same, same_refl. Qed.
Lemma pr_bind {A B} (m : M A) (f : A -> M B) : pruner m -> (forall a, pruner (f a)) -> pruner (bind m f).
Proof.
  intros M1 M2 w. unfold bind. specialize (M1 w). destruct (m w) as [[a|e] w1]; cbn in *; [|assumption].
  eapply prunes_trans; [eassumption|apply M2].
Qed.
Lemma pr_catch {A} (m : M A) (h : exn -> M A) : pruner m -> (forall e, pruner (h e)) -> pruner (catch m h).
Proof.
  intros M1 M2 w. unfold catch. specialize (M1 w). destruct (m w) as [[a|e] w1]; cbn in *; [assumption|].
  eapply prunes_trans; [eassumption|apply M2].
Qed.
Lemma pr_ask {A} (f : node -> place -> res A) : pruner (ask f).
Proof. intros w. apply prunes_same. unfold ask. destruct (w_fault w (w_tick w)); now repeat split. Qed.
Lemma pr_sys {A} (f : node -> place -> res (A * node)) :
  (forall fs cwd a fs', f fs cwd = Ok (a, fs') -> exists P, fs' = del fs P) -> pruner (sys f).
Proof.
  intros H w. unfold sys. destruct (w_fault w (w_tick w)); [apply prunes_same; now repeat split|].
  destruct (f (w_fs w) (w_cwd w)) as [[a fs']|e] eqn:E; [|apply prunes_same; now repeat split].
  apply H in E as (P & ->). cbn. split; [apply pruned_del|]. exists [del (w_fs w) P]. split; [reflexivity|].
  intros s [<-|[]]. split; [apply pruned_del|apply pruned_refl].
Qed.
Lemma pr_test m f : pruner m -> pruner (test m f).
Proof.
  intros M. apply pr_catch; [apply pr_bind; [exact M|intros; apply pr_ret]|].
  intros e. destruct (ignored e); [apply pr_ret|apply pr_raise].
Qed.
Lemma pr_stat_test b p f : pruner (test (sys_stat b p) f).
Proof. apply pr_test, pr_ask. Qed.
Lemma pr_each {A} (f : A -> M unit) l : (forall a, pruner (f a)) -> pruner (each f l).
Proof. intros F. induction l as [|x l IH]; [apply pr_ret|]. apply pr_bind; [apply F|intros; apply IH]. Qed.
Lemma pr_unlink p : pruner (sys_unlink p).
Proof.
  apply pr_sys. intros fs cwd a fs' H. destruct (lookup false p fs cwd) as [[q n]|e]; [|discriminate].
  cbn in H. destruct n; try discriminate; injection H as _ <-; now eexists.
Qed.
Lemma pr_rmdir p : pruner (sys_rmdir p).
Proof.
  apply pr_sys. intros fs cwd a fs' H. destruct (pp_parts p) as [|x l]; [destruct (pp_abs p); discriminate|].
  destruct (str_eqb _ _); [discriminate|]. destruct (lookup false p fs cwd) as [[q n]|e]; [|discriminate].
  cbn in H. destruct n as [|xs [|? ?]|]; try discriminate. destruct q; [discriminate|]. exists (s :: q); congruence.
Qed.
Lemma pr_guard p dg : pruner (rmtree_guard p dg).
Proof.
  unfold rmtree_guard. destruct (negb (pp_abs p)); [apply pr_raise|]. destruct dg; [apply pr_ret|].
  destruct (Nat.leb _ 2); [apply pr_raise|]. destruct (_ && _)%bool; [apply pr_raise|].
  apply pr_bind; [apply pr_ask|]. intros c. destruct (pp_eqb p c); [apply pr_raise|apply pr_ret].
Qed.
Lemma pr_rmtree ig dg : forall fuel p, pruner (rmtree fuel ig dg p).
Proof.
  induction fuel as [|f IH]; intros p w; rewrite rmtree_eq; revert w; change (pruner (bind (rmtree_guard p dg)
    (fun _ => catch (rm_body (rm_rec (match f with _ => _ end) ig dg) p) (rm_handler ig)))) || idtac.
  all: match goal with |- forall w, prunes w (snd (?m w)) => change (pruner m) end.
  all: apply pr_bind; [apply pr_guard|]; intros _; apply pr_catch.
  all: try (intros e; destruct e; cbn; try apply pr_raise; destruct ig; first [apply pr_raise|apply pr_ret]).
  all: apply pr_bind; [apply pr_stat_test|]; intros d; destruct d; [|apply pr_unlink].
  all: apply pr_bind; [apply pr_stat_test|]; intros l; destruct l; [apply pr_raise|].
  all: apply pr_bind; [apply pr_ask|]; intros names; apply pr_bind; [|intros; apply pr_rmdir].
  all: apply pr_each; intros x; apply pr_bind; [apply pr_stat_test|]; intros l; destruct l; [apply pr_unlink|].
  - apply pr_raise.
  - apply IH.
Qed.
Lemma pr_p_rmtree ig dz p : pruner (p_rmtree ig dz p).
Proof. intros w. unfold p_rmtree. apply pr_rmtree. Qed.

Lemma pruned_git k fs fs' : pruned fs fs' -> repo_at fs' k -> repo_at fs k.
Proof. intros P (q & n & W). unfold walk in W. destruct (walk_pruned _ _ _ _ P _ _ _ _ W) as (m & W'). now exists q, m. Qed.
Lemma prunes_not_remade k w w' : prunes w w' -> not_remade k w w'.
Proof.
  intros (A & l & B & C). exists l. split; [exact B|]. intros H. split; [now apply (pruned_git k _ _ A)|].
  intros s S. destruct (C s S) as [_ D]. now apply (pruned_git k _ _ D).
Qed.

(** ** What is remembered is of the repository that is there *)
Definition inv (s : repos) (w : world) : Prop :=
  forall k h, known k s = Some h -> pp_abs k = true ->
    h_born h <= length (w_hist w) /\ (repo_at (w_fs w) k -> ever_since k (h_born h) w).

Lemma later_app n w w' l : n <= length (w_hist w) -> w_hist w' = l ++ w_hist w -> later n w' = l ++ later n w.
Proof.
  intros L E. unfold later. rewrite E, app_length.
  replace (length l + length (w_hist w) - n) with (length l + (length (w_hist w) - n)) by lia.
  now rewrite firstn_app_2.
Qed.
Lemma keep k n w w' : not_remade k w w' -> n <= length (w_hist w) ->
  (repo_at (w_fs w) k -> ever_since k n w) ->
  n <= length (w_hist w') /\ (repo_at (w_fs w') k -> ever_since k n w').
Proof.
  intros (l & E & R) L K. split; [rewrite E, app_length; lia|]. intros H. destruct (R H) as [R1 R2].
  destruct (K R1) as [_ K2]. split; [exact H|]. intros s. rewrite (later_app n w w' l L E). intros I.
  apply in_app_or in I as [I|I]; [exact (R2 s I)|exact (K2 s I)].
Qed.
Lemma same_not_remade k w w' : same w w' -> not_remade k w w'.
Proof. intros S. now apply prunes_not_remade, prunes_same. Qed.
Lemma inv_same s w w' : same w w' -> inv s w -> inv s w'.
Proof. intros S I k h K A. destruct (I k h K A) as [J1 J2]. apply (keep k _ w w'); [now apply same_not_remade|exact J1|exact J2]. Qed.
Lemma inv_forget p s w : inv s w -> inv (forget p s) w.
Proof. intros I k h K A. rewrite known_forget in K. destruct (pp_eqb p k); [discriminate|]. now apply I. Qed.
Lemma inv_remember p q s w : inv s w -> (pp_abs p = true -> repo_at (w_fs w) p) -> inv (remember p (made q w) s) w.
Proof.
  intros I R k h K A. rewrite known_remember in K. destruct (pp_eqb p k) eqn:Q; [|now apply I].
  apply pp_eqb_eq in Q. subst k. injection K as <-. cbn. split; [lia|]. intros H. split; [exact H|].
  intros s0. unfold later. rewrite Nat.sub_diag; intros [].
Qed.

Section Calls.
Variable home_of : str -> res ppath.
Variable git_open : ppath -> M ppath.
Variable git_init : ppath -> M ppath.
Variable git_clone : str -> ppath -> M ppath.
Variable git_close : handle -> M unit.
Hypothesis QO : quietly git_open.
Hypothesis QC : quietly git_close.

(** [exists] says yes only of what is there, whatever fails. *)
Lemma exists_true p w w' b : p_exists p w = (Ok b, w') -> same w w' /\ (b = true -> there_b (w_fs w) (w_cwd w) p = true).
Proof.
  unfold p_exists, test, catch, bind, sys_stat, ask. destruct (w_fault w (w_tick w)) as [e|].
  - destruct (ignored e); cbn; intros H; [injection H as <- <-|discriminate]. split; [now repeat split|discriminate].
  - unfold lookup, there_b. destruct (walk (w_fs w) (w_cwd w) true p) as [q n|d x|e]; cbn.
    + intros H. injection H as <- <-. split; [now repeat split|auto].
    + intros H. injection H as <- <-. split; [now repeat split|discriminate].
    + destruct (match e with ENOENT | ENOTDIR | ELOOP => true | _ => false end); cbn; intros H; [injection H as <- <-|discriminate].
      split; [now repeat split|discriminate].
Qed.
Lemma exists_same p w : same w (snd (p_exists p w)).
Proof.
  unfold p_exists, test, catch, bind, sys_stat, ask. destruct (w_fault w (w_tick w)) as [e|]; cbn.
  - destruct (ignored e); now repeat split.
  - destruct (do r <- _ ; _) as [n|e]; cbn; [now repeat split|]. destruct (ignored e); now repeat split.
Qed.
Lemma getcwd_same w : same w (snd (sys_getcwd w)).
Proof. unfold sys_getcwd, ask. destruct (w_fault w (w_tick w)); now repeat split. Qed.
Lemma expanded_same p w : same w (snd (expanded home_of p w)).
Proof.
  unfold expanded, bind, lift. destruct (expanduser home_of p) as [q|e]; [|apply same_refl].
  unfold absolute. destruct (pp_abs q); [apply same_refl|]. unfold bind. pose proof (getcwd_same w) as S.
  destruct (sys_getcwd w) as [[c|e] w1]; exact S.
Qed.
Lemma abs_git fs cwd p : pp_abs p = true -> has_git fs cwd p -> repo_at fs p.
Proof. intros A (q & n & W). exists q, n. unfold walk in *. cbn [pp_abs] in *. now rewrite A in *. Qed.
Lemma working_abs_true : forall r w o w', working_dir_abs r w = (o, w') -> same w w' /\
  match o with Ok (Some wd) => pp_abs wd = true /\ repo_at (w_fs w) wd | _ => True end.
Proof.
  induction r as [|x r IH]; intros w o w' H; cbn [working_dir_abs] in H; unfold bind in H;
    match type of H with context [p_exists ?q w] => pose proof (exists_same q w) as S; destruct (p_exists q w) as [[b|e] w1] eqn:E end;
    cbn in S; try (injection H as <- <-; now split); apply exists_true in E as [_ T]; destruct b.
  1,3: injection H as <- <-; split; [exact S|]; split; [reflexivity|]; apply (abs_git _ (w_cwd w)); [reflexivity|now apply there_git, T].
  - injection H as <- <-. now split.
  - apply IH in H as [S2 H]. split; [eapply same_trans; eassumption|]. destruct o as [[wd|]|e]; [|exact Logic.I..].
    destruct (same_fs _ _ S) as [F _]. rewrite F in H. exact H.
Qed.
Lemma working_true p w o w' : sane p w -> working_dir home_of p w = (o, w') -> same w w' /\
  match o with Ok (Some wd) => pp_abs wd = true /\ repo_at (w_fs w) wd | _ => True end.
Proof.
  intros P H. unfold working_dir in H. destruct (pp_abs p) eqn:A; [now apply working_abs_true in H|].
  destruct P as [P|(P & G & D)]; [congruence|]. unfold bind in H.
  pose proof (exists_same (child p $".git") w) as S. destruct (p_exists (child p $".git") w) as [[b|e] w1] eqn:E; cbn in S.
  2: injection H as <- <-; now split.
  apply exists_true in E as [_ T].
  assert (K : expanded home_of p w1 = absolute p w1) by (unfold expanded, bind, lift; now rewrite plain_expand).
  pose proof (expanded_same p w1) as S2. destruct (expanded home_of p w1) as [[a|e] w2]; cbn in S2.
  2: injection H as <- <-; split; [eapply same_trans; eassumption|exact Logic.I].
  pose proof (same_trans _ _ _ S S2) as S3. destruct b.
  - injection H as <- <-. split; [exact S3|]. unfold absolute in K. rewrite A in K. unfold bind in K.
    assert (X : a = mkPP true (w_cwd w ++ pp_parts p)).
    { unfold sys_getcwd, ask in K. destruct (same_fs _ _ S) as [F1 F2]. destruct (w_fault w1 (w_tick w1)); [discriminate|].
      rewrite F1, F2 in K. destruct D as (xs & D). apply look_dir in D as (es & D). rewrite D in K.
      unfold ret, pp_join in K. rewrite A in K. now injection K. }
    subst a. split; [reflexivity|]. apply (abs_git _ (w_cwd w)); [reflexivity|].
    specialize (T eq_refl). apply there_git in T as (q & n & W). exists q, n. cbn [pp_abs pp_parts]. rewrite A in W.
    now rewrite <- app_assoc, (walk_absolute _ _ _ _ G D).
  - apply working_abs_true in H as [S4 H]. split; [eapply same_trans; eassumption|].
    destruct o as [[wd|]|e]; [|exact Logic.I..]. destruct (same_fs _ _ S3) as [F _]. rewrite F in H. exact H.
Qed.

Lemma repo_inv p s w r s' w' : sane p w -> inv s w -> repo home_of git_open p s w = (r, s', w') ->
  same w w' /\ inv s' w' /\
  match r with
  | Ok h => exists wd, pp_abs wd = true /\ known wd s' = Some h /\ repo_at (w_fs w') wd /\
              fst (working_dir home_of p w) = Ok (Some wd)
  | Err _ => s' = s
  end.
Proof.
  intros P I H. unfold repo in H. destruct (working_dir home_of p w) as [o w1] eqn:E. pose proof (working_true _ _ _ _ P E) as [S X].
  destruct o as [[wd|]|e].
  - destruct X as [X1 X2]. destruct (known wd s) as [h|] eqn:K.
    + injection H as <- <- <-. split; [exact S|]. split; [now apply (inv_same _ w)|]. exists wd. destruct (same_fs _ _ S) as [F _].
      rewrite F. exact (conj X1 (conj K (conj X2 eq_refl))).
    + pose proof (QO wd w1) as S2. destruct (git_open wd w1) as [[q|e] w2]; cbn in S2; pose proof (same_trans _ _ _ S S2) as S3;
        injection H as <- <- <-; (split; [exact S3|]); destruct (same_fs _ _ S3) as [F _].
      * split; [apply inv_remember; [now apply (inv_same _ w)|intros _; now rewrite F]|]. exists wd.
        rewrite known_remember, pp_refl, F. exact (conj X1 (conj eq_refl (conj X2 eq_refl))).
      * split; [now apply (inv_same _ w)|reflexivity].
  - injection H as <- <- <-. split; [exact S|]. split; [now apply (inv_same _ w)|reflexivity].
  - injection H as <- <- <-. split; [exact S|]. split; [now apply (inv_same _ w)|reflexivity].
Qed.

Lemma init_inv p remote s w r s' w' : sane p w -> inv s w ->
  init home_of git_open git_init git_clone p remote s w = (r, s', w') -> only_at p (good_end r) s' w w' -> inv s' w'.
Proof.
  intros P I H O2. unfold init in H.
  set (git := match remote with Some r => git_clone r p | None => git_init p end) in H.
  assert (MAKE : forall s1 w1, same w w1 -> inv s1 w1 ->
    (match git w1 with (Err e, w2) => (Err e, s1, w2) | (Ok q, w2) => (Ok (made q w2), remember p (made q w2) s1, w2) end) = (r, s', w') ->
    inv s' w').
  { intros s1 w1 S I1 K. assert (NR : forall k w2, not_remade k w w2 -> not_remade k w1 w2).
    { intros k w2 (l & L1 & L2). destruct S as (F & _ & F2 & _). exists l. now rewrite F, F2. }
    destruct (git w1) as [[q|e] w2]; injection K as <- <- <-; cbn [good_end] in *.
    - intros k h KN A. rewrite known_remember in KN. destruct (pp_eqb p k) eqn:Q.
      + apply pp_eqb_eq in Q. subst k. injection KN as <-. cbn. split; [lia|]. intros R. split; [exact R|].
        intros s0. unfold later. rewrite Nat.sub_diag; intros [].
      + destruct (I1 k h KN A) as [J1 J2]. apply (keep k _ w1); [|exact J1|exact J2]. apply NR, (O2 k h); [now rewrite known_remember, Q|exact A|].
        intros ->. now rewrite pp_refl in Q.
    - intros k h KN A. destruct (I1 k h KN A) as [J1 J2]. apply (keep k _ w1); [|exact J1|exact J2]. apply NR. now apply (O2 k h). }
  destruct (repo home_of git_open p s w) as [[r1 s1] w1] eqn:E. apply repo_inv in E as (S1 & I1 & X); [|assumption..].
  destruct r1 as [h|e].
  - pose proof (exists_same p w1) as S2. destruct (p_exists p w1) as [[b|e] w2]; cbn in S2; pose proof (inv_same _ _ _ S2 I1) as I2.
    + destruct b; [injection H as <- <- <-; exact I2|]. destruct (negb (pp_eqb (h_dir h) p)); [injection H as <- <- <-; exact I2|].
      destruct (known p s1); [|injection H as <- <- <-; exact I2]. eapply MAKE; [|apply inv_forget, I2|exact H].
      eapply same_trans; eassumption.
    + injection H as <- <- <-; exact I2.
  - destruct e; try (injection H as <- <- <-; exact I1). eapply MAKE; [|apply I1|exact H]. assumption.
Qed.

Lemma rmtree_inv ig dz p s w r s' w' : inv s w -> repo_rmtree git_close ig dz p s w = (r, s', w') ->
  inv s' w' /\ known p s' = None.
Proof.
  intros I H. unfold repo_rmtree in H.
  assert (K : forall s1 w1, inv s1 w1 -> inv s1 (snd (p_rmtree ig dz p w1))).
  { intros s1 w1 I1 k h KN A. destruct (I1 k h KN A) as [J1 J2]. apply (keep k _ w1); [|exact J1|exact J2]. apply prunes_not_remade, pr_p_rmtree. }
  destruct (known p s) as [h|] eqn:KN.
  - pose proof (QC h w) as S. assert (F : known p (forget p s) = None) by (now rewrite known_forget, pp_refl).
    destruct (git_close h w) as [[u|e] w1]; cbn in S; pose proof (inv_forget p _ _ (inv_same _ _ _ S I)) as I1.
    + specialize (K _ _ I1). destruct (p_rmtree ig dz p w1) as [r2 w2]. injection H as <- <- <-. exact (conj K F).
    + injection H as <- <- <-. exact (conj I1 F).
  - specialize (K _ _ I). destruct (p_rmtree ig dz p w) as [r2 w2]. injection H as <- <- <-. exact (conj K KN).
Qed.

Lemma went_inv s w : went home_of git_open git_init git_clone git_close s w -> inv s w.
Proof.
  induction 1 as [fs cwd fault|c s w ok s' w' W IH E F]; [intros k h K; discriminate|].
  destruct c as [p|p remote|p remote|ig dz p|m]; cbn [step fair] in *.
  - destruct (repo home_of git_open p s w) as [[r s1] w1] eqn:X. injection E as <- <- <-. destruct (repo_inv _ _ _ _ _ _ F IH X) as (_ & J & _). exact J.
  - destruct (init home_of git_open git_init git_clone p remote s w) as [[r s1] w1] eqn:X. injection E as <- <- <-.
    destruct F as [F1 F2]. eapply init_inv; eassumption.
  - unfold clone_from in E. destruct (init home_of git_open git_init git_clone (clone_path p remote) (Some remote) s w) as [[r s1] w1] eqn:X.
    destruct F as [F1 F2]. destruct r; injection E as <- <- <-; (eapply init_inv; [exact F1|exact IH|exact X|exact F2]).
  - destruct (repo_rmtree git_close ig dz p s w) as [[r s1] w1] eqn:X. injection E as <- <- <-. destruct (rmtree_inv _ _ _ _ _ _ _ _ IH X) as [J _]. exact J.
  - destruct (m w) as [r w1] eqn:X. injection E as <- <- <-. intros k h K A. destruct (IH k h K A) as [J1 J2].
    apply (keep k _ w); [|exact J1|exact J2]. exact (F k h K A).
Qed.

Lemma repo_current p s w r s' w' : went home_of git_open git_init git_clone git_close s w ->
  no_fault w -> good_fs (w_fs w) -> is_dir_at (w_fs w) (w_cwd w) -> plain p ->
  repo home_of git_open p s w = (r, s', w') ->
  unchanged w w' /\
  match r with
  | Ok h => exists wd, nearest (w_fs w) (w_cwd w) (absolute_of (w_cwd w) p) (Some wd) /\
              known wd s' = Some h /\ ever_since wd (h_born h) w'
  | Err _ => s' = s
  end.
Proof.
  intros W N G D P H. apply went_inv in W. assert (SA : sane p w) by (right; auto).
  pose proof (repo_inv _ _ _ _ _ _ SA W H) as (S & I & X). split; [exact S|].
  destruct r as [h|e]; [|exact X]. destruct X as (wd & A & K & R & E).
  destruct (working_dir_run home_of p w N G D P) as (o & w1 & _ & E' & Y). rewrite E' in E. cbn in E. injection E as ->.
  exists wd. split; [exact Y|]. split; [exact K|]. destruct (I wd h K A) as [_ J]. exact (J R).
Qed.
Lemma rmtree_forgets ig dz p s w r s' w' : repo_rmtree git_close ig dz p s w = (r, s', w') ->
  known p s' = None /\ forall k, k <> p -> known k s' = known k s.
Proof.
  intros H. unfold repo_rmtree in H. assert (F : forall k, k <> p -> known k (forget p s) = known k s).
  { intros k N. rewrite known_forget, pp_neq; auto. }
  destruct (known p s) as [h|] eqn:KN.
  - assert (F0 : known p (forget p s) = None) by (now rewrite known_forget, pp_refl).
    destruct (git_close h w) as [[u|e] w1]; [destruct (p_rmtree ig dz p w1)|]; injection H as <- <- <-; auto.
  - destruct (p_rmtree ig dz p w). injection H as <- <- <-. auto.
Qed.
(** Nothing is removed for want of an object, and the object is closed first. *)
Lemma rmtree_as_usual ig dz p s w : (forall h v, exists v', unchanged v v' /\ git_close h v = (Ok tt, v')) ->
  exists w0, unchanged w w0 /\
    fst (fst (repo_rmtree git_close ig dz p s w)) = fst (p_rmtree ig dz p w0) /\
    snd (repo_rmtree git_close ig dz p s w) = snd (p_rmtree ig dz p w0).
Proof.
  intros C. unfold repo_rmtree. destruct (known p s) as [h|].
  - destruct (C h w) as (w0 & S & E). exists w0. rewrite E. split; [exact S|]. now destruct (p_rmtree ig dz p w0).
  - exists w. split; [now repeat split|]. now destruct (p_rmtree ig dz p w).
Qed.
End Calls.
