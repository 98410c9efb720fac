(** * Lemmas on moving trees *)
From Coq Require Import String NArith ZArith Bool List Lia.
From Verif Require Import Model.Py Model.PurePath Model.Fs Model.PathOps Spec.FsSpec Spec.LoopSpec Spec.SwapSpec
  Proofs.PyLemmas Proofs.FsLemmas Proofs.RunLemmas Proofs.RmtreeProofs.
Import ListNotations.

Lemma below_compare (a b c : place) : below a c -> below b c -> below a b \/ below b a.
Proof.
  revert b c. induction a as [|x a IH]; intros b c A B; [left; apply below_nil|].
  destruct b as [|y b]; [right; apply below_nil|]. destruct A as (r & ->). destruct B as (s & B). cbn in B. injection B as <- B.
  destruct (IH b (a ++ r)) as [K|K]; [apply below_app|now exists s|left|right]; now apply below_cons.
Qed.
Lemma apart_app P Q r s : apart P Q -> apart (P ++ r) (Q ++ s).
Proof.
  intros [A B]. split; intro K.
  - destruct (below_compare P Q (Q ++ s)) as [X|X]; [|apply below_app|contradiction|contradiction].
    apply (below_trans _ (P ++ r)); [apply below_app|assumption].
  - destruct (below_compare P Q (P ++ r)) as [X|X]; [apply below_app| |contradiction|contradiction].
    apply (below_trans _ (Q ++ s)); [apply below_app|assumption].
Qed.
Lemma apart_sym P Q : apart P Q -> apart Q P.
Proof. unfold apart. tauto. Qed.
Lemma apart_app_l P Q r : apart P Q -> apart (P ++ r) Q.
Proof. intro A. rewrite <- (app_nil_r Q). now apply apart_app. Qed.
Lemma apart_app_r P Q r : apart P Q -> apart P (Q ++ r).
Proof. intro A. rewrite <- (app_nil_r P). now apply apart_app. Qed.
Lemma apart_snoc P (x y : str) : x <> y -> apart (P ++ [x]) (P ++ [y]).
Proof.
  intro N. split; intros (r & E); rewrite <- app_assoc in E; apply app_inv_head in E; cbn in E; injection E as E _; congruence.
Qed.
Lemma apart_below P Q q : apart P Q -> below P q -> ~ below Q q.
Proof. intros [A B] HP HQ. destruct (below_compare P Q q HP HQ); contradiction. Qed.

(** The tree at [P] went to [Q], nothing else changed. *)
Definition moves (fs : node) (P Q : place) (s : node) : Prop :=
  tree_at fs P s Q /\ (forall q, ~ below P q -> ~ below Q q -> look s q = look fs q) /\ (forall q, below P q -> look s q = None).

Lemma look_app n P r c : get n P = Some c -> look n (P ++ r) = look c r.
Proof. intro G. unfold look. now rewrite get_app, G. Qed.
Lemma look_some n P : look n P <> None -> exists c, get n P = Some c.
Proof. intro H. destruct (get n P) as [c|] eqn:E; [eauto|]. elim H. now apply look_none. Qed.

Lemma move_moves fs P d x n : P <> [] -> get fs P = Some n -> is_dir_at fs d -> look fs (d ++ [x]) = None -> ~ below P (d ++ [x]) ->
  apart P (d ++ [x]) /\ moves fs P (d ++ [x]) (put (del fs P) (d ++ [x]) n).
Proof.
  intros NP Gn D L NB. assert (Ap : apart P (d ++ [x])).
  { split; [assumption|]. intro B. apply (look_below_none _ _ _ L) in B. apply look_none in B. congruence. }
  split; [assumption|]. assert (Nd : ~ below P d).
  { intro B. apply NB. apply (below_trans _ d); [assumption|apply below_app]. }
  split; [|split].
  - intro r. unfold look. rewrite get_put_below, get_app, Gn; [reflexivity|].
    destruct (d ++ [x]) eqn:E; [destruct d; discriminate|]. rewrite <- E, removelast_last. destruct D as (xs & D). exists xs.
    apply look_dir. now rewrite look_del_other.
  - intros q A B. rewrite look_put_other by assumption. now apply look_del_other.
  - intros q A. rewrite look_put_other by now apply (apart_below P). now apply look_del_below.
Qed.

Lemma not_dotdot fs P n : good_fs fs -> P <> [] -> get fs P = Some n -> dot_end (path_of P) = false.
Proof.
  intros G NP H. unfold dot_end, path_of. cbn [pp_parts]. destruct P as [|y P]; [congruence|]. set (Q := y :: P) in *.
  destruct (str_eqb (last Q []) $"..") eqn:E; [|reflexivity]. apply str_eqb_eq in E.
  pose proof (good_names _ _ _ (proj1 G) H) as F. rewrite Forall_forall in F.
  assert (I : In (last Q []) Q) by (rewrite (app_removelast_last [] NP) at 2; apply in_or_app; right; now left).
  apply F in I. destruct I as (_ & _ & I & _). contradiction.
Qed.
Lemma not_dotdot_snoc d x : good_name x -> dot_end (path_of (d ++ [x])) = false.
Proof.
  intros (_ & _ & N & _). unfold dot_end, path_of. cbn [pp_parts]. destruct (d ++ [x]) eqn:E; [destruct d; discriminate|]. rewrite <- E, last_last.
  now apply str_eqb_neq.
Qed.

Lemma walk_of_missing fs cwd follow d x : good_fs fs -> is_dir_at fs d -> good_name x -> look fs (d ++ [x]) = None ->
  walk fs cwd follow (path_of (d ++ [x])) = Missing d x.
Proof.
  intros G (xs & D) X L. apply look_dir in D as (es & D). apply look_none in L. rewrite get_snoc, D in L.
  unfold walk, path_of. cbn [pp_abs pp_parts]. apply (walk_missing fs follow max_links d [] x xs es); [|assumption|assumption|assumption].
  now apply (good_names _ fs _ (proj1 G) D).
Qed.

Definition failed {A} (w : world) (r : res A) (w' : world) : Prop := exists e, r = Err e /\ same w w' /\ w_fault w (w_tick w) = Some e.
Lemma sys_step {A} (f : node -> place -> res (A * node)) w a fs' : f (w_fs w) (w_cwd w) = Ok (a, fs') -> forall r w', sys f w = (r, w') ->
  failed w r w' \/ (r = Ok a /\ changed fs' w w').
Proof.
  intros E r w' H. apply sys_inv in H as [(e & -> & S & [K|K])|(b & fs2 & -> & K & C)]; [congruence| |].
  - left. now exists e.
  - right. rewrite E in K. injection K as -> ->. now split.
Qed.

Lemma rename_step w P d x n : good_fs (w_fs w) -> P <> [] -> get (w_fs w) P = Some n -> is_dir_at (w_fs w) d -> good_name x ->
  look (w_fs w) (d ++ [x]) = None -> ~ below P (d ++ [x]) -> forall r w', sys_rename (path_of P) (path_of (d ++ [x])) w = (r, w') ->
  failed w r w' \/ (r = Ok tt /\ changed (put (del (w_fs w) P) (d ++ [x]) n) w w').
Proof.
  intros G NP Gn D X L NB. unfold sys_rename. apply sys_step.
  rewrite (not_dotdot _ _ _ G NP Gn), (not_dotdot_snoc d x X). cbn [orb]. unfold lookup. rewrite (walk_of _ _ _ _ _ G Gn) by discriminate.
  cbn [rbind]. rewrite (walk_of_missing _ _ _ _ _ G D X L). destruct P as [|y P]; [congruence|].
  destruct (is_prefix (y :: P) (d ++ [x])) eqn:E; [|reflexivity]. now apply is_prefix_spec in E.
Qed.
Lemma good_move fs P d x n : good_fs fs -> get fs P = Some n -> is_dir_at fs d -> good_name x -> good_fs (put (del fs P) (d ++ [x]) n).
Proof.
  intros G Gn (xs & D) X. apply look_dir in D as (es & D). apply good_fs_put.
  - now apply good_fs_del.
  - now destruct d.
  - apply Forall_app. split; [now apply (good_names _ fs _ (proj1 G) D)|now constructor].
  - now apply (good_get _ _ _ (proj1 G) Gn).
Qed.

Lemma mkdir_step w d x : good_fs (w_fs w) -> is_dir_at (w_fs w) d -> good_name x -> look (w_fs w) (d ++ [x]) = None ->
  forall r w', sys_mkdir (path_of (d ++ [x])) w = (r, w') ->
  failed w r w' \/ (r = Ok tt /\ changed (put (w_fs w) (d ++ [x]) (Dir [] [])) w w').
Proof. intros G D X L. unfold sys_mkdir. apply sys_step. now rewrite (walk_of_missing _ _ _ _ _ G D X L). Qed.
Lemma mkdir_exists w d n r w' : good_fs (w_fs w) -> get (w_fs w) d = Some n -> sys_mkdir (path_of d) w = (r, w') ->
  same w w' /\ exists e, r = Err e /\ (e = OSErr EEXIST \/ w_fault w (w_tick w) = Some e).
Proof.
  intros G D H. apply sys_inv in H as [(e & -> & S & K)|(b & fs2 & -> & K & C)].
  - split; [assumption|]. exists e. split; [reflexivity|]. destruct K as [K|K]; [|now right].
    rewrite (walk_of _ _ _ _ _ G D) in K by discriminate. injection K as <-. now left.
  - rewrite (walk_of _ _ _ _ _ G D) in K by discriminate. discriminate.
Qed.

Lemma rmdir_step w P xs : good_fs (w_fs w) -> P <> [] -> get (w_fs w) P = Some (Dir xs []) -> forall r w', sys_rmdir (path_of P) w = (r, w') ->
  failed w r w' \/ (r = Ok tt /\ changed (del (w_fs w) P) w w').
Proof.
  intros G NP H. unfold sys_rmdir. apply sys_step. pose proof (not_dotdot _ _ _ G NP H) as E. unfold dot_end, path_of in E. cbn [pp_parts] in E.
  unfold path_of at 1. cbn [pp_parts]. destruct P as [|y P']; [congruence|]. rewrite E. unfold lookup.
  rewrite (walk_of _ _ _ _ _ G H) by discriminate. reflexivity.
Qed.
Lemma good_put_new fs d x n : good_fs fs -> is_dir_at fs d -> good_name x -> good n -> good_fs (put fs (d ++ [x]) n).
Proof.
  intros G (xs & D) X Gn. apply look_dir in D as (es & D). apply good_fs_put; [assumption|now destruct d| |assumption].
  apply Forall_app. split; [now apply (good_names _ fs _ (proj1 G) D)|now constructor].
Qed.
Lemma get_put_new fs d x n : is_dir_at fs d -> get (put fs (d ++ [x]) n) (d ++ [x]) = Some n.
Proof.
  intros (xs & D). apply look_dir in D as (es & D). rewrite <- (app_nil_r (d ++ [x])) at 2. rewrite get_put_below; [reflexivity|].
  destruct (d ++ [x]) eqn:E; [destruct d; discriminate|]. rewrite <- E, removelast_last. eauto.
Qed.

(** An empty directory, seen from outside. *)
Lemma empty_dir fs P xs : good_fs fs -> look fs P = Some (ADir xs) -> (forall x, good_name x -> look fs (P ++ [x]) = None) -> get fs P = Some (Dir xs []).
Proof.
  intros G L E. apply look_dir in L as (es & L). destruct es as [|[x c] es]; [assumption|]. exfalso.
  pose proof (good_get _ _ _ (proj1 G) L) as GD. inversion GD as [| |? ? _ GN _]; subst. specialize (E x (GN x (or_introl eq_refl))).
  apply look_none in E. rewrite get_snoc, L, entry_cons, str_eqb_refl in E. discriminate.
Qed.
