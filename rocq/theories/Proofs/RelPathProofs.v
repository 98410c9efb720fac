(** * Proofs about relative paths *)
From Coq Require Import String NArith ZArith Bool List Lia.
From Verif Require Import Model.Py Model.PurePath Model.RelPath Spec.RelPathSpec Proofs.PyLemmas Proofs.PathLemmas.
Import ListNotations.

Lemma is_path_norm p : is_path p -> norm_path p.
Proof.
  intro H. apply Forall_forall. intros c Hc. destruct (H c Hc) as (A & B & C). split; [|assumption].
  unfold real_part. apply negb_true_iff, orb_false_iff. split; now apply str_eqb_neq.
Qed.

Lemma cp_left a b : exists r, a = common_prefix a b ++ r.
Proof.
  revert b. induction a as [|x a IH]; intros [|y b]; cbn [common_prefix]; try (eexists; reflexivity).
  destruct (str_eqb x y) eqn:E; [|eexists; reflexivity].
  destruct (IH b) as (r & R). exists r. cbn [app]. now rewrite <- R.
Qed.
Lemma cp_right a b : exists r, b = common_prefix a b ++ r.
Proof.
  revert b. induction a as [|x a IH]; intros [|y b]; cbn [common_prefix]; try (eexists; reflexivity).
  destruct (str_eqb x y) eqn:E; [|eexists; reflexivity]. apply str_eqb_eq in E. subst y.
  destruct (IH b) as (r & R). exists r. cbn [app]. now rewrite <- R.
Qed.
(** nothing longer is common *)
Lemma cp_within a b : (exists r, a = b ++ r) -> common_prefix a b = b.
Proof.
  intros (r & ->). induction b as [|x b IH]; [now destruct r|]. cbn [app common_prefix]. now rewrite str_eqb_refl, IH.
Qed.

Lemma str_abs p : norm_path p -> startswith (pp_str p) $"/" = pp_abs p.
Proof. intro H. change (pp_abs (pp_parse (pp_str p)) = pp_abs p). now rewrite pp_parse_str. Qed.
Lemma str_comps p : norm_path p -> filter real_part (split (chr "/") (pp_str p)) = pp_parts p.
Proof. intro H. change (pp_parts (pp_parse (pp_str p)) = pp_parts p). now rewrite pp_parse_str. Qed.

Lemma commonpath_eq p q : norm_path p -> norm_path q -> commonpath p q =
  if Bool.eqb (pp_abs p) (pp_abs q) then Ok (mkPP (pp_abs p) (common_prefix (pp_parts p) (pp_parts q))) else Err ValueError.
Proof.
  intros Hp Hq. unfold commonpath, os_commonpath. rewrite !str_abs, !str_comps by assumption.
  destruct (Bool.eqb _ _); [|reflexivity]. cbn [rbind]. f_equal.
  assert (F : Forall norm_part (common_prefix (pp_parts p) (pp_parts q))).
  { destruct (cp_left (pp_parts p) (pp_parts q)) as (r & R). unfold norm_path in Hp. rewrite R in Hp.
    now apply Forall_app in Hp. }
  unfold pp_parse. fold (comps ((if pp_abs p then $"/" else []) ++ join $"/" (common_prefix (pp_parts p) (pp_parts q)))).
  destruct (pp_abs p).
  - change $"/" with [slash]. cbn [app].
    pose proof (comps_app [] (join [slash] (common_prefix (pp_parts p) (pp_parts q)))) as E. cbn [app] in E.
    rewrite E, comps_join by assumption. reflexivity.
  - cbn [app]. now rewrite join_starts', comps_join'.
Qed.

Lemma prefixb_app (a r : list str) : prefixb str_eqb a (a ++ r) = true.
Proof. apply (prefixb_spec str_eqb str_eqb_eq). now exists r. Qed.

Lemma relative_to_app a b r : relative_to (mkPP a (b ++ r)) (mkPP a b) = Ok (mkPP false r).
Proof. unfold relative_to. cbn [pp_abs pp_parts]. now rewrite eqb_reflx, prefixb_app, skipn_app_exact. Qed.

Definition ups (l : list str) : list str := map (fun _ => $"..") l.

Lemma ups_norm l : Forall norm_part (ups l).
Proof.
  apply Forall_forall. intros x H. apply in_map_iff in H as (y & <- & _). split; [reflexivity|].
  cbn. intuition discriminate.
Qed.

(** The result in closed form. *)
Lemma relative_path_eq p q b x y : norm_path p -> norm_path q -> pp_abs p = pp_abs q ->
  b = common_prefix (pp_parts p) (pp_parts q) -> pp_parts p = b ++ x -> pp_parts q = b ++ y ->
  relative_path_from p q = Ok (mkPP false (ups (removelast y) ++ x)).
Proof.
  intros Hp Hq K Hb Hx Hy. unfold relative_path_from. rewrite commonpath_eq by assumption.
  rewrite <- Hb, K, eqb_reflx. cbn [rbind]. unfold to_relative.
  destruct q as [aq lq], p as [ap lp]. cbn [pp_abs pp_parts] in *. subst ap lq lp.
  rewrite relative_to_app. cbn [rbind parts pp_abs pp_parts].
  rewrite pp_of_list_rel by apply ups_norm. rewrite relative_to_app. reflexivity.
Qed.

Lemma follow_app p a b : follow p (a ++ b) = follow (follow p a) b.
Proof. apply fold_left_app. Qed.

Lemma follow_down u d l : ~ In $".." l -> follow (u, d) l = (u, d ++ l).
Proof.
  revert d. induction l as [|c l IH]; intros d H; [cbn; now rewrite app_nil_r|].
  cbn [follow fold_left step]. destruct (str_eqb c $"..") eqn:E; [apply str_eqb_eq in E; subst; exfalso; apply H; now left|].
  change (follow (u, d ++ [c]) l = (u, d ++ c :: l)). rewrite IH by (intro; apply H; now right). now rewrite <- app_assoc.
Qed.

Lemma follow_up u d l : follow (u, d ++ l) (ups l) = (u, d).
Proof.
  revert d. induction l as [|c l IH] using rev_ind; intro d; [cbn; now rewrite app_nil_r|].
  unfold ups. rewrite map_app. cbn [map].
  assert (E : ups l ++ [$".."] = $".." :: ups l).
  { clear. induction l as [|x l IH]; [reflexivity|]. cbn [ups map app] in *. unfold ups in IH. now rewrite IH. }
  fold (ups l). rewrite E. cbn [follow fold_left]. rewrite app_assoc.
  assert (S : step (u, (d ++ l) ++ [c]) $".." = (u, d ++ l)).
  { unfold step. rewrite str_eqb_refl. destruct ((d ++ l) ++ [c]) eqn:Z.
    - apply app_eq_nil in Z as [_ Z]. discriminate.
    - rewrite <- Z. now rewrite removelast_last. }
  rewrite S. apply IH.
Qed.

Lemma follow_there_back s l : ~ In $".." l -> follow s (l ++ ups l) = s.
Proof. intro H. destruct s as [u d]. rewrite follow_app, follow_down by assumption. apply follow_up. Qed.

Lemma relative_path p q : is_path p -> is_path q -> pp_abs p = pp_abs q -> no_dotdot q ->
  exists r, relative_path_from p q = Ok r /\ pp_abs r = false /\
    forall d, counts_from p q d -> follow here (d ++ pp_parts r) = follow here (pp_parts p).
Proof.
  intros Hp Hq K N. apply is_path_norm in Hp, Hq.
  destruct (cp_left (pp_parts p) (pp_parts q)) as (x & X). destruct (cp_right (pp_parts p) (pp_parts q)) as (y & Y).
  rewrite (relative_path_eq p q _ x y Hp Hq K eq_refl X Y). eexists. split; [reflexivity|]. split; [reflexivity|].
  cbn [pp_parts]. remember (common_prefix (pp_parts p) (pp_parts q)) as b eqn:Hb. intros d [[W ->]|[W (n & D)]].
  - pose proof (cp_within _ _ W) as C. rewrite <- Hb in C. rewrite C in X, Y.
    assert (y = []) as ->. { rewrite <- (app_nil_r (pp_parts q)) in Y at 1. now apply app_inv_head in Y. }
    cbn [removelast ups map app]. now rewrite <- X.
  - destruct y as [|y0 y] using rev_ind.
    + exfalso. apply W. rewrite app_nil_r in Y. exists x. rewrite Y. exact X.
    + clear IHy. rewrite removelast_last. rewrite Y, app_assoc in D. apply app_inj_tail in D as [<- _].
      rewrite X. rewrite <- app_assoc, (app_assoc y). rewrite follow_app, follow_app, follow_there_back.
      * now rewrite <- follow_app.
      * intro H. unfold no_dotdot in N. apply N. rewrite Y. apply in_or_app. right. apply in_or_app. now left.
Qed.

Lemma relative_path_plain p q : is_path p -> is_path q -> pp_abs p = pp_abs q -> no_dotdot p -> no_dotdot q ->
  exists r, relative_path_from p q = Ok r /\ pp_abs r = false /\
    forall d, counts_from p q d -> follow here (d ++ pp_parts r) = (0%nat, pp_parts p).
Proof.
  intros Hp Hq K Np Nq. destruct (relative_path p q Hp Hq K Nq) as (r & E & A & F). exists r.
  split; [exact E|]. split; [exact A|]. intros d D. rewrite (F d D). unfold here. now rewrite follow_down.
Qed.

Lemma relative_path_to_plain p q : is_path p -> is_path q -> pp_abs p = pp_abs q -> no_dotdot p -> no_dotdot q ->
  exists r, relative_path_to q p = Ok r /\ pp_abs r = false /\
    forall d, counts_from p q d -> follow here (d ++ pp_parts r) = (0%nat, pp_parts p).
Proof. exact (relative_path_plain p q). Qed.

Lemma relative_path_kinds p q : is_path p -> is_path q -> pp_abs p <> pp_abs q ->
  relative_path_from p q = Err ValueError.
Proof.
  intros Hp Hq K. unfold relative_path_from. rewrite commonpath_eq by now apply is_path_norm.
  destruct (Bool.eqb _ _) eqn:E; [apply eqb_prop in E; contradiction|reflexivity].
Qed.

(** There is always a place to count from, and just one. *)
Lemma counts_unique p q d d' : counts_from p q d -> counts_from p q d' -> d = d'.
Proof.
  intros [[W ->]|[W (n & D)]] [[W' ->]|[W' (n' & D')]]; try contradiction; try reflexivity.
  rewrite D in D'. now apply app_inj_tail in D' as [-> _].
Qed.
Lemma counts_exists p q : exists d, counts_from p q d.
Proof.
  destruct (prefixb str_eqb (pp_parts q) (pp_parts p)) eqn:E.
  - apply (prefixb_spec str_eqb str_eqb_eq) in E. exists (pp_parts q). now left.
  - assert (W : ~ within p q) by (intro W; apply (prefixb_spec str_eqb str_eqb_eq) in W; congruence).
    exists (removelast (pp_parts q)). right. split; [exact W|].
    destruct (pp_parts q) as [|n l] eqn:Q using rev_ind.
    + exfalso. apply W. exists (pp_parts p). now rewrite Q.
    + exists n. now rewrite removelast_last.
Qed.
Lemma counts_once p q : exists d, counts_from p q d /\ forall d', counts_from p q d' -> d = d'.
Proof. destruct (counts_exists p q) as (d & H). exists d. split; [exact H|]. intros d' H'. eapply counts_unique; eassumption. Qed.
