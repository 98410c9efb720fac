(** Lemmas on PurePosixPath. *)
From Coq Require Import String NArith ZArith Bool List Lia.
From Verif Require Import Model.Py Model.PurePath Proofs.PyLemmas.
Import ListNotations.

Notation slash := (chr "/").

Lemma split_app_gen c a b : split c (a ++ c :: b) = split c a ++ split c b.
Proof.
  induction a as [|x a IH]; simpl.
  - now rewrite N.eqb_refl.
  - rewrite IH. destruct (N.eqb x c); [reflexivity|].
    pose proof (split_nonempty c a). destruct (split c a); [congruence|reflexivity].
Qed.

Definition comps (s : str) : list str := filter real_part (split slash s).

Lemma comps_app a b : comps (a ++ slash :: b) = comps a ++ comps b.
Proof. unfold comps. now rewrite split_app_gen, filter_app. Qed.

Definition norm_part (s : str) : Prop := real_part s = true /\ ~ In slash s.
Definition norm_path (p : ppath) : Prop := Forall norm_part (pp_parts p).

Lemma comps_norm s : Forall norm_part (comps s).
Proof.
  apply Forall_forall. intros x H. unfold comps in H. apply filter_In in H as [H1 H2].
  split; [assumption|]. eapply split_parts; eassumption.
Qed.

Lemma comps_one s : norm_part s -> comps s = [s].
Proof. intros [H1 H2]. unfold comps. rewrite split_none by assumption. simpl. now rewrite H1. Qed.

Lemma norm_parse s : norm_path (pp_parse s).
Proof. apply comps_norm. Qed.

Lemma norm_join a b : norm_path a -> norm_path b -> norm_path (pp_join a b).
Proof.
  unfold norm_path, pp_join. intros. destruct (pp_abs b); [assumption|].
  simpl. apply Forall_app. auto.
Qed.

Lemma norm_part_nonempty s : norm_part s -> s <> [].
Proof. intros [H _] ->. discriminate. Qed.

Lemma startswith_slash s : startswith s $"/" = match s with c :: _ => N.eqb slash c | [] => false end.
Proof. unfold startswith. destruct s; simpl; [reflexivity|]. apply andb_true_r. Qed.

Lemma norm_part_not_slash s r : norm_part s -> startswith (s ++ r) $"/" = false.
Proof.
  intros [H1 H2]. rewrite startswith_slash. destruct s as [|c s]; [discriminate|].
  cbn [app]. apply N.eqb_neq. intros <-. apply H2. now left.
Qed.

Lemma comps_join l : Forall norm_part l -> comps (join [slash] l) = l.
Proof.
  induction l as [|x l IH]; intro H; [reflexivity|].
  inversion H as [|? ? H1 H2]; subst. destruct l as [|y l].
  - simpl. now apply comps_one.
  - rewrite join_cons. change ([slash] ++ join [slash] (y :: l)) with (slash :: join [slash] (y :: l)).
    rewrite comps_app, comps_one by assumption. rewrite IH by assumption. reflexivity.
Qed.

Lemma join_starts l : Forall norm_part l -> startswith (join [slash] l) $"/" = false.
Proof.
  intro H. destruct l as [|x l]; [reflexivity|]. inversion H; subst.
  destruct l as [|y l]; [rewrite <- (app_nil_r (join [slash] [x]))|rewrite join_cons];
    now apply norm_part_not_slash.
Qed.

Lemma comps_join' l : Forall norm_part l -> comps (join $"/" l) = l.
Proof. exact (comps_join l). Qed.
Lemma join_starts' l : Forall norm_part l -> startswith (join $"/" l) $"/" = false.
Proof. exact (join_starts l). Qed.

Lemma pp_parse_str p : norm_path p -> pp_parse (pp_str p) = p.
Proof.
  destruct p as [a l]. unfold norm_path. cbn [pp_parts]. intro H. unfold pp_str, pp_parse. cbn [pp_abs pp_parts].
  destruct a.
  - change $"/" with [slash]. cbn [app].
    fold (comps (slash :: join [slash] l)).
    pose proof (comps_app [] (join [slash] l)) as E. cbn [app] in E.
    rewrite E, comps_join by assumption. reflexivity.
  - destruct l as [|x l]; [reflexivity|].
    fold (comps (join $"/" (x :: l))).
    rewrite join_starts', comps_join' by assumption. reflexivity.
Qed.

Lemma pp_parse_part s : norm_part s -> pp_parse s = mkPP false [s].
Proof.
  intro H. unfold pp_parse. fold (comps s). rewrite comps_one by assumption.
  rewrite <- (app_nil_r s) at 1. now rewrite norm_part_not_slash.
Qed.

Lemma fold_join_parts l a acc : Forall norm_part l ->
  fold_left (fun acc s => pp_join acc (pp_parse s)) l (mkPP a acc) = mkPP a (acc ++ l).
Proof.
  revert acc. induction l as [|x l IH]; intros acc H; simpl; [now rewrite app_nil_r|].
  inversion H; subst. rewrite pp_parse_part by assumption. unfold pp_join. simpl.
  rewrite IH by assumption. now rewrite <- app_assoc.
Qed.

Lemma pp_of_list_parts p : norm_path p -> pp_of_list (parts p) = p.
Proof.
  destruct p as [a l]. unfold norm_path, parts, pp_of_list. cbn [pp_abs pp_parts]. intro H.
  destruct a.
  - cbn [fold_left]. change (pp_join (mkPP false []) (pp_parse $"/")) with (mkPP true []).
    now rewrite fold_join_parts.
  - now rewrite fold_join_parts.
Qed.

Lemma pp_of_list_rel l : Forall norm_part l -> pp_of_list l = mkPP false l.
Proof. intro H. apply (pp_of_list_parts (mkPP false l) H). Qed.

Lemma parse_cat a b :
  pp_parse (a ++ $"/" ++ b) = mkPP (startswith (a ++ $"/" ++ b) $"/") (comps a ++ comps b).
Proof.
  unfold pp_parse. change ($"/" ++ b) with (slash :: b).
  fold (comps (a ++ slash :: b)). now rewrite comps_app.
Qed.
