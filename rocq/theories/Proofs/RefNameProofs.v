(** * Lemmas on the name of what is checked out *)
From Coq Require Import String NArith ZArith Bool List Lia.
From Verif Require Import Model.Py Model.RefName Spec.RefNameSpec Proofs.PyLemmas.
Import ListNotations.

Lemma get_ref_spec refs n r : get_ref refs n = Ok r -> In r refs /\ r_name r = n.
Proof.
  unfold get_ref. destruct (find _ refs) as [q|] eqn:F; [|discriminate]. intros [= <-].
  apply find_some in F. destruct F as [F1 F2]. split; [exact F1|]. now apply str_eqb_eq in F2.
Qed.
Lemma get_ref_in refs r : names_differ refs -> In r refs -> get_ref refs (r_name r) = Ok r.
Proof.
  intros D I. unfold get_ref. destruct (find _ refs) as [q|] eqn:F.
  - apply find_some in F. destruct F as [F1 F2]. apply str_eqb_eq in F2. f_equal. now apply D.
  - apply (find_none _ _ F) in I. rewrite str_eqb_refl in I. discriminate.
Qed.
Lemma get_ref_none refs n : (forall r, In r refs -> r_name r <> n) -> get_ref refs n = Err ValueError.
Proof.
  intros H. unfold get_ref. destruct (find _ refs) as [q|] eqn:F; [|reflexivity].
  apply find_some in F. destruct F as [F1 F2]. apply str_eqb_eq in F2. now elim (H q F1).
Qed.

Lemma words_from_plain a : (forall c, In c a -> is_space c = false) -> words_from a = (a, []).
Proof.
  induction a as [|x a IH]; intros H; [reflexivity|]. cbn [words_from].
  rewrite IH by (intros; apply H; now right). now rewrite (H x (or_introl eq_refl)).
Qed.
Lemma words_from_app a b w l : (forall c, In c a -> is_space c = false) -> words_from b = (w, l) -> words_from (a ++ b) = (a ++ w, l).
Proof.
  intros H E. induction a as [|x a IH]; [exact E|]. cbn [words_from app].
  rewrite IH by (intros; apply H; now right). now rewrite (H x (or_introl eq_refl)).
Qed.
Lemma words_two a b : hash_ok a -> b <> [] -> (forall c, In c b -> is_space c = false) -> words (name_rev_line a b) = [a; b].
Proof.
  intros [Na Ha] Nb Hb. unfold words, name_rev_line.
  assert (E : words_from ($" " ++ b) = ([], [b])).
  { change ($" " ++ b) with (32%N :: b). cbn [words_from]. rewrite (words_from_plain b Hb).
    destruct b; [easy|reflexivity]. }
  rewrite (words_from_app a _ _ _ Ha E), app_nil_r. destruct a; [easy|reflexivity].
Qed.
Lemma cut_app (c : N) a b : ~ In c a -> cut c (a ++ c :: b) = (a, b).
Proof.
  induction a as [|x a IH]; intros H; cbn.
  - now rewrite N.eqb_refl.
  - destruct (N.eqb_spec x c) as [->|]; [elim H; now left|]. rewrite IH; [reflexivity|]. intro; apply H; now right.
Qed.
Lemma cut_some (c : N) s : In c s -> exists a b, s = a ++ c :: b /\ ~ In c a.
Proof.
  induction s as [|x s IH]; [easy|]. intros H. destruct (N.eq_dec x c) as [->|Ne].
  - exists [], s. split; [reflexivity|easy].
  - destruct H as [->|H]; [easy|]. destruct (IH H) as (a & b & -> & Na). exists (x :: a), b. split; [reflexivity|].
    intros [->|I]; [easy|now apply Na].
Qed.

Lemma rev_name_ok r : ref_ok r -> rev_name r <> [] /\ (forall c, In c (rev_name r) -> is_space c = false).
Proof.
  intros (Ne & H & _). unfold rev_name, rev_path. split.
  - intro E. apply app_eq_nil in E. destruct E as [E _]. destruct (r_kind r); [now rewrite E in Ne|discriminate|discriminate].
  - intros c I. apply in_app_or in I. destruct I as [I|I].
    + assert (P : forall s, (forallb (fun c => negb (is_space c)) s = true) -> In c (s ++ r_name r) -> is_space c = false).
      { intros s F J. apply in_app_or in J. destruct J as [J|J]; [|now apply H].
        rewrite forallb_forall in F. specialize (F c J). now destruct (is_space c). }
      destruct (r_kind r); [now apply H|apply (P $"remotes/"); [reflexivity|exact I]|apply (P $"tags/"); [reflexivity|exact I]].
    + destruct (r_annotated r); [|destruct I]. destruct I as [<-|[<-|[]]]; reflexivity.
Qed.

Theorem tag_name h r branch : hash_ok h -> ref_ok r -> r_kind r = Tag ->
  current_ref_name true (name_rev_line h (rev_name r)) branch = Ok (Some (r_name r ++ (if r_annotated r then $"^0" else []))).
Proof.
  intros Hh Hr K. destruct (rev_name_ok r Hr) as [N1 N2]. unfold current_ref_name.
  rewrite (words_two h (rev_name r) Hh N1 N2).
  assert (E : rev_name r = $"tags" ++ chr "/" :: (r_name r ++ (if r_annotated r then $"^0" else [])))
    by (unfold rev_name, rev_path; rewrite K; reflexivity).
  assert (S : has (chr "/") (rev_name r) = true) by (apply has_In; rewrite E; apply in_or_app; right; now left).
  rewrite S, E, cut_app by (vm_compute; intuition discriminate). rewrite str_eqb_refl. reflexivity.
Qed.
Theorem remote_name h r branch : hash_ok h -> ref_ok r -> r_kind r = Remote ->
  current_ref_name true (name_rev_line h (rev_name r)) branch = Ok (Some ($"remotes/" ++ r_name r)).
Proof.
  intros Hh Hr K. destruct (rev_name_ok r Hr) as [N1 N2]. unfold current_ref_name.
  rewrite (words_two h (rev_name r) Hh N1 N2). destruct Hr as (Ne & Hc & Ha).
  assert (A : r_annotated r = false) by (destruct (r_annotated r); [specialize (Ha eq_refl); congruence|reflexivity]).
  assert (E : rev_name r = $"remotes" ++ chr "/" :: r_name r)
    by (unfold rev_name, rev_path; rewrite K, A, app_nil_r; reflexivity).
  assert (S : has (chr "/") (rev_name r) = true) by (apply has_In; rewrite E; apply in_or_app; right; now left).
  rewrite S, E, cut_app by (vm_compute; intuition discriminate).
  replace (str_eqb $"remotes" $"tags") with false by reflexivity.
  assert (T : has (chr "~") (r_name r) = false) by (apply not_true_is_false; intro T; apply has_In in T; destruct (Hc _ T) as (_ & T1 & _); now apply T1).
  rewrite T. reflexivity.
Qed.
Theorem head_name h r branch : hash_ok h -> ref_ok r -> r_kind r = Head ->
  (forall t, r_name r <> $"tags/" ++ t) ->
  current_ref_name true (name_rev_line h (rev_name r)) branch = Ok (if has (chr "/") (r_name r) then Some (r_name r) else None).
Proof.
  intros Hh Hr K Nt. destruct (rev_name_ok r Hr) as [N1 N2]. unfold current_ref_name.
  rewrite (words_two h (rev_name r) Hh N1 N2). destruct Hr as (Ne & Hc & Ha).
  assert (A : r_annotated r = false) by (destruct (r_annotated r); [specialize (Ha eq_refl); congruence|reflexivity]).
  assert (E : rev_name r = r_name r) by (unfold rev_name, rev_path; now rewrite K, A, app_nil_r). rewrite E.
  destruct (has (chr "/") (r_name r)) eqn:S; [|reflexivity].
  apply has_In in S. destruct (cut_some _ _ S) as (a & b & Q & Na). rewrite Q, cut_app by exact Na.
  destruct (str_eqb a $"tags") eqn:T.
  - apply str_eqb_eq in T. subst a. elim (Nt b). exact Q.
  - assert (T1 : has (chr "~") b = false).
    { apply not_true_is_false. intro T1. apply has_In in T1. destruct (Hc (chr "~")) as (_ & T2 & _); [rewrite Q; apply in_or_app; right; now right|]. now apply T2. }
    now rewrite T1.
Qed.

(** What is given names a reference to the commit. *)
Theorem name_leads h refs r branch n : hash_ok h -> names_differ refs -> In r refs -> ref_ok r ->
  r_kind r <> Remote -> r_annotated r = false -> (r_kind r = Head -> forall t, r_name r <> $"tags/" ++ t) ->
  current_ref_name true (name_rev_line h (rev_name r)) branch = Ok (Some n) ->
  exists q, get_ref refs n = Ok q /\ r_commit q = r_commit r.
Proof.
  intros Hh D I Hr K A T E. exists r. split; [|reflexivity].
  destruct (r_kind r) eqn:Kr; [|easy|].
  - rewrite head_name in E by auto. destruct (has _ _); [|discriminate]. injection E as <-. now apply get_ref_in.
  - rewrite tag_name in E by auto. rewrite A, app_nil_r in E. injection E as <-. now apply get_ref_in.
Qed.

(** Never with an annotated tag or one of a remote. *)
Theorem annotated_lost h refs r branch n : hash_ok h -> In r refs -> (forall q, In q refs -> ref_ok q) -> r_annotated r = true ->
  current_ref_name true (name_rev_line h (rev_name r)) branch = Ok (Some n) -> get_ref refs n = Err ValueError.
Proof.
  intros Hh I Ho A E. pose proof (Ho r I) as Hr. destruct Hr as (Ne & Hc & Ha).
  rewrite tag_name in E by (auto; now apply Ho). rewrite A in E. injection E as <-.
  apply get_ref_none. intros q Q F. destruct (Ho q Q) as (_ & Hq & _). destruct (Hq (chr "^")) as (_ & _ & B); [|now apply B].
  rewrite F. apply in_or_app. right. now left.
Qed.

(** Behind a tag the name counts back from it. *)
Theorem behind_tag h t n branch : hash_ok h -> (forall c, In c (t ++ $"~" ++ n) -> is_space c = false) ->
  current_ref_name true (name_rev_line h ($"tags/" ++ t ++ $"~" ++ n)) branch = Ok (Some (t ++ $"~" ++ n)).
Proof.
  intros Hh H. unfold current_ref_name. rewrite words_two; [|exact Hh|discriminate|].
  - change ($"tags/" ++ t ++ $"~" ++ n) with ($"tags" ++ chr "/" :: (t ++ $"~" ++ n)).
    assert (S : has (chr "/") ($"tags" ++ chr "/" :: (t ++ $"~" ++ n)) = true) by (apply has_In, in_or_app; right; now left).
    rewrite S, cut_app by (vm_compute; intuition discriminate). now rewrite str_eqb_refl.
  - intros c C. apply in_app_or in C. destruct C as [C|C]; [|now apply H].
    repeat (destruct C as [<-|C]; [reflexivity|]). destruct C.
Qed.

(** White space *)
Lemma words_from_blank a b w l : forallb is_space a = true -> words_from b = (w, l) -> a <> [] -> words_from (a ++ b) = ([], match w with [] => l | _ => w :: l end).
Proof.
  intros H E Na. induction a as [|x a IH]; [contradiction|]. cbn [forallb] in H. apply andb_prop in H as [Hx H]. cbn [app words_from].
  destruct a as [|y a]; [cbn [app]; now rewrite E, Hx|]. rewrite IH by (assumption || discriminate). now rewrite Hx.
Qed.
Lemma words_from_blanks a : forallb is_space a = true -> words_from a = ([], []).
Proof.
  induction a as [|x a IH]; [reflexivity|]. cbn [forallb]. intro H. apply andb_prop in H as [Hx H]. cbn [words_from]. rewrite (IH H), Hx. reflexivity.
Qed.
Lemma spaces a h b n c branch : spaced a h b n c ->
  current_ref_name true (a ++ h ++ b ++ n ++ c) branch = current_ref_name true (name_rev_line h n) branch.
Proof.
  intros (Hs & Nb & Hh & Hn). rewrite !forallb_app in Hs. apply andb_prop in Hs as [Ha Hs]. apply andb_prop in Hs as [Hb Hc].
  unfold current_ref_name. rewrite (words_two h n Hh (proj1 Hn) (proj2 Hn)).
  assert (E : words (a ++ h ++ b ++ n ++ c) = [h; n]); [|rewrite E; reflexivity].
  assert (E1 : words_from (n ++ c) = (n, [])).
  { rewrite (words_from_app n c [] [] (proj2 Hn) (words_from_blanks c Hc)). now rewrite app_nil_r. }
  assert (E2 : words_from (b ++ n ++ c) = ([], [n])).
  { rewrite (words_from_blank b _ _ _ Hb E1 Nb). destruct Hn as [Nn _]. destruct n; [contradiction|reflexivity]. }
  assert (E3 : words_from (h ++ b ++ n ++ c) = (h, [n])).
  { rewrite (words_from_app h _ _ _ (proj2 Hh) E2). now rewrite app_nil_r. }
  unfold words. destruct Hh as [Nh _]. destruct a as [|x a].
  - cbn [app]. rewrite E3. destruct h; [contradiction|reflexivity].
  - rewrite (words_from_blank (x :: a) _ _ _ Ha E3); [|discriminate]. destruct h; [contradiction|reflexivity].
Qed.

Lemma branch_or_none :
  (forall line branch, current_ref_name false line branch = Ok (Some branch)) /\
  (forall h branch, hash_ok h -> current_ref_name true h branch = Ok None) /\
  forall h r n branch, hash_ok h -> ref_ok r -> r_kind r <> Tag -> (r_kind r = Head -> forall t, r_name r <> $"tags/" ++ t) ->
    forallb is_digit n = true -> current_ref_name true (name_rev_line h (rev_name r ++ $"~" ++ n)) branch = Ok None.
Proof.
  split; [reflexivity|]. split.
  { intros h branch [Nh Hh]. unfold current_ref_name, words. rewrite (words_from_plain h Hh). destruct h; [contradiction|reflexivity]. }
  intros h r n branch Hh Hr Kr Nt Hn. destruct (rev_name_ok r Hr) as [N1 N2].
  assert (Dg : forall c, In c n -> is_space c = false /\ c <> chr "/").
  { intros c C. rewrite forallb_forall in Hn. specialize (Hn c C). unfold is_digit in Hn. apply andb_prop in Hn as [H1 H2]. apply N.leb_le in H1, H2.
    split; [|intros ->; vm_compute in H1; now apply H1].
    unfold is_space. destruct (N.eqb_spec c 32); [lia|]. destruct (N.leb_spec 9 c); [|reflexivity]. destruct (N.leb_spec c 13); [lia|reflexivity]. }
  unfold current_ref_name. rewrite words_two; [|exact Hh| |].
  2:{ intro E. apply app_eq_nil in E. now destruct E. }
  2:{ intros c C. apply in_app_or in C as [C|C]; [now apply N2|]. destruct C as [<-|C]; [reflexivity|now apply Dg]. }
  assert (Til : forall b, In (chr "~") (b ++ $"~" ++ n)) by (intro b; apply in_or_app; right; now left).
  assert (A : r_annotated r = false) by (destruct Hr as (_ & _ & Ha); destruct (r_annotated r); [specialize (Ha eq_refl); contradiction|reflexivity]).
  destruct (r_kind r) eqn:K; [| |contradiction].
  - assert (E : rev_name r = r_name r) by (unfold rev_name, rev_path; now rewrite K, A, app_nil_r). rewrite E.
    destruct (has (chr "/") (r_name r ++ $"~" ++ n)) eqn:Sl; [|reflexivity]. apply has_In in Sl. apply in_app_or in Sl as [Sl|Sl].
    2:{ destruct Sl as [Sl|Sl]; [discriminate Sl|]. destruct (Dg _ Sl) as [_ Z]. now elim Z. }
    destruct (cut_some _ _ Sl) as (a & b & Q & Na). rewrite Q, <- app_assoc. change ((chr "/" :: b) ++ $"~" ++ n) with (chr "/" :: (b ++ $"~" ++ n)).
    rewrite cut_app by exact Na. destruct (str_eqb a $"tags") eqn:T; [apply str_eqb_eq in T; subst a; elim (Nt eq_refl b); exact Q|].
    replace (has (chr "~") (b ++ $"~" ++ n)) with true by (symmetry; now apply has_In). reflexivity.
  - assert (E : rev_name r ++ $"~" ++ n = $"remotes" ++ chr "/" :: (r_name r ++ $"~" ++ n)).
    { unfold rev_name, rev_path. rewrite K, A, app_nil_r, <- app_assoc. reflexivity. }
    rewrite E.
    replace (has (chr "/") ($"remotes" ++ chr "/" :: (r_name r ++ $"~" ++ n))) with true by (symmetry; apply has_In, in_or_app; right; now left).
    rewrite cut_app by (vm_compute; intuition discriminate). replace (str_eqb $"remotes" $"tags") with false by reflexivity.
    replace (has (chr "~") (r_name r ++ $"~" ++ n)) with true by (symmetry; now apply has_In). reflexivity.
Qed.
