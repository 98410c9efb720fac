(** * The tags of a package *)
From Coq Require Import String NArith ZArith Bool List Lia.
From Verif Require Import Model.Py Model.Version Model.PackageTags Spec.PackageTagsSpec Proofs.PyLemmas.
Import ListNotations.

Lemma contains_spec a b : contains a b = true <-> inside a b.
Proof.
  induction b as [|x b IH].
  - cbn [contains]. rewrite orb_false_r, startswith_spec. split.
    + intros [r E]. exists [], r. exact E.
    + intros (l & r & E). destruct l; [|discriminate]. now exists r.
  - cbn [contains]. rewrite orb_true_iff, startswith_spec, IH. split.
    + intros [[r E]|(l & r & E)]; [exists [], r; exact E|exists (x :: l), r; cbn; now rewrite E].
    + intros ([|y l] & r & E); [left; now exists r|right]. injection E as _ E. now exists l, r.
Qed.

Section S.
Variable parse : str -> res version.
Variable name : str.
Variable prefix : bool.

Lemma skipn_tag v : skipn (lpn name prefix) (tag_for name prefix v) = v.
Proof.
  unfold lpn, tag_for. destruct prefix; [|reflexivity].
  rewrite app_assoc. replace (length name + 1) with (length (name ++ $"-")) by (now rewrite app_length).
  apply skipn_app_exact.
Qed.
Lemma version_of_tag v x : parse v = Ok x -> tag_for name prefix v <> [] ->
  version_of parse name prefix (Some (tag_for name prefix v)) = Ok (Some x).
Proof.
  intros P Ne. unfold version_of. destruct (tag_for name prefix v) eqn:E; [easy|].
  rewrite <- E, skipn_tag, P. reflexivity.
Qed.
Lemma tag_ne v : (prefix = false -> digit_led v) -> tag_for name prefix v <> [].
Proof.
  unfold tag_for. destruct prefix; intros H E.
  - apply app_eq_nil in E. destruct E. discriminate.
  - destruct (H eq_refl) as (c & r & -> & _). discriminate.
Qed.

Notation passes := (passes name prefix).

Lemma rfilter_first {A} (f : A -> res bool) l t r b : (forall x, In x l -> f x = Ok false) -> f t = Ok true ->
  (forall x, In x r -> exists y, f x = Ok y) ->
  b = l ++ t :: r -> exists q, rfilter f b = Ok (t :: q).
Proof.
  intros L T R ->. induction l as [|x l IH]; cbn [app rfilter].
  - rewrite T. cbn [rbind].
    assert (Q : exists q, rfilter f r = Ok q).
    { clear T. induction r as [|x r IH]; cbn; [now eexists|].
      destruct (R x (or_introl eq_refl)) as [y ->]. cbn.
      destruct IH as [q ->]; [intros; apply R; now right|]. now eexists. }
    destruct Q as [q ->]. cbn. now eexists.
  - rewrite (L x (or_introl eq_refl)). cbn [rbind].
    destruct IH as [q ->]; [intros; apply L; now right|]. cbn. now exists q.
Qed.

Theorem github_run l r v x :
  parse v = Ok x -> (prefix = false -> digit_led v /\ forall t, In t (l ++ r) -> t <> []) ->
  (forall t, In t l -> ~ passes t) ->
  version_latest_github parse name prefix (Some (l ++ tag_for name prefix v :: r)) = Ok (Some x).
Proof.
  intros P D L. unfold version_latest_github, tag_latest_github.
  destruct (l ++ tag_for name prefix v :: r) as [|a b] eqn:E; [now destruct l|]. rewrite <- E.
  destruct (rfilter_first (fun t => if prefix then Ok (contains name t) else digit_first t)
              l (tag_for name prefix v) r (a :: b)) as [q Q].
  - intros t T. specialize (L t T). unfold PackageTagsSpec.passes in L. destruct prefix.
    + f_equal. apply not_true_is_false. intro C. apply L. now apply contains_spec.
    + destruct (D eq_refl) as [_ Ne]. destruct t as [|c t]; [elim (Ne []); [apply in_or_app; now left|reflexivity]|].
      cbn. f_equal. apply not_true_is_false. intro C. apply L. now exists c, t.
  - unfold tag_for. destruct prefix.
    + f_equal. apply contains_spec. exists [], ($"-" ++ v). reflexivity.
    + destruct (D eq_refl) as [(c & t & -> & C) _]. cbn. now rewrite C.
  - intros t T. destruct prefix; [now eexists|]. destruct (D eq_refl) as [_ Ne].
    destruct t as [|c t]; [elim (Ne []); [apply in_or_app; now right|reflexivity]|]. cbn. now eexists.
  - symmetry. exact E.
  - rewrite E. cbn beta iota. rewrite Q. cbn [rbind].
    apply version_of_tag; [exact P|]. apply tag_ne. intro F. now apply D.
Qed.

Notation fits := (fits name prefix).
Lemma matches_spec t : matches name prefix t = true <-> fits t.
Proof.
  unfold matches, PackageTagsSpec.fits. destruct prefix.
  - rewrite startswith_spec. split; intros [r E]; exists r; rewrite E; [now rewrite <- app_assoc|now rewrite app_assoc].
  - split.
    + destruct t as [|c t]; [discriminate|]. intro C. now exists c, t.
    + intros (c & r & -> & C). exact C.
Qed.
Lemma own_fits v : (prefix = false -> digit_led v) -> fits (tag_for name prefix v).
Proof. unfold PackageTagsSpec.fits, tag_for. destruct prefix; intro H; [now exists v|now apply H]. Qed.

Theorem tag_run h l r v x :
  parse v = Ok x -> (prefix = false -> digit_led v) ->
  flat_map c_tags h = l ++ tag_for name prefix v :: r -> (forall t, In t l -> ~ fits t) ->
  version_tag parse name prefix h = Ok (Some x).
Proof.
  intros P D F L. unfold version_tag, tag. rewrite F.
  assert (G : find (matches name prefix) (l ++ tag_for name prefix v :: r) = Some (tag_for name prefix v)).
  { clear F. induction l as [|a l IH]; cbn [app find].
    - assert (M : matches name prefix (tag_for name prefix v) = true) by (apply matches_spec, own_fits, D). now rewrite M.
    - destruct (matches name prefix a) eqn:M; [apply matches_spec in M; elim (L a (or_introl eq_refl) M)|].
      apply IH. intros t T. apply L. now right. }
  rewrite G. apply version_of_tag; [exact P|now apply tag_ne].
Qed.

Lemma inner_quote s : inner ($"'" ++ s ++ $"'") = s.
Proof. unfold inner. change ($"'" ++ s ++ $"'") with (39%N :: (s ++ $"'")). cbn [tl]. apply removelast_last. Qed.

Lemma log_lines h : (forall c, In c h -> line_ok c) ->
  filter (fun e => match e with [] => false | _ => true end)
    (map inner (split nl (join [nl] (map (fun c => $"'" ++ c_line c ++ $"'") (filter c_touches h))))) = lines h.
Proof.
  intros L. unfold lines.
  assert (L' : forall c, In c (filter c_touches h) -> line_ok c) by (intros c C; apply filter_In in C; now apply L).
  destruct (filter c_touches h) as [|a q]; [reflexivity|].
  rewrite split_join.
  - rewrite map_map. revert L'. generalize (a :: q). clear. induction l as [|c l IH]; intros L; [reflexivity|].
    cbn [map filter]. rewrite inner_quote. destruct (L c (or_introl eq_refl)) as [Ne _].
    destruct (c_line c) eqn:E; [easy|]. f_equal. apply IH. intros; apply L; now right.
  - discriminate.
  - intros x X. apply in_map_iff in X. destruct X as (c & <- & C). destruct (L' c C) as [_ N1].
    intro I1. apply in_app_or in I1. destruct I1 as [[I1|[]]|I1]; [discriminate|].
    apply in_app_or in I1. destruct I1 as [I1|[I1|[]]]; [now apply N1|discriminate].
Qed.

Lemma until_sub t h c : In c (until t h) -> In c h.
Proof.
  induction h as [|a h IH]; cbn; [easy|]. destruct (existsb _ _); [easy|].
  intros [<-|I1]; [now left|right; auto].
Qed.

Lemma find_first own h q : since own h q ->
  (forall t, In t (flat_map c_tags h) -> (own t <-> fits t)) ->
  (exists t, In t (flat_map c_tags h) /\ own t) ->
  exists t, find (matches name prefix) (flat_map c_tags h) = Some t /\ In t (flat_map c_tags h) /\ until t h = q.
Proof.
  induction 1 as [c r t It Ot| |c r q Nc Hs IH]; intros G [t0 [I0 O0]]; [| destruct I0 |].
  - cbn [flat_map].
    assert (F : exists u, find (matches name prefix) (c_tags c ++ flat_map c_tags r) = Some u /\ In u (c_tags c)).
    { assert (M : matches name prefix t = true) by (apply matches_spec, G; [cbn; apply in_or_app; now left|exact Ot]).
      clear G I0 Ot. revert It. induction (c_tags c) as [|a l IH]; [easy|]. cbn [app find]. intros It.
      destruct (matches name prefix a) eqn:Ma; [exists a; split; [reflexivity|now left]|].
      destruct It as [->|It]; [congruence|]. destruct (IH It) as (u & U & V). exists u. split; [exact U|now right]. }
    destruct F as (u & U & V). exists u. split; [exact U|]. split; [apply in_or_app; now left|].
    cbn [until]. assert (X : existsb (str_eqb u) (c_tags c) = true) by (apply existsb_exists; exists u; split; [exact V|apply str_eqb_refl]).
    now rewrite X.
  - cbn [flat_map] in *.
    assert (NF : forall t, In t (c_tags c) -> matches name prefix t = false).
    { intros t T. apply not_true_is_false. intro M. apply (Nc t T), G; [apply in_or_app; now left|now apply matches_spec]. }
    destruct IH as (u & U & V & W).
    { intros t T. apply G. apply in_or_app. now right. }
    { exists t0. split; [|exact O0]. apply in_app_or in I0. destruct I0 as [I0|I0]; [elim (Nc _ I0 O0)|exact I0]. }
    exists u. split; [|split; [apply in_or_app; now right|]].
    + rewrite <- U. clear -NF. induction (c_tags c) as [|a l IH]; [reflexivity|]. cbn [app find].
      rewrite (NF a (or_introl eq_refl)). apply IH. intros; apply NF; now right.
    + cbn [until]. destruct (existsb (str_eqb u) (c_tags c)) eqn:X; [|now rewrite W].
      apply existsb_exists in X. destruct X as (u' & X & Y). apply str_eqb_eq in Y. subst u'.
      apply find_some in U. rewrite (NF u X) in U. destruct U. discriminate.
Qed.

Theorem since_run own h q :
  since own h q -> (forall c, In c h -> line_ok c) ->
  (forall t, In t (flat_map c_tags h) -> (own t <-> fits t)) ->
  (exists t, In t (flat_map c_tags h) /\ own t) ->
  commits_since_last_release name prefix h = lines q.
Proof.
  intros Hs L G Ex. destruct (find_first own h q Hs G Ex) as (t & F & It & U).
  unfold commits_since_last_release, tag, git_log. rewrite F.
  assert (Ne : t <> []).
  { intros ->. apply find_some in F. destruct F as [_ F]. apply matches_spec in F. unfold PackageTagsSpec.fits in F. destruct prefix.
    - destruct F as [r F]. symmetry in F. apply app_eq_nil in F. destruct F. discriminate.
    - destruct F as (c & r & F & _). discriminate. }
  destruct t as [|a t]; [easy|]. rewrite U. apply log_lines.
  intros c C. apply L. rewrite <- U in C. now apply until_sub in C.
Qed.

Theorem since_untagged h :
  (forall t, In t (flat_map c_tags h) -> ~ fits t) -> commits_since_last_release name prefix h = [].
Proof.
  intros G. unfold commits_since_last_release, tag.
  assert (F : find (matches name prefix) (flat_map c_tags h) = None).
  { destruct (find (matches name prefix) (flat_map c_tags h)) eqn:F; [|reflexivity].
    apply find_some in F. destruct F as [I1 M]. elim (G _ I1). now apply matches_spec. }
  rewrite F. reflexivity.
Qed.
End S.
