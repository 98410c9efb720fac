(** * Lemmas on paths inside zip files *)
From Coq Require Import String NArith Arith Bool List Relations Lia.
From Verif Require Import Model.Py Model.PurePath Model.RelPath Model.Fs Model.PathOps Model.Zip Spec.ZipSpec
  Proofs.PyLemmas Proofs.RelPathProofs Proofs.RmtreeProofs.
Import ListNotations.

Lemma pp_eqb_refl p : pp_eqb p p = true.
Proof. now apply pp_eqb_eq. Qed.
Lemma pp_eqb_neq a b : pp_eqb a b = false <-> a <> b.
Proof. rewrite <- pp_eqb_eq. now destruct (pp_eqb a b). Qed.

Lemma parents_in p q : In p (pp_parents q) <-> deep_below p q.
Proof.
  unfold pp_parents, deep_below. rewrite in_map_iff. split.
  - intros (k & <- & K). apply in_rev, in_seq in K. cbn. split; [reflexivity|].
    destruct (skipn k (pp_parts q)) as [|x l] eqn:S.
    + apply (f_equal (@length _)) in S. rewrite skipn_length in S. cbn in S. lia.
    + exists x, l. rewrite <- S. symmetry. apply firstn_skipn.
  - intros (A & x & l & B). exists (length (pp_parts p)). rewrite B, firstn_app, Nat.sub_diag, firstn_all, app_nil_r.
    split; [destruct p; cbn in *; now rewrite A|]. apply -> in_rev. apply in_seq. rewrite app_length. cbn. lia.
Qed.

Section Once.
Context {A : Type}.
Implicit Type l : list (ppath * A).
Lemma once_incl l x : In x (once l) -> In x l.
Proof.
  induction l as [|y r IH]; cbn; [easy|]. intros [H|H]; [now left|right]. apply IH. now apply filter_In in H.
Qed.
Lemma once_keys l p : In p (map fst (once l)) <-> In p (map fst l).
Proof.
  split; intros H.
  - apply in_map_iff in H as (x & <- & H). apply in_map. now apply once_incl.
  - induction l as [|y r IH]; cbn in *; [easy|]. destruct (pp_eqb (fst y) p) eqn:E.
    + left. now apply pp_eqb_eq.
    + right. destruct H as [H|H]; [subst; now rewrite pp_eqb_refl in E|]. apply IH in H.
      apply in_map_iff in H as (x & <- & H). apply in_map. apply filter_In. now rewrite E.
Qed.
Lemma once_nodup l : NoDup (map fst (once l)).
Proof.
  induction l as [|y r IH]; cbn; [constructor|]. constructor.
  - intros H. apply in_map_iff in H as (x & E & H). apply filter_In in H as [_ H]. rewrite E, pp_eqb_refl in H. discriminate.
  - clear -IH. induction (once r) as [|z m IHm]; cbn in *; [constructor|]. inversion_clear IH as [|? ? N D].
    destruct (negb (pp_eqb (fst y) (fst z))); [cbn; constructor|]; auto.
    intros H. apply N. apply in_map_iff in H as (x & E & H). rewrite <- E. apply in_map. now apply filter_In in H.
Qed.
Lemma once_find l p : find (fun x => pp_eqb p (fst x)) (once l) = find (fun x => pp_eqb p (fst x)) l.
Proof.
  induction l as [|y r IH]; cbn; [reflexivity|]. destruct (pp_eqb p (fst y)) eqn:E; [reflexivity|].
  rewrite <- IH. clear IH. induction (once r) as [|z m IHm]; cbn; [reflexivity|].
  destruct (pp_eqb (fst y) (fst z)) eqn:F; cbn.
  - apply pp_eqb_eq in F. rewrite <- F, E. exact IHm.
  - destruct (pp_eqb p (fst z)); [reflexivity|exact IHm].
Qed.
End Once.

Definition names_of (l : list zinfo) : list ppath := map (fun z => pp_parse (z_name z)) l.
Definition first_paths (l : list zinfo) := once (map (fun z => (pp_parse (z_name z), Some z)) l).

Lemma first_keys l p : In p (map fst (first_paths l)) <-> In p (names_of l).
Proof. unfold first_paths, names_of. rewrite once_keys, map_map. now cbn. Qed.
Lemma above_keys l p :
  In p (flat_map (fun x => pp_parents (fst x)) (first_paths l)) <-> exists q, In q (names_of l) /\ deep_below p q.
Proof.
  rewrite in_flat_map. split.
  - intros (x & X & P). exists (fst x). split; [apply first_keys; now apply in_map|now apply parents_in].
  - intros (q & Q & D). apply first_keys in Q. apply in_map_iff in Q as (x & <- & X). exists x. split; [exact X|now apply parents_in].
Qed.
Lemma keys_implied l p : In p (map fst (zip_paths l)) <-> implied (names_of l) p.
Proof.
  unfold zip_paths. rewrite once_keys, map_app, in_app_iff, map_map. cbn. rewrite map_id.
  fold (first_paths l). rewrite above_keys, first_keys. unfold implied. tauto.
Qed.
Lemma exists_keys l p : z_exists l p = true <-> In p (map fst (zip_paths l)).
Proof.
  unfold z_exists. rewrite existsb_exists. split.
  - intros (x & X & E). apply pp_eqb_eq in E. subst. now apply in_map.
  - intros H. apply in_map_iff in H as (x & <- & X). exists x. split; [exact X|apply pp_eqb_refl].
Qed.
Lemma exists_implied l p : z_exists l p = true <-> implied (names_of l) p.
Proof. rewrite exists_keys. apply keys_implied. Qed.

Lemma right_below_parent p q : right_below p q <-> pp_parent q = p /\ pp_parent q <> q.
Proof.
  unfold right_below, pp_parent. split.
  - intros (A & x & B). destruct p as [a l], q as [b m]; cbn in *. subst. rewrite removelast_last. split; [reflexivity|].
    intros E. injection E as E. apply (f_equal (@length _)) in E. rewrite app_length in E. cbn in E. lia.
  - destruct p as [a l], q as [b m]; cbn. intros [A B]. injection A as -> <-.
    split; [reflexivity|]. destruct m as [|y m] using rev_ind; [now destruct B|]. exists y. now rewrite removelast_last.
Qed.
Lemma deep_trans p q r : deep_below p q -> deep_below q r -> deep_below p r.
Proof.
  intros (A & x & l & B) (C & y & m & D). split; [congruence|]. exists x, (l ++ y :: m). rewrite D, B, <- app_assoc. reflexivity.
Qed.
Lemma right_deep p q : right_below p q -> deep_below p q.
Proof. intros (A & x & B). split; [exact A|]. now exists x, []. Qed.
Lemma implied_up es p q : deep_below p q -> implied es q -> implied es p.
Proof. intros D [H|(r & R & E)]; right; [now exists q|exists r]. split; [exact R|]. eapply deep_trans; eassumption. Qed.
Lemma exists_parent l p : z_exists l p = true -> z_exists l (pp_parent p) = true.
Proof.
  destruct (pp_eqb (pp_parent p) p) eqn:E; [apply pp_eqb_eq in E; now rewrite E|]. apply pp_eqb_neq in E.
  rewrite !exists_implied. apply implied_up. apply right_deep. now apply right_below_parent.
Qed.
Lemma children_iff l p q : In q (z_children l p) <-> z_exists l q = true /\ right_below p q.
Proof.
  unfold z_children. rewrite filter_In, exists_keys, andb_true_iff, negb_true_iff, pp_eqb_eq, pp_eqb_neq, right_below_parent.
  split; intros (A & B & C); (split; [exact A|]); [split; congruence|split; [congruence|now symmetry]].
Qed.
Lemma one_parent l q : z_exists l q = true -> pp_parent q <> q -> forall p, In q (z_children l p) <-> p = pp_parent q.
Proof.
  intros X R p. rewrite children_iff, right_below_parent. split; [intros (_ & A & _); now symmetry|]. intros ->. auto.
Qed.
Lemma rchildren_iff l p q : In q (z_rchildren l p) <-> z_exists l q = true /\ deep_below p q.
Proof.
  unfold z_rchildren. rewrite filter_In, exists_keys, existsb_exists.
  split; intros (A & B); (split; [exact A|]).
  - destruct B as (x & X & E). apply pp_eqb_eq in E. subst. now apply parents_in.
  - exists p. split; [now apply parents_in|apply pp_eqb_refl].
Qed.
Lemma children_steps l p q : In q (z_rchildren l p) <-> clos_trans _ (fun a b => In b (z_children l a)) p q.
Proof.
  split.
  - intros H. apply rchildren_iff in H as (X & A & x & m & B). revert q A B X.
    destruct (exists_last (l := x :: m) ltac:(discriminate)) as (n & y & ->). revert y.
    induction n as [|z n IH] using rev_ind; intros y q A B X.
    + apply t_step. apply children_iff. split; [exact X|]. split; [exact A|]. now exists y.
    + set (r := mkPP (pp_abs p) (pp_parts p ++ n ++ [z])).
      assert (R : right_below r q). { split; [exact A|]. exists y. cbn. rewrite B, <- !app_assoc. reflexivity. }
      eapply t_trans; [apply (IH z r); [reflexivity|reflexivity|]|].
      * apply right_below_parent in R as [<- _]. now apply exists_parent.
      * apply t_step. apply children_iff. now split.
  - intros H. induction H as [a b H|a b c _ IH1 _ IH2].
    + apply children_iff in H as [X H]. apply rchildren_iff. split; [exact X|now apply right_deep].
    + apply rchildren_iff in IH1 as [_ A], IH2 as [X B]. apply rchildren_iff. split; [exact X|]. eapply deep_trans; eassumption.
Qed.
Lemma children_nodup l p : NoDup (z_children l p) /\ NoDup (z_rchildren l p).
Proof. split; apply NoDup_filter; apply once_nodup. Qed.

Lemma info_spec l p z : z_info l p = Some z <->
  (forall q, In q (names_of l) -> ~ deep_below p q) /\ find (fun z => pp_eqb p (pp_parse (z_name z))) l = Some z.
Proof.
  unfold z_info, zip_paths. rewrite once_find. fold (first_paths l).
  assert (F : find (fun x => pp_eqb p (fst x)) (first_paths l) =
    option_map (fun z => (pp_parse (z_name z), Some z)) (find (fun z => pp_eqb p (pp_parse (z_name z))) l)).
  { unfold first_paths. rewrite once_find. induction l as [|y r IH]; cbn; [reflexivity|].
    destruct (pp_eqb p (pp_parse (z_name y))); [reflexivity|exact IH]. }
  set (ab := flat_map _ _).
  assert (K : find (fun x => pp_eqb p (fst x)) (map (fun p => (p, None)) ab ++ first_paths l) =
    if existsb (pp_eqb p) ab then Some (p, @None zinfo) else find (fun x => pp_eqb p (fst x)) (first_paths l)).
  { clear F. induction ab as [|y r IH]; cbn; [reflexivity|]. destruct (pp_eqb p y) eqn:E; cbn; [|exact IH].
    apply pp_eqb_eq in E. now subst. }
  rewrite K. destruct (existsb (pp_eqb p) ab) eqn:X.
  - split; [discriminate|]. intros [N _]. apply existsb_exists in X as (q & Q & E). apply pp_eqb_eq in E. subst q.
    apply above_keys in Q as (q & Q1 & Q2). now destruct (N q).
  - rewrite F. destruct (find _ l) as [y|]; cbn; split; try discriminate.
    + intros H. injection H as ->. split; [|reflexivity]. intros q Q D.
      assert (I : In p ab) by (apply above_keys; eauto). assert (existsb (pp_eqb p) ab = true); [|congruence].
      apply existsb_exists. exists p. split; [exact I|apply pp_eqb_refl].
    + intros [_ H]. now injection H as ->.
    + intros [_ H]. discriminate.
Qed.
Lemma file_leaf l p : z_is_dir l p = false -> z_rchildren l p = [].
Proof.
  unfold z_is_dir. destruct (z_info l p) as [z|] eqn:I; [|discriminate]. intros _. apply info_spec in I as [N _].
  destruct (z_rchildren l p) as [|q r] eqn:E; [reflexivity|].
  assert (H : In q (z_rchildren l p)) by (rewrite E; now left). apply rchildren_iff in H as [X D].
  apply exists_implied in X as [X|(s & S & F)]; [now destruct (N q)|]. destruct (N s S). eapply deep_trans; eassumption.
Qed.
Lemma open_iff l p z : z_open l p = Ok z <->
  zi_is_dir z = false /\ (forall q, In q (names_of l) -> ~ deep_below p q) /\
  exists before after, l = before ++ z :: after /\ pp_parse (z_name z) = p /\ ~ In p (names_of before).
Proof.
  unfold z_open. split.
  - destruct (z_info l p) as [y|] eqn:I; [|discriminate]. destruct (zi_is_dir y) eqn:D; [discriminate|].
    intros H. injection H as ->. apply info_spec in I as [N F]. repeat (split; [assumption|]). clear N D.
    induction l as [|x r IH]; cbn in F; [discriminate|]. destruct (pp_eqb p (pp_parse (z_name x))) eqn:E.
    + injection F as ->. apply pp_eqb_eq in E. exists [], r. cbn. auto.
    + destruct (IH F) as (b & a & -> & P & N). exists (x :: b), a. cbn. repeat split; [assumption|].
      intros [H|H]; [|contradiction]. apply pp_eqb_neq in E. now apply E.
  - intros (D & N & b & a & -> & P & B).
    assert (I : z_info (b ++ z :: a) p = Some z).
    { apply info_spec. split; [exact N|]. clear N D. induction b as [|x r IH]; cbn.
      - now rewrite P, pp_eqb_refl.
      - destruct (pp_eqb p (pp_parse (z_name x))) eqn:E; [|apply IH; intros H; apply B; now right].
        apply pp_eqb_eq in E. destruct B. left. now symmetry. }
    rewrite I, D. reflexivity.
Qed.

(** ** Paths on the disk *)
Lemma below_snoc q a l x : deep_below q (mkPP a (l ++ [x])) <-> at_or_below q (mkPP a l).
Proof.
  split.
  - intros (A & y & m & B). cbn in *. destruct (exists_last (l := y :: m) ltac:(discriminate)) as (n & z & E).
    rewrite E, app_assoc in B. apply app_inj_tail in B as [B _]. destruct n as [|v n].
    + left. destruct q; cbn in *. rewrite app_nil_r in B. now subst.
    + right. split; [exact A|]. now exists v, n.
  - intros [H|(A & y & m & B)]; cbn in *.
    + subst q. split; [reflexivity|]. now exists x, [].
    + split; [exact A|]. exists y, (m ++ [x]). cbn. rewrite B, <- app_assoc. reflexivity.
Qed.
Section Disk.
Variable is_zipfile : ppath -> bool.
Variable zip_file : ppath -> res (list zinfo).
Variable on_disk : ppath -> bool.

Lemma zip_path_spec p o : zip_path is_zipfile zip_file p = Ok o ->
  match o with
  | Some z => at_or_below z p /\ archive is_zipfile dot_zip z /\
              (forall q, deep_below z q -> at_or_below q p -> is_zipfile q = false) /\ exists l, zip_file z = Ok l
  | None => forall q, at_or_below q p -> pp_parts q <> [] -> is_zipfile q = false /\ dot_zip q = false
  end.
Proof.
  unfold zip_path. destruct p as [a l]; cbn [pp_abs pp_parts]. rewrite <- (rev_involutive l). generalize (rev l). clear l.
  intros l. rewrite rev_involutive. revert o. induction l as [|x r IH]; intros o; cbn [zip_path_of].
  - intros H. injection H as <-. intros q [Q|(A & y & m & B)] N; [subst; now destruct N|]. cbn in B. now destruct (pp_parts q).
  - destruct (zip_path_of _ _ a r) as [pzp|e] eqn:Z; cbn [rbind]; [|discriminate]. specialize (IH pzp eq_refl).
    set (self := mkPP a (rev (x :: r))).
    assert (B : forall q, at_or_below q self <-> q = self \/ at_or_below q (mkPP a (rev r))).
    { intros q. unfold at_or_below at 1. subst self. cbn [rev]. rewrite below_snoc. split; (intros [H|H]; [left; now symmetry|now right]). }
    assert (D : forall q, deep_below q self <-> at_or_below q (mkPP a (rev r))) by (intros q; apply below_snoc).
    assert (NE : pp_parts self <> []) by (cbn; now destruct (rev r)).
    destruct (match pzp with None => true | Some _ => false end && dot_zip self || is_zipfile self) eqn:C.
    + destruct (zip_file self) as [zl|e] eqn:F; cbn [rbind]; [|discriminate]. intros H. injection H as <-.
      split; [now left|]. split; [|split].
      * split; [exact NE|]. apply orb_true_iff in C as [C|C]; [|now left]. apply andb_true_iff in C as [C1 C2].
        destruct pzp; [discriminate|]. right. split; [exact C2|]. intros q Q. apply IH. now apply D.
      * intros q Q1 Q2. exfalso. apply B in Q2 as [->|Q2].
        -- destruct Q1 as (_ & y & m & E). apply (f_equal (@length _)) in E. rewrite app_length in E. cbn in E. lia.
        -- apply D in Q2. pose proof (deep_trans _ _ _ Q2 Q1) as (_ & y & m & E).
           apply (f_equal (@length _)) in E. rewrite app_length in E. cbn in E. lia.
      * now exists zl.
    + intros H. injection H as <-. apply orb_false_iff in C as [C1 C2]. destruct pzp as [z|].
      * destruct IH as (I1 & I2 & I3 & I4). split; [apply B; now right|]. split; [exact I2|]. split; [|exact I4].
        intros q Q1 Q2. apply B in Q2 as [->|Q2]; [exact C2|now apply I3].
      * intros q Q N. apply B in Q as [->|Q]; [now split|now apply IH].
Qed.
Lemma at_or_below_parts z p : at_or_below z p <-> pp_abs z = pp_abs p /\ exists l, pp_parts p = pp_parts z ++ l.
Proof.
  split.
  - intros [->|(A & x & l & B)]; [split; [reflexivity|exists []; now rewrite app_nil_r]|]. split; [exact A|now exists (x :: l)].
  - intros (A & [|x l] & B).
    + left. destruct z, p; cbn in *. rewrite app_nil_r in B. now subst.
    + right. split; [exact A|now exists x, l].
Qed.
Lemma zip_relative p z : zip_path is_zipfile zip_file p = Ok (Some z) ->
  exists l r, zip_file z = Ok l /\ zip_relative_path is_zipfile zip_file p = Ok (Some (l, r)) /\ pp_abs r = false /\ pp_join z r = p.
Proof.
  intros Z. pose proof (zip_path_spec _ _ Z) as (W & _ & _ & l & F). apply at_or_below_parts in W as (A & m & B).
  exists l, (mkPP false m). split; [exact F|]. unfold zip_relative_path. rewrite Z. cbn [rbind]. rewrite F. cbn [rbind].
  assert (E : p = mkPP (pp_abs z) (pp_parts z ++ m)) by (destruct p; cbn in *; now subst).
  split; [|split; [reflexivity|cbn; now symmetry]].
  rewrite E. destruct z as [za zp]. rewrite relative_to_app. reflexivity.
Qed.
Lemma zip_exists p z l r : zip_path is_zipfile zip_file p = Ok (Some z) -> zip_file z = Ok l -> pp_abs r = false -> pp_join z r = p ->
  zp_exists is_zipfile zip_file on_disk p = Ok (z_exists l r).
Proof.
  intros Z F A J. destruct (zip_relative _ _ Z) as (l' & r' & F' & R & A' & J'). assert (l' = l) by congruence. subst l'.
  assert (r' = r). { unfold pp_join in *. rewrite A, A' in *. subst p. injection J' as J'. apply app_inv_head in J'.
    destruct r, r'; cbn in *. now subst. }
  subst r'. unfold zp_exists. rewrite Z. cbn [rbind andb]. rewrite R. reflexivity.
Qed.
Lemma zip_exists_outside p : zip_path is_zipfile zip_file p = Ok None ->
  zp_exists is_zipfile zip_file on_disk p = if on_disk p then Ok true else Err AttributeError.
Proof.
  intros Z. unfold zp_exists, zip_relative_path. rewrite Z. cbn [rbind andb]. now destruct (on_disk p).
Qed.
Lemma join_below z r q : pp_abs r = false -> pp_abs q = false -> deep_below (pp_join z r) (pp_join z q) <-> deep_below r q.
Proof.
  intros A B. unfold pp_join. rewrite A, B. unfold deep_below. cbn. rewrite A, B.
  split; intros (_ & x & l & E); (split; [reflexivity|]); exists x, l.
  - rewrite <- app_assoc in E. now apply app_inv_head in E.
  - rewrite E, app_assoc. reflexivity.
Qed.
Lemma zip_rchildren p z l : zip_path is_zipfile zip_file p = Ok (Some z) -> zip_file z = Ok l ->
  exists c, zp_rchildren is_zipfile zip_file p = Ok (Some c) /\ NoDup c /\
    forall q, In q c <-> deep_below p q /\ exists r, pp_abs r = false /\ q = pp_join z r /\ z_exists l r = true.
Proof.
  intros Z F. destruct (zip_relative _ _ Z) as (l' & r & F' & R & A & J). assert (l' = l) by congruence. subst l'.
  exists (map (pp_join z) (z_rchildren l r)). split; [|split].
  - unfold zp_rchildren. rewrite Z. cbn [rbind]. rewrite R. reflexivity.
  - assert (I : forall a b, In a (z_rchildren l r) -> In b (z_rchildren l r) -> pp_join z a = pp_join z b -> a = b).
    { intros a b Ha Hb. apply rchildren_iff in Ha as [_ [Ha _]], Hb as [_ [Hb _]]. unfold pp_join.
      rewrite A in *. rewrite <- Ha, <- Hb. intros E. injection E as E. apply app_inv_head in E. destruct a, b; cbn in *. now subst. }
    destruct (children_nodup l r) as [_ N]. revert I N. generalize (z_rchildren l r). clear. intros c I N.
    induction N as [|x c N1 N2 IH]; cbn; constructor.
    + intros H. apply in_map_iff in H as (y & E & H). apply N1. rewrite (I x y); auto; [now left|now right].
    + apply IH. intros a b Ha Hb. apply I; now right.
  - intros q. rewrite in_map_iff. split.
    + intros (y & <- & H). apply rchildren_iff in H as [X D]. assert (Y : pp_abs y = false) by (destruct D as [D _]; congruence).
      split; [subst p; now apply join_below|]. now exists y.
    + intros (D & y & Y & -> & X). exists y. split; [reflexivity|]. apply rchildren_iff. split; [exact X|].
      subst p. exact (proj1 (join_below z r y A Y) D).
Qed.
End Disk.
