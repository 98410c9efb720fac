(** * Proofs on asking git about a path *)
From Coq Require Import String Arith NArith ZArith Lia Bool List Strings.Byte.
From Verif Require Import Model.Py Model.Git Model.GitQuery Spec.GitSpec Spec.GitQuerySpec Proofs.PyLemmas Proofs.GitProofs.
Import ListNotations.

(** ** Paths *)
Lemma names_iff p k : names p k = true <-> at_path p k.
Proof.
  unfold names, at_path, beneath. rewrite !orb_true_iff, !str_eqb_eq, startswith_spec. split.
  - intros [[A|A]|[r A]]; auto. right. right. exists r. now rewrite app_assoc.
  - intros [A|[A|[r A]]]; auto. right. exists r. now rewrite <- app_assoc.
Qed.
Lemma literal_special p : literal p -> existsb special p = false.
Proof.
  intros [L _]. destruct (existsb special p) eqn:E; [|reflexivity]. exfalso.
  apply existsb_exists in E as (c & I & S). unfold special in S. apply existsb_exists in S as (d & J & S).
  apply N.eqb_eq in S. subst d. exact (L c I J).
Qed.
Lemma pathspec_literal wild magic p k : literal p -> (pathspec wild magic p k = true <-> at_path p k).
Proof.
  intros L. unfold pathspec. destruct (startswith p $":") eqn:S.
  { exfalso. apply startswith_spec in S as [r S]. now apply (proj2 L r). }
  rewrite (literal_special p L). cbn [andb]. rewrite orb_false_r. apply names_iff.
Qed.
Lemma pathspec_abs_literal wild q k : literal q -> (pathspec_abs wild q k = true <-> at_path q k).
Proof. intros L. unfold pathspec_abs. rewrite (literal_special q L). cbn [andb]. rewrite orb_false_r. apply names_iff. Qed.
Lemma there_iff g p : there g p = true <-> present g p.
Proof.
  unfold there, present. rewrite orb_true_iff, str_eqb_eq, existsb_exists. split; (intros [A|A]; [now left|right]).
  - destruct A as (k & _ & K). apply andb_true_iff in K as [K1 K2]. exists k. rewrite is_some_iff in K1. rewrite names_iff in K2. now split.
  - destruct A as (k & K2 & K1). exists k. split; [now apply tget_keys|]. apply andb_true_iff. rewrite is_some_iff, names_iff. now split.
Qed.

(** ** The order of paths *)
Lemma ltb_asym a : forall b, str_ltb a b = true -> str_ltb b a = false.
Proof.
  induction a as [|x a IH]; intros [|y b]; cbn; try easy. rewrite orb_true_iff, andb_true_iff, N.ltb_lt, N.eqb_eq.
  intros [L|[-> L]].
  - replace (N.ltb y x) with false by (symmetry; apply N.ltb_ge; lia). replace (N.eqb y x) with false by (symmetry; apply N.eqb_neq; lia). reflexivity.
  - rewrite N.ltb_irrefl, N.eqb_refl. cbn. now apply IH.
Qed.
Lemma ltb_neg a : forall b c : str, str_ltb a c = true -> str_ltb a b = true \/ str_ltb b c = true.
Proof.
  induction a as [|x a IH]; intros b c; destruct c as [|z c]; try discriminate; destruct b as [|y b]; cbn.
  - now right.
  - intros _. now left.
  - intros _. now right.
  - rewrite !orb_true_iff, !andb_true_iff, !N.ltb_lt, !N.eqb_eq. intros H.
    destruct (N.lt_trichotomy x y) as [L|[-> |L]]; [now (left; left)| |].
    + destruct H as [L|[-> L]]; [now (right; left)|]. destruct (IH b c L) as [K|K]; [left|right]; now right.
    + right. destruct H as [M|[-> M]]; left; lia.
Qed.
Lemma least_none l : least l = None -> l = [].
Proof. destruct l as [|c r]; [reflexivity|]. cbn. destruct (least r) as [d|]; [destruct (str_ltb (c_path d) (c_path c))|]; discriminate. Qed.
Lemma least_some l : forall c, least l = Some c -> In c l /\ forall d, In d l -> str_ltb (c_path d) (c_path c) = false.
Proof.
  assert (R : forall a, str_ltb a a = false).
  { intros a. destruct (str_ltb a a) eqn:E; [|reflexivity]. pose proof (ltb_asym a a E). congruence. }
  induction l as [|c r IH]; cbn; [discriminate|]. intros x. destruct (least r) as [d|] eqn:L.
  - destruct (IH d eq_refl) as [I M]. destruct (str_ltb (c_path d) (c_path c)) eqn:O; intros [= <-]; (split; [auto|]); intros y [<-|Y]; auto.
    + now apply ltb_asym.
    + destruct (str_ltb (c_path y) (c_path c)) eqn:E; [|reflexivity]. destruct (ltb_neg _ (c_path d) _ E) as [K|K]; [|congruence].
      rewrite (M y Y) in K. discriminate.
  - intros [= <-]. apply least_none in L. subst r. split; [now left|]. intros y [<-|[]]. apply R.
Qed.

Lemma entries_in sel ks f h c : In c (entries sel ks f h) <->
  In (c_path c) ks /\ sel (c_path c) = true /\ c_before c = f (c_path c) /\ c_after c = h (c_path c) /\ f (c_path c) <> h (c_path c).
Proof.
  unfold entries. rewrite in_flat_map. split.
  - intros (k & K & I). destruct (sel k && negb (blob_eqb (f k) (h k))) eqn:E; [|destruct I].
    destruct I as [<-|[]]. cbn. apply andb_true_iff in E as [S B]. apply negb_true_iff, blob_eqb_neq in B. now repeat split.
  - intros (K & S & B & A & D). exists (c_path c). split; [exact K|]. rewrite S. cbn. apply blob_eqb_neq in D. rewrite D. cbn. left.
    destruct c as [x y z]. cbn in *. now subst.
Qed.
Lemma entries_told sel p ks f h before after (seen : str -> Prop) :
  (forall k, sel k = true <-> at_path p k) ->
  (forall k, at_path p k -> f k <> h k -> In k ks -> seen k /\ f k = before k /\ h k = after k) ->
  (forall k, at_path p k -> seen k -> before k <> after k -> In k ks /\ f k = before k /\ h k = after k) ->
  told before after p seen (least (entries sel ks f h)).
Proof.
  intros S D C. destruct (least (entries sel ks f h)) as [c|] eqn:L; cbn.
  - destruct (least_some _ _ L) as [I M]. apply entries_in in I as (K & P & B & A & N). apply S in P.
    destruct (D _ P N K) as (Q & F & H). rewrite B, A, F, H. rewrite F, H in N. repeat split; auto.
    intros k Pk Sk Nk. destruct (C k Pk Sk Nk) as (Kk & Fk & Hk).
    apply (M (mkChange k (f k) (h k))). apply entries_in. cbn. rewrite Fk, Hk. repeat split; auto. now apply S.
  - apply least_none in L. intros k P K. destruct (blob_eqb (before k) (after k)) eqn:E; [now apply blob_eqb_eq|].
    apply blob_eqb_neq in E. destruct (C k P K E) as (Kk & Fk & Hk). exfalso.
    assert (I : In (mkChange k (f k) (h k)) (entries sel ks f h)).
    { apply entries_in. cbn. rewrite Fk, Hk. repeat split; auto. now apply S. }
    rewrite L in I. destruct I.
Qed.

Section Proofs.
Variable wild : str -> str -> bool.
Variable magic : str -> str -> bool.
Variable rev : git -> str -> option tree.

Lemma do_diff_told p g this other : literal p -> present g p ->
  match this, other with
  | Index, Work => exists r, do_diff wild magic Index Work p g = Ok r /\
      told (content_at g Index) (content_at g Work) p (staged g) r
  | Commit t, Work => (forall k, at_path p k -> tget t k <> None -> staged g k) ->
      exists r, do_diff wild magic (Commit t) Work p g = Ok r /\
      told (content_at g (Commit t)) (content_at g Work) p (staged g) r
  | Commit _, Commit _ | Index, Commit _ => exists r, do_diff wild magic this other p g = Ok r /\
      told (content_at g this) (content_at g other) p (fun _ => True) r
  | _, _ => True
  end.
Proof.
  intros L P. apply there_iff in P. assert (S : forall k, pathspec wild magic p k = true <-> at_path p k) by (intros k; now apply pathspec_literal).
  unfold do_diff. rewrite P. destruct this as [| |t], other as [| |u]; try exact I; cbn [git_diff rbind].
  - eexists. split; [reflexivity|]. apply entries_told; [exact S| |]; cbn [content_at]; unfold staged.
    + intros k _ _ K. split; [|now split]. intros Q. unfold keys in K. clear - K Q. induction (g_index g) as [|[x v] r IH]; [destruct K|].
      cbn in *. destruct (str_eqb x k) eqn:E; [discriminate|]. destruct K as [-> |K]; [now rewrite str_eqb_refl in E|auto].
    + intros k _ K _. split; [now apply tget_keys|now split].
  - eexists. split; [reflexivity|]. apply entries_told; [exact S| |]; cbn [content_at].
    + intros k _ _ _. now repeat split.
    + intros k _ _ N. split; [|now split]. apply in_or_app.
      destruct (tget (g_index g) k) as [x|] eqn:E; [left|right]; apply tget_keys; congruence.
  - intros H. eexists. split; [reflexivity|]. apply entries_told; [exact S| |]; cbn [content_at]; unfold staged.
    + intros k A N _. destruct (is_some (tget (g_index g) k)) eqn:E.
      * apply is_some_iff in E. now repeat split.
      * exfalso. apply N. destruct (tget t k) eqn:T; [|reflexivity]. assert (Q : staged g k) by (apply H; congruence).
        unfold staged in Q. apply is_some_iff in Q. congruence.
    + intros k A K N. apply is_some_iff in K. rewrite K. split; [|now split]. apply in_or_app. right. apply tget_keys. now apply is_some_iff.
  - eexists. split; [reflexivity|]. apply entries_told; [exact S| |]; cbn [content_at].
    + intros k _ _ _. now repeat split.
    + intros k _ _ N. split; [|now split]. apply in_or_app.
      destruct (tget t k) as [x|] eqn:E; [left|right]; apply tget_keys; congruence.
Qed.

Lemma uncommitted_told p g h l : literal p -> present g p -> commits g = h :: l ->
  (forall k, at_path p k -> tget h k <> None -> staged g k) ->
  exists r, has_uncommitted_changes wild magic p g = Ok r /\ told (tget h) (tget (g_work g)) p (staged g) r.
Proof.
  intros L P C H. unfold has_uncommitted_changes, head_commit. rewrite C. cbn [rbind].
  exact (do_diff_told p g (Commit h) Work L P H).
Qed.
Lemma modified_told p g : literal p -> present g p ->
  exists r, modified wild magic p g = Ok r /\ told (tget (g_index g)) (tget (g_work g)) p (staged g) r.
Proof. intros L P. exact (do_diff_told p g Index Work L P). Qed.
Lemma indexed_fails p g t l : present g p -> commits g = t :: l -> indexed wild magic p g = Err GitCommandErr.
Proof. intros P C. unfold indexed, head_commit, do_diff. rewrite C. cbn [rbind]. apply there_iff in P. now rewrite P. Qed.
Lemma absent_fails p g t l : ~ present g p -> commits g = t :: l ->
  modified wild magic p g = Err (OSErr ENOENT) /\ has_uncommitted_changes wild magic p g = Err (OSErr ENOENT).
Proof.
  intros P C. unfold modified, has_uncommitted_changes, head_commit, do_diff. rewrite C. cbn [rbind].
  destruct (there g p) eqn:E; [apply there_iff in E; contradiction|now split].
Qed.

(** A file has one entry. *)
Lemma told_file before after p (seen : str -> Prop) r : p <> $"." -> seen p ->
  (forall x, seen (p ++ $"/" ++ x) -> before (p ++ $"/" ++ x) = after (p ++ $"/" ++ x)) -> told before after p seen r ->
  (before p = after p -> r = None) /\ (before p <> after p -> r = Some (mkChange p (before p) (after p))).
Proof.
  intros D S A T. split.
  - intros E. destruct r as [c|]; [|reflexivity]. exfalso. destruct T as (P & Q & B & F & N & _). apply N. rewrite B, F. destruct c as [k y z]. cbn [c_path c_before c_after] in *.
    destruct P as [P|[-> |[x ->]]]; [contradiction|exact E|exact (A x Q)].
  - intros E. destruct r as [c|]; cbn in T.
    + destruct T as (P & Q & B & F & N & _). destruct c as [k b a]. cbn [c_path c_before c_after] in *. destruct P as [P|[-> |[x ->]]]; [contradiction|congruence|].
      exfalso. apply N. rewrite B, F. exact (A x Q).
    + exfalso. apply E. apply T; [right; now left|exact S].
Qed.

(** ** diff *)
Lemma means_object g ref s : means rev g ref s -> ref_to_object rev ref g = Ok s.
Proof. destruct ref as [[|c r]|], s as [| |t]; cbn; try easy. now intros ->. Qed.
Lemma diff_told ref ref_orig a b p g : means rev g ref_orig a -> means rev g ref b -> a <> Work -> b <> Index ->
  literal p -> present g p -> (b = Work -> still_in g p a) ->
  exists r, diff wild magic rev ref ref_orig p g = Ok r /\ told (content_at g a) (content_at g b) p (seen_on g b) r.
Proof.
  intros MA MB NA NB L P K. unfold diff. rewrite (means_object _ _ _ MA), (means_object _ _ _ MB). cbn [rbind].
  pose proof (do_diff_told p g a b L P) as D. destruct a as [| |t]; [congruence| |]; destruct b as [| |u]; try congruence; try exact D.
  exact (D (K eq_refl)).
Qed.
Lemma diff_back ref b p g : means rev g ref b -> b <> Work -> literal p -> present g p -> still_in g p b ->
  exists r, diff wild magic rev ref None p g = Ok r /\ told (content_at g b) (content_at g Work) p (staged g) r.
Proof.
  intros MB NB L P K. unfold diff. rewrite (means_object _ _ _ MB). cbn [ref_to_object rbind].
  pose proof (do_diff_told p g b Work L P) as D. destruct b as [| |u]; [congruence|exact D|exact (D K)].
Qed.
Lemma diff_index ref ref_orig a p g : means rev g ref_orig a -> means rev g ref Index -> a <> Work -> present g p ->
  diff wild magic rev ref ref_orig p g = Err (match a with Index => ValueError | _ => GitCommandErr end).
Proof.
  intros MA MB NA P. unfold diff. rewrite (means_object _ _ _ MA), (means_object _ _ _ MB). cbn [rbind]. apply there_iff in P.
  unfold do_diff. destruct a as [| |t]; [congruence| |]; now rewrite P.
Qed.
Lemma uncommitted_file p g h l : literal p -> p <> $"." -> commits g = h :: l -> alone p h -> alone p (g_index g) ->
  tget (g_work g) p <> None -> staged g p ->
  (tget h p = tget (g_work g) p -> has_uncommitted_changes wild magic p g = Ok None) /\
  (tget h p <> tget (g_work g) p ->
     has_uncommitted_changes wild magic p g = Ok (Some (mkChange p (tget h p) (tget (g_work g) p)))).
Proof.
  intros L D C A A2 W S. destruct (uncommitted_told p g h l L) as (r & E & T); [right; exists p; split; [right; now left|exact W]|exact C| |].
  { intros k [K|[-> |[x ->]]] N; [contradiction|exact S|]. rewrite A in N. congruence. }
  rewrite E.
  assert (O : forall x, staged g (p ++ $"/" ++ x) -> tget h (p ++ $"/" ++ x) = tget (g_work g) (p ++ $"/" ++ x)).
  { intros x Q. unfold staged in Q. rewrite A2 in Q. congruence. }
  destruct (told_file _ _ _ _ _ D S O T) as [X Y]. split; intros Z; f_equal; [exact (X Z)|exact (Y Z)].
Qed.

Lemma untracked_silent p g h l v : literal p -> p <> $"." -> commits g = h :: l -> alone p h -> alone p (g_index g) ->
  tget (g_work g) p = Some v -> tget h p = None -> tget (g_index g) p = None ->
  has_uncommitted_changes wild magic p g = Ok None /\ modified wild magic p g = Ok None.
Proof.
  intros L D C A A2 W H I. assert (P : present g p) by (right; exists p; split; [right; now left|congruence]).
  assert (K : forall k, at_path p k -> ~ staged g k).
  { intros k [K|[-> |[x ->]]]; [contradiction| |]; unfold staged; [rewrite I|rewrite A2]; intros X; now apply X. }
  destruct (uncommitted_told p g h l L P C) as (r & E & T).
  { intros k [Q|[-> |[x ->]]] N; [contradiction| |rewrite A in N]; congruence. }
  destruct (modified_told p g L P) as (r2 & E2 & T2). rewrite E, E2. split.
  - destruct r as [c|]; [|reflexivity]. exfalso. destruct T as (Q & S & _). exact (K _ Q S).
  - destruct r2 as [c|]; [|reflexivity]. exfalso. destruct T2 as (Q & S & _). exact (K _ Q S).
Qed.

(** ** Adding and committing *)
Lemma commit_added merge sel fails g b h l p v :
  g_head g = On b -> commits g = h :: l -> p <> $"." -> alone p (g_work g) -> sel p = true -> (forall k, sel k = true -> k = p) ->
  tget (g_work g) p = Some v -> tget h p <> Some v ->
  exists t g', commit_from_working_tree merge sel fails p g = (match fails with Some e => Err e | None => Ok t end, g') /\
    g_head g' = On b /\ commits g' = (match fails with Some _ => h :: l | None => t :: h :: l end) /\
    (forall n, n <> b -> find_ref n (g_refs g') = find_ref n (g_refs g)) /\
    g_stash g' = g_stash g /\ same_tree (g_work g') (g_work g) /\ tget t p = Some v /\ (forall k, k <> p -> tget t k = tget h k).
Proof.
  intros G C D A S O W N. unfold commit_from_working_tree, add_index.
  assert (T : there g p = true) by (apply there_iff; right; exists p; split; [right; now left|congruence]). rewrite T. cbn [fst snd].
  set (g1 := mkGit _ _ _ _ _).
  assert (I1 : tget (g_index g1) p = Some v).
  { subst g1. cbn [g_index]. rewrite tget_tab.
    - replace (names p p) with true by (symmetry; apply names_iff; right; now left). rewrite W. reflexivity.
    - intros _. apply in_or_app. right. apply tget_keys. congruence. }
  destruct (commit_spec merge sel fails g1 b h l) as (t & g' & E & H1 & H2 & H3 & H4 & H5 & H6 & H7).
  - exact G.
  - rewrite <- C. reflexivity.
  - exists p. left. rewrite I1. congruence.
  - exists t, g'. rewrite E. repeat (split; [assumption || reflexivity|]). split.
    + destruct (H6 p) as [K _]. assert (X : tget t p = tget (g_work g1) p).
      { apply K; [exact S| |subst g1; cbn; congruence]. right. congruence. }
      rewrite X. exact W.
    + intros k Nk. destruct (H6 k) as [_ K]. apply K. left. destruct (sel k) eqn:Q; [|reflexivity]. now apply O in Q.
Qed.

End Proofs.

(** ** show *)
Lemma step_enc a r v r' : (a < 256)%N -> utf8_step a r = Some (v, r') -> surrogate v = false /\ a :: r = utf8_enc1 v ++ r'.
Proof.
  intros A. unfold utf8_step.
  assert (CT : forall x, cont x = true -> (128 <= x <= 191)%N).
  { intros x. unfold cont. rewrite andb_true_iff, !N.leb_le. lia. }
  destruct (N.ltb a 128) eqn:E1.
  { intros [= <- <-]. apply N.ltb_lt in E1. split; [unfold surrogate; apply andb_false_iff; left; apply N.leb_gt; lia|].
    unfold utf8_enc1. replace (N.ltb a 128) with true by (symmetry; now apply N.ltb_lt). reflexivity. }
  apply N.ltb_ge in E1. destruct (N.leb 194 a && N.leb a 223) eqn:E2.
  { destruct r as [|b r1]; [discriminate|]. destruct (cont b) eqn:B; [|discriminate]. intros [= <- <-]. apply CT in B.
    apply andb_true_iff in E2 as [X Y]. apply N.leb_le in X, Y.
    set (w := ((a - 192) * 64 + (b - 128))%N). assert (Q : (w = (a - 192) * 64 + (b - 128))%N) by reflexivity. clearbody w.
    split; [unfold surrogate; apply andb_false_iff; left; apply N.leb_gt; lia|].
    unfold utf8_enc1. replace (N.ltb w 128) with false by (symmetry; apply N.ltb_ge; lia). replace (N.ltb w 2048) with true by (symmetry; apply N.ltb_lt; lia).
    cbn [app]. assert (D : (w / 64 = a - 192)%N) by (zify; Z.to_euclidean_division_equations; lia).
    assert (M : (w mod 64 = b - 128)%N) by (zify; Z.to_euclidean_division_equations; lia). rewrite D, M. repeat f_equal; lia. }
  destruct (N.leb 224 a && N.leb a 239) eqn:E3.
  { destruct r as [|b [|c r2]]; try discriminate. set (w := ((a - 224) * 4096 + (b - 128) * 64 + (c - 128))%N).
    destruct (cont b && cont c && N.leb 2048 w && scalar w) eqn:B; [|discriminate]. intros [= <- <-].
    repeat rewrite andb_true_iff in B. destruct B as (((B & C) & L) & SC). apply CT in B, C. apply N.leb_le in L.
    apply andb_true_iff in E3 as [X Y]. apply N.leb_le in X, Y. assert (Q : (w = (a - 224) * 4096 + (b - 128) * 64 + (c - 128))%N) by reflexivity. clearbody w.
    split; [unfold scalar in SC; apply andb_true_iff in SC as [_ SC]; now apply negb_true_iff|].
    unfold utf8_enc1. replace (N.ltb w 128) with false by (symmetry; apply N.ltb_ge; lia). replace (N.ltb w 2048) with false by (symmetry; apply N.ltb_ge; lia).
    replace (N.ltb w 65536) with true by (symmetry; apply N.ltb_lt; lia).
    cbn [app]. assert (D : (w / 4096 = a - 224)%N) by (zify; Z.to_euclidean_division_equations; lia).
    assert (D2 : (w / 64 = (a - 224) * 64 + (b - 128))%N) by (zify; Z.to_euclidean_division_equations; lia).
    assert (M2 : (((a - 224) * 64 + (b - 128)) mod 64 = b - 128)%N) by (zify; Z.to_euclidean_division_equations; lia).
    assert (M : (w mod 64 = c - 128)%N) by (zify; Z.to_euclidean_division_equations; lia). rewrite D, D2, M2, M. repeat f_equal; lia. }
  destruct (N.leb 240 a && N.leb a 244) eqn:E4; [|discriminate].
  destruct r as [|b [|c [|d r3]]]; try discriminate. set (w := ((a - 240) * 262144 + (b - 128) * 4096 + (c - 128) * 64 + (d - 128))%N).
  destruct (cont b && cont c && cont d && N.leb 65536 w && scalar w) eqn:B; [|discriminate]. intros [= <- <-].
  repeat rewrite andb_true_iff in B. destruct B as ((((B & C) & F) & L) & SC). apply CT in B, C, F. apply N.leb_le in L.
  apply andb_true_iff in E4 as [X Y]. apply N.leb_le in X, Y.
  assert (Q : (w = (a - 240) * 262144 + (b - 128) * 4096 + (c - 128) * 64 + (d - 128))%N) by reflexivity. clearbody w.
  split; [unfold scalar in SC; apply andb_true_iff in SC as [_ SC]; now apply negb_true_iff|].
  unfold utf8_enc1. replace (N.ltb w 128) with false by (symmetry; apply N.ltb_ge; lia). replace (N.ltb w 2048) with false by (symmetry; apply N.ltb_ge; lia).
  replace (N.ltb w 65536) with false by (symmetry; apply N.ltb_ge; lia).
  cbn [app]. assert (D : (w / 262144 = a - 240)%N) by (zify; Z.to_euclidean_division_equations; lia).
  assert (D2 : (w / 4096 = (a - 240) * 64 + (b - 128))%N) by (zify; Z.to_euclidean_division_equations; lia).
  assert (M2 : (((a - 240) * 64 + (b - 128)) mod 64 = b - 128)%N) by (zify; Z.to_euclidean_division_equations; lia).
  assert (D3 : (w / 64 = (a - 240) * 4096 + (b - 128) * 64 + (c - 128))%N) by (zify; Z.to_euclidean_division_equations; lia).
  assert (M3 : (((a - 240) * 4096 + (b - 128) * 64 + (c - 128)) mod 64 = c - 128)%N) by (zify; Z.to_euclidean_division_equations; lia).
  assert (M : (w mod 64 = d - 128)%N) by (zify; Z.to_euclidean_division_equations; lia). rewrite D, D2, D3, M2, M3, M. repeat f_equal; lia.
Qed.
Lemma escape_enc n : forall s, (length s <= n)%nat -> (forall a, In a s -> (a < 256)%N) ->
  encode_escaped (escape_dec n s) = Ok (map byte_of s).
Proof.
  induction n as [|n IH]; intros [|a r] L B; cbn in L; try (exfalso; lia); [reflexivity|reflexivity|].
  cbn [escape_dec]. destruct (utf8_step a r) as [[v r']|] eqn:E.
  - destruct (step_enc a r v r' (B a (or_introl eq_refl)) E) as [S Q]. cbn [encode_escaped]. unfold escape_enc1. rewrite S.
    assert (LR : (length r' <= n)%nat).
    { apply (f_equal (@length N)) in Q. rewrite app_length in Q. cbn [length] in Q.
      assert (0 < length (utf8_enc1 v))%nat; [|lia]. unfold utf8_enc1.
      destruct (N.ltb v 128), (N.ltb v 2048), (N.ltb v 65536); cbn; lia. }
    rewrite IH; [|exact LR|].
    + cbn [rbind]. rewrite Q, map_app. reflexivity.
    + intros x I. apply B. rewrite Q. apply in_or_app. now right.
  - assert (A : (128 <= a)%N).
    { destruct (N.ltb a 128) eqn:Lt; [|now apply N.ltb_ge]. unfold utf8_step in E. rewrite Lt in E. discriminate. }
    pose proof (B a (or_introl eq_refl)) as A2. cbn [encode_escaped]. unfold escape_enc1.
    replace (surrogate (56320 + a)) with true by (symmetry; unfold surrogate; apply andb_true_iff; rewrite !N.leb_le; lia).
    replace (N.leb 56448 (56320 + a) && N.leb (56320 + a) 56575) with true by (symmetry; apply andb_true_iff; rewrite !N.leb_le; lia).
    rewrite IH; [|lia|intros x I; apply B; now right]. cbn [rbind map app]. replace (56320 + a - 56320)%N with a by lia. reflexivity.
Qed.
Lemma escaped b : encode_escaped (decode_escaped b) = Ok b.
Proof.
  unfold decode_escaped. rewrite escape_enc.
  - f_equal. rewrite map_map. rewrite <- (map_id b) at 2. apply map_ext. intros x. unfold byte_of. now rewrite Byte.of_to_N.
  - now rewrite map_length.
  - intros a I. apply in_map_iff in I as (x & <- & _). pose proof (Byte.to_N_bounded x). lia.
Qed.
Lemma strip_newline_app b : strip_newline (b ++ [x0a]) = b.
Proof. unfold strip_newline, rev'. rewrite <- !rev_alt, rev_app_distr. cbn. now rewrite <- rev_alt, rev_involutive. Qed.
Lemma strip_newline_other b : (forall a, b <> a ++ [x0a]) -> strip_newline b = b.
Proof.
  intros N. unfold strip_newline, rev'. rewrite <- !rev_alt. destruct (List.rev b) as [|x r] eqn:E; [reflexivity|].
  destruct x; try reflexivity. exfalso. apply (N (List.rev r)). rewrite <- (rev_involutive b), E. reflexivity.
Qed.

Section Show.
Variable rev : git -> str -> option tree.
Variable listing : tree -> str -> bytes.
Lemma show_work p g b : tget (g_work g) p = Some b -> show rev listing None p g = Ok b.
Proof. intros W. cbn. now rewrite W. Qed.
Lemma show_index p g b : stage p = None -> tget (g_index g) p = Some b -> show rev listing (Some []) p g = Ok (strip_newline b).
Proof. intros S W. cbn [show git_show]. rewrite S, W. cbn [rbind]. apply escaped. Qed.
Lemma show_ref r p g t b : r <> [] -> rev g r = Some t -> tget t p = Some b -> show rev listing (Some r) p g = Ok (strip_newline b).
Proof.
  intros R T B. destruct r as [|c r]; [congruence|]. cbn [show git_show]. rewrite T. unfold object. rewrite B. cbn [rbind]. apply escaped.
Qed.
Lemma show_any ref s p g b : means rev g (Some ref) s -> content_at g s p = Some b -> (ref = [] -> forall c r, In c $"0123" -> p <> c :: 58%N :: r) ->
  show rev listing (Some ref) p g = Ok (strip_newline b).
Proof.
  intros M C N. destruct ref as [|c r], s as [| |t]; cbn [means] in M; try contradiction M.
  - apply show_index; [|exact C]. destruct p as [|x [|y p]]; try reflexivity. cbn [stage].
    destruct (N.eq_dec y 58) as [-> |Y].
    { destruct (N.leb 48 x && N.leb x 51) eqn:Q; [exfalso|reflexivity]. apply andb_true_iff in Q as [Q1 Q2]. apply N.leb_le in Q1, Q2.
      apply (N eq_refl x p); [|reflexivity]. assert (Z : (x = 48 \/ x = 49 \/ x = 50 \/ x = 51)%N) by lia.
      destruct Z as [-> |[-> |[-> | ->]]]; vm_compute; tauto. }
    destruct y as [|y]; [reflexivity|]. do 6 (destruct y as [y|y|]; try reflexivity). now exfalso.
  - now apply (show_ref (c :: r) p g t); [discriminate| |].
Qed.
Lemma show_exact ref s p g b : means rev g (Some ref) s -> content_at g s p = Some b -> (forall a, b <> a ++ [x0a]) ->
  (ref = [] -> forall c r, In c $"0123" -> p <> c :: 58%N :: r) -> show rev listing (Some ref) p g = Ok b.
Proof. intros M C N S. rewrite (show_any ref s p g b M C S). now rewrite strip_newline_other. Qed.
Lemma show_newline ref s p g b : means rev g (Some ref) s -> content_at g s p = Some (b ++ [x0a]) ->
  (ref = [] -> forall c r, In c $"0123" -> p <> c :: 58%N :: r) -> show rev listing (Some ref) p g = Ok b.
Proof. intros M C S. rewrite (show_any ref s p g _ M C S). now rewrite strip_newline_app. Qed.
Lemma show_ref_none r p g t : r <> [] -> rev g r = Some t -> tget t p = None -> alone p t ->
  show rev listing (Some r) p g = Err GitCommandErr.
Proof.
  intros R T B A. destruct r as [|c r]; [congruence|]. cbn [show git_show]. rewrite T. unfold object. rewrite B.
  destruct (existsb _ (keys t)) eqn:E; [|reflexivity]. exfalso. apply existsb_exists in E as (k & _ & K).
  apply andb_true_iff in K as [K1 K2]. apply is_some_iff in K1. unfold beneath in K2. apply startswith_spec in K2 as [x ->].
  rewrite <- app_assoc in K1. now apply K1.
Qed.

End Show.

(** ** The history *)
Section History.
Variable wild : str -> str -> bool.
Variable history : git -> str -> option (list tree).
Lemma touches_iff sel q l : (forall k, sel k = true <-> at_path q k) -> (touches sel l = true <-> changed_in q l).
Proof.
  intros S. destruct l as [|t r]; cbn [touches changed_in]; [split; [discriminate|intros []]|]. rewrite existsb_exists. split.
  - intros (k & _ & K). apply andb_true_iff in K as [K1 K2]. apply negb_true_iff, blob_eqb_neq in K2. exists k. split; [now apply S|exact K2].
  - intros (k & K1 & K2). exists k. split.
    + apply in_or_app. destruct (tget t k) eqn:E; [left|right]; apply tget_keys; congruence.
    + apply S in K1. rewrite K1. cbn. apply blob_eqb_neq in K2. now rewrite K2.
Qed.
Lemma rev_list_in sel q l c : (forall k, sel k = true <-> at_path q k) ->
  (In c (rev_list sel l) <-> suffix_of c l /\ changed_in q c).
Proof.
  intros S. induction l as [|t r IH].
  - cbn. split; [intros []|]. intros [[a A] B]. destruct c as [|x c]; [destruct B|]. destruct a; discriminate.
  - cbn [rev_list]. rewrite in_app_iff, IH. split.
    + intros [H|[[a ->] H]].
      * destruct (touches sel (t :: r)) eqn:E; [|destruct H]. destruct H as [<-|[]]. apply (touches_iff sel q) in E; [|exact S].
        split; [now exists []|exact E].
      * split; [now exists (t :: a)|exact H].
    + intros [[a A] H]. destruct a as [|x a].
      * cbn in A. subst c. apply (touches_iff sel q) in H; [|exact S]. left. rewrite H. now left.
      * cbn in A. injection A as -> ->. right. split; [now exists a|exact H].
Qed.
(** Newest first. *)
Lemma rev_list_order sel l : forall a c b d e, rev_list sel l = a ++ c :: b ++ d :: e -> (length d < length c)%nat.
Proof.
  assert (B : forall m c, In c (rev_list sel m) -> (length c <= length m)%nat).
  { induction m as [|t r IH]; cbn [rev_list]; [intros c []|]. intros c I. apply in_app_or in I as [I|I].
    - destruct (touches sel (t :: r)); [|destruct I]. destruct I as [<-|[]]. lia.
    - apply IH in I. cbn. lia. }
  induction l as [|t r IH]; intros a c b d e E.
  { destruct a; discriminate. }
  cbn [rev_list] in E. destruct (touches sel (t :: r)) eqn:T; cbn [app] in E.
  - destruct a as [|x a]; cbn [app] in E.
    + assert (E1 : t :: r = c) by congruence. assert (E2 : rev_list sel r = b ++ d :: e) by congruence.
      assert (I : In d (rev_list sel r)) by (rewrite E2; apply in_or_app; right; now left). apply B in I. rewrite <- E1. cbn. lia.
    + assert (E2 : rev_list sel r = a ++ c :: b ++ d :: e) by congruence. exact (IH _ _ _ _ _ E2).
  - exact (IH _ _ _ _ _ E).
Qed.
Lemma rev_list_top sel q l : (forall k, sel k = true <-> at_path q k) ->
  match rev_list sel l with
  | [] => forall t, In t l -> forall k, at_path q k -> tget t k = None
  | c :: _ => same_at q (top l) (top c)
  end.
Proof.
  intros S. induction l as [|t r IH]; cbn [rev_list]; [intros t []|].
  destruct (touches sel (t :: r)) eqn:T; cbn [app]; [intros k _; reflexivity|].
  assert (Q : same_at q t (top r)).
  { intros k A. destruct (blob_eqb (tget t k) (tget (top r) k)) eqn:E; [now apply blob_eqb_eq|]. exfalso.
    apply blob_eqb_neq in E. assert (X : changed_in q (t :: r)) by (exists k; now split). apply (touches_iff sel q) in X; [congruence|exact S]. }
  destruct (rev_list sel r) as [|c m] eqn:R.
  - intros u [<-|U] k A; [|now apply (IH u)]. rewrite (Q k A). destruct r as [|u r]; [reflexivity|]. apply (IH u); [now left|exact A].
  - intros k A. cbn [top]. rewrite (Q k A). now apply IH.
Qed.

Lemma line_of_ok r g l : line_of history r g l ->
  match r with
  | None => do _ <- head_commit g ; Ok (commits g)
  | Some x => match history g x with Some l => Ok l | None => Err GitCommandErr end
  end = Ok l.
Proof.
  destruct r as [x|]; cbn [line_of]; [now intros ->|]. intros [-> N]. unfold head_commit. destruct (commits g); [congruence|reflexivity].
Qed.
Lemma commits_told r q g l n : literal q -> line_of history r g l ->
  exists m, path_commits wild history r (Some q) n g = Ok m /\
    (match n with None => forall c, In c m <-> suffix_of c l /\ changed_in q c
     | Some k => (length m <= k)%nat /\ (forall c, In c m -> suffix_of c l /\ changed_in q c) /\
         ((length m < k)%nat -> forall c, suffix_of c l -> changed_in q c -> In c m) end) /\
    forall a c b d e, m = a ++ c :: b ++ d :: e -> (length d < length c)%nat.
Proof.
  intros L H. unfold path_commits, iter_commits. rewrite (line_of_ok r g l H). cbn [rbind].
  assert (S : forall k, pathspec_abs wild q k = true <-> at_path q k) by (intros k; now apply pathspec_abs_literal).
  destruct n as [n|]; eexists; (split; [reflexivity|]).
  - split.
    + split; [apply firstn_le_length|]. split.
      * intros c I. apply (rev_list_in _ q _ _ S). rewrite <- (firstn_skipn n). apply in_or_app. now left.
      * intros F c A B. rewrite firstn_length in F. rewrite firstn_all2 by lia. apply (rev_list_in _ q _ _ S). now split.
    + intros a c b d e E. apply (rev_list_order (pathspec_abs wild q) l a c b d (e ++ skipn n (rev_list (pathspec_abs wild q) l))).
      rewrite <- (firstn_skipn n) at 1. rewrite E. rewrite <- !app_assoc. cbn [app]. now rewrite <- !app_assoc.
  - split; [intros c; now apply rev_list_in|]. intros a c b d e. apply rev_list_order.
Qed.
Lemma latest_told r q g l : literal q -> line_of history r g l ->
  match latest_commit wild history r (Some q) g with
  | Ok c => suffix_of c l /\ changed_in q c /\ same_at q (top l) (top c)
  | Err e => e = NoCommitsErr /\ forall t, In t l -> forall k, at_path q k -> tget t k = None
  end.
Proof.
  intros L H. unfold latest_commit, iter_commits. rewrite (line_of_ok r g l H). cbn [rbind].
  assert (S : forall k, pathspec_abs wild q k = true <-> at_path q k) by (intros k; now apply pathspec_abs_literal).
  pose proof (rev_list_top _ q l S) as T. destruct (rev_list (pathspec_abs wild q) l) as [|c m] eqn:E; cbn [firstn].
  - now split.
  - assert (I : In c (rev_list (pathspec_abs wild q) l)) by (rewrite E; now left). apply (rev_list_in _ q _ _ S) in I. tauto.
Qed.
Lemma latest_unborn q g : commits g = [] -> latest_commit wild history None q g = Err ValueError.
Proof. intros C. unfold latest_commit, iter_commits, head_commit. now rewrite C. Qed.
End History.

Lemma add_index_does p g : p <> $"." ->
  (present g p -> exists g', add_index p g = (Ok tt, g') /\
     g_refs g' = g_refs g /\ g_head g' = g_head g /\ g_work g' = g_work g /\ g_stash g' = g_stash g /\
     (forall k v, at_path p k -> tget (g_work g) k = Some v -> tget (g_index g') k = Some v) /\
     (forall k, ~ at_path p k \/ tget (g_work g) k = None -> tget (g_index g') k = tget (g_index g) k)) /\
  (~ present g p -> add_index p g = (Err (OSErr ENOENT), g)).
Proof.
  intros _. split; intro P; unfold add_index.
  - apply there_iff in P. rewrite P. eexists. split; [reflexivity|]. cbn [g_refs g_head g_work g_stash g_index]. repeat (split; [reflexivity|]).
    assert (X : forall k, tget (tab (keys (g_index g) ++ keys (g_work g))
        (fun k => if names p k && is_some (tget (g_work g) k) then tget (g_work g) k else tget (g_index g) k)) k
        = if names p k && is_some (tget (g_work g) k) then tget (g_work g) k else tget (g_index g) k).
    { intro k. apply tget_tab. intro N. apply in_or_app. destruct (names p k && _); [right|left]; now apply tget_keys. }
    split.
    + intros k v A W. rewrite X. apply names_iff in A. rewrite A, W. reflexivity.
    + intros k C. rewrite X. destruct (names p k) eqn:A; [|reflexivity]. apply names_iff in A. destruct C as [C|C]; [contradiction|]. now rewrite C.
  - destruct (there g p) eqn:E; [apply there_iff in E; contradiction|reflexivity].
Qed.
Lemma show_work_none rev listing p g : tget (g_work g) p = None ->
  (present g p -> show rev listing None p g = Err (OSErr EISDIR)) /\ (~ present g p -> show rev listing None p g = Err (OSErr ENOENT)).
Proof.
  intro W. unfold show. rewrite W. split; intro P.
  - apply there_iff in P. now rewrite P.
  - destruct (there g p) eqn:E; [apply there_iff in E; contradiction|reflexivity].
Qed.
