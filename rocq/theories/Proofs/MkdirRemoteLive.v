(** * Making a directory on both sides: that it is done *)
From Coq Require Import String Strings.Byte NArith ZArith Bool List Lia Permutation.
From Verif Require Import Model.Py Model.PurePath Model.RelPath Model.Meta Model.MetaXattr Model.MetaUpdate Model.Fs Model.PathOps Model.Sparse Model.Cache Model.DataDir Model.MkdirCache Model.MkdirRemote
  Spec.FsSpec Spec.LoopSpec Spec.DataDirSpec Spec.MetaSpec Spec.XattrSpec Spec.CacheSpec Spec.MkdirCacheSpec Spec.AnchorSpec Spec.MkdirRemoteSpec
  Proofs.PyLemmas Proofs.PathLemmas Proofs.FsLemmas Proofs.RunLemmas Proofs.RmtreeProofs Proofs.MoveLemmas Proofs.CopyProofs Proofs.LoopProofs
  Proofs.MetaSymlinkProofs Proofs.MetaXattrProofs Proofs.SparseProofs Proofs.CacheLemmas Proofs.AttrLemmas Proofs.DataDirProofs Proofs.MkdirCacheProofs Proofs.MkdirCacheLive
  Proofs.AnchorProofs Proofs.MkdirRemoteProofs.
From Verif Require Proofs.RmdirtreeProofs.
Import ListNotations.

Lemma walk_clear fs follow b r : forall D xs es, get fs D = Some (Dir xs es) -> Forall good_name r ->
  (forall pre post, r = pre ++ post -> free_or_dir fs (D ++ pre)) ->
  (exists ys zs, get fs (D ++ r) = Some (Dir ys zs) /\ walk_from fs follow b D r = Found (D ++ r) (Dir ys zs)) \/
  (get fs (D ++ r) = None /\ forall q n, walk_from fs follow b D r <> Found q n).
Proof.
  induction r as [|c r IH]; intros D xs es G Hn Hf.
  - rewrite app_nil_r. left. exists xs, es. split; [assumption|]. now rewrite walk_eq, G.
  - inversion Hn as [|? ? Hc Hr]; subst. rewrite walk_eq, G.
    assert (Nd : str_eqb c $"." = false) by (apply str_eqb_neq; apply Hc). assert (Ndd : str_eqb c $".." = false) by (apply str_eqb_neq; apply Hc).
    rewrite Nd, Ndd. pose proof (get_snoc fs D c) as Gs. rewrite G in Gs.
    destruct (entry c es) as [n|] eqn:En.
    + destruct (Hf [c] r eq_refl) as [F|(ys & F)]; [apply look_none in F; congruence|]. apply look_dir in F as (zs & F). rewrite Gs in F. injection F as ->.
      destruct (IH (D ++ [c]) ys zs Gs Hr) as [(us & vs & G1 & W1)|(G1 & W1)].
      * intros pre post ->. rewrite <- app_assoc. apply (Hf (c :: pre) post). reflexivity.
      * left. exists us, vs. rewrite <- app_assoc in G1, W1. auto.
      * right. rewrite <- app_assoc in G1. auto.
    + right. split.
      * change (c :: r) with ([c] ++ r). rewrite app_assoc, (get_app _ (D ++ [c])), Gs. reflexivity.
      * intros q n. destruct r; discriminate.
Qed.

Lemma kept w w' q : same w w' -> look (w_fs w') q = look (w_fs w) q.
Proof. now intros (-> & _). Qed.

Section Live.
Variable K : conf.
Hypothesis Pf : prefix_ok (c_prefix K).

Lemma nothing_recorded name : recorded K name (Some (ADir [])) = Ok None.
Proof. reflexivity. Qed.

Lemma dir_meta w Q xs es m name : no_fault w -> good_fs (w_fs w) -> get (w_fs w) Q = Some (Dir xs es) -> recorded K name (Some (ADir xs)) = Ok m ->
  exists w', cache_meta K (path_of Q) w = (Ok m, w') /\ same w w'.
Proof.
  intros N G H R. cbn [recorded] in R. destruct (from_xattrs (c_legacy K) (user_attrs xs) (c_prefix K)) as [m0|e] eqn:E0; [|discriminate]. cbn [rbind] in R. apply Ok_inj in R.
  assert (ND : forall t, Dir xs es <> Link t) by discriminate.
  destruct (exists_found w Q _ N G H ND) as (w1 & E1 & S1). destruct (same_facts _ _ _ _ S1 N G H) as (N1 & G1 & H1).
  destruct (exists_found w1 Q _ N1 G1 H1 ND) as (w2 & E2 & S2). destruct (same_facts _ _ _ _ S2 N1 G1 H1) as (N2 & G2 & H2).
  destruct (ask_run (fun fs cwd => do r <- lookup true (path_of Q) fs cwd ;
                     match node_xattrs (snd r) with Some xs => Ok (user_attrs xs) | None => fail EPERM end) w2 N2) as (w3 & E3 & S3).
  unfold lookup in E3. rewrite (walk_of _ _ _ _ _ G2 H2) in E3 by auto. cbn [rbind snd node_xattrs] in E3.
  exists w3. split; [|exact (same_trans _ _ _ S1 (same_trans _ _ _ S2 S3))].
  unfold cache_meta, eat_meta, bind at 1. rewrite E1. unfold bind at 1 2. rewrite E2. unfold bind at 1, p_xattrs, lookup.
  match goal with |- context [ask ?f w2] => change (ask f w2) with (ask (fun fs cwd => do r <- lookup true (path_of Q) fs cwd ;
                     match node_xattrs (snd r) with Some xs => Ok (user_attrs xs) | None => fail EPERM end) w2) end.
  unfold lookup. rewrite E3. unfold bind, lift. rewrite E0. cbn [ret meta_true]. unfold ret. rewrite <- R. destruct (meta_bool m0); reflexivity.
Qed.

Lemma absent_meta w p : no_fault w -> (forall follow q n, walk (w_fs w) (w_cwd w) follow p <> Found q n) -> exists w', cache_meta K p w = (Ok None, w') /\ same w w'.
Proof.
  intros N W.
  assert (T : forall follow f w0, same w w0 -> exists w1, test (sys_stat follow p) f w0 = (Ok false, w1) /\ same w w1).
  { intros follow f w0 S0. destruct (test_run follow p f w0 (no_fault_same _ _ S0 N)) as (w1 & S1 & E). exists w1. split; [|exact (same_trans _ _ _ S0 S1)]. rewrite E.
    pose proof S0 as (-> & -> & _). specialize (W follow). destruct (walk (w_fs w) (w_cwd w) follow p) as [q n|d x|e] eqn:Wk; [elim (W q n eq_refl)|reflexivity|].
    apply RmdirtreeProofs.walk_fail in Wk. rewrite Wk. reflexivity. }
  destruct (T true (fun _ => true) w (same_refl w)) as (w1 & E1 & S1). destruct (T false (fun n => match n with Link _ => true | _ => false end) w1 S1) as (w2 & E2 & S2).
  exists w2. split; [|assumption]. unfold cache_meta, p_exists, p_is_symlink, bind. rewrite E1, E2. reflexivity.
Qed.

(** ** One directory *)
Lemma mkdir_live w D x : no_fault w -> good_fs (w_fs w) -> is_dir_at (w_fs w) D -> good_name x -> clear (w_fs w) (D ++ [x]) ->
  exists w' es, p_mkdir true (path_of (D ++ [x])) w = (Ok tt, w') /\ w_cwd w' = w_cwd w /\ no_fault w' /\ good_fs (w_fs w') /\ get (w_fs w') (D ++ [x]) = Some (Dir [] es) /\
    forall q, q <> D ++ [x] -> look (w_fs w') q = look (w_fs w) q.
Proof.
  intros N G Hd X [L|L].
  - destruct (sys_ok (fun fs cwd => match walk fs cwd false (path_of (D ++ [x])) with
     | Found _ _ => fail EEXIST | Missing d0 x0 => Ok (tt, put fs (d0 ++ [x0]) (Dir [] [])) | Fail e => fail e end) w tt (put (w_fs w) (D ++ [x]) (Dir [] [])) N) as (w2 & E2 & C2).
    { now rewrite (walk_of_missing _ _ _ _ _ G Hd X L). }
    pose proof C2 as (F2 & W2 & _ & T2). pose proof (dir_plus _ _ _ Hd L) as (_ & P2 & P3). apply look_dir in P2 as (es & P2). rewrite <- F2 in P2.
    exists w2, es. split; [unfold p_mkdir; cbn [mkdir_parents]; unfold catch, sys_mkdir; rewrite E2; reflexivity|]. split; [assumption|].
    split; [exact (no_fault_changed _ _ _ C2 N)|]. split; [rewrite F2; apply good_put_new; auto; apply good_dir; [exact (NoDup_nil _)|intros ? []|intros ? ? []]|].
    split; [assumption|]. intros q Nq. rewrite F2. now apply P3.
  - apply look_dir in L as (es & L).
    pose proof (sys_run (fun fs cwd => match walk fs cwd false (path_of (D ++ [x])) with
     | Found _ _ => fail EEXIST | Missing d0 x0 => Ok (tt, put fs (d0 ++ [x0]) (Dir [] [])) | Fail e => fail e end) w N) as R.
    cbv beta in R. rewrite (walk_of _ _ _ _ _ G L) in R by discriminate. unfold fail at 1 in R. destruct R as (w1 & E1 & S1).
    destruct (same_facts _ _ _ _ S1 N G L) as (N1 & G1 & L1).
    destruct (test_run true (path_of (D ++ [x])) (fun n => match n with Dir _ _ => true | _ => false end) w1 N1) as (w2 & S2 & E2).
    rewrite (walk_of _ _ _ _ _ G1 L1) in E2 by discriminate. destruct (same_facts _ _ _ _ S2 N1 G1 L1) as (N2 & G2 & L2).
    exists w2, es. split.
    { unfold p_mkdir. cbn [mkdir_parents]. unfold catch, sys_mkdir. rewrite E1. unfold bind, p_is_dir. rewrite E2. reflexivity. }
    pose proof (same_trans _ _ _ S1 S2) as (F & C & _). split; [assumption|]. split; [assumption|]. split; [assumption|]. split; [assumption|]. intros q _. now rewrite F.
Qed.

Lemma told_tells m a : told m a -> tells (mkAbove [] (Ok (Some m))) a.
Proof. intros (I & T & S & B). exists m. auto. Qed.

Lemma told_bool m a : told m a -> meta_bool m = true.
Proof. intros (I & T & S & B). apply id_bool. rewrite (init_id _ _ I). now apply blank_none. Qed.

Lemma init_live w Q es m a : told m a -> no_fault w -> good_fs (w_fs w) -> get (w_fs w) Q = Some (Dir [] es) ->
  exists w' xs, cache_init_meta K (path_of Q) m w = (Ok tt, w') /\ w_cwd w' = w_cwd w /\ no_fault w' /\ good_fs (w_fs w') /\ get (w_fs w') Q = Some (Dir xs es) /\
    (forall b name, told m b -> exists m', recorded K name (Some (ADir xs)) = Ok (Some m') /\ carries m' (shown b)) /\
    forall q, q <> Q -> look (w_fs w') q = look (w_fs w) q.
Proof.
  intros T N G H.
  destruct (dir_meta w Q _ _ _ [] N G H (nothing_recorded [])) as (w1 & E1 & S1). destruct (same_facts _ _ _ _ S1 N G H) as (N1 & G1 & H1).
  destruct (exists_found w1 Q _ N1 G1 H1) as (w2 & E2 & S2); [discriminate|]. destruct (same_facts _ _ _ _ S2 N1 G1 H1) as (N2 & G2 & H2).
  destruct (dir_meta w2 Q _ _ _ [] N2 G2 H2 (nothing_recorded [])) as (w3 & E3 & S3). destruct (same_facts _ _ _ _ S3 N2 G2 H2) as (N3 & G3 & H3).
  pose proof (same_trans _ _ _ S1 (same_trans _ _ _ S2 S3)) as (F & C & _ & Tf).
  assert (Set_ : forall b, told m b -> forall name, exists m' xs w', cache_set K (path_of Q) (Some m) w3 = (Ok tt, w') /\ w_cwd w' = w_cwd w3 /\ w_fault w' = w_fault w3 /\ good_fs (w_fs w') /\
    get (w_fs w') Q = Some (Dir xs es) /\ recorded K name (Some (ADir xs)) = Ok (Some m') /\ carries m' (shown b) /\ forall q, q <> Q -> look (w_fs w') q = look (w_fs w3) q).
  { intros b Tb name. destruct (set_run K Pf _ b Q es w3 (told_tells _ _ Tb) N3 G3 H3 name) as (m0 & m' & xs & w' & Um & R). cbn [u_meta] in Um.
    assert (Em : m0 = m) by congruence. subst m0. exists m', xs, w'. exact R. }
  destruct (Set_ a T []) as (_ & xs & w' & E & Cw & Tw & G' & L & _ & _ & O).
  exists w', xs. split.
  { unfold cache_init_meta, bind at 1. rewrite E1. cbn [meta_true]. unfold bind at 1. rewrite E2. cbn [negb]. rewrite (told_bool _ _ T).
    unfold meta_updater, bind at 1 2. rewrite E3. unfold update_meta. cbn [negb]. unfold lift, bind, ret, catch, when. rewrite E. reflexivity. }
  split; [congruence|]. split; [intro t; rewrite Tw, Tf; apply N|]. split; [assumption|]. split; [assumption|]. split.
  - intros b name Tb. destruct (Set_ b Tb name) as (m' & ys & w2' & E' & _ & _ & _ & L' & R & Cm & _). rewrite E in E'. assert (w' = w2') by congruence. subst w2'.
    rewrite L in L'. assert (xs = ys) by congruence. subst ys. eauto.
  - intros q Nq. rewrite (O q Nq). now rewrite F.
Qed.

(** ** All of them *)
Section Far.
Variable child_far : list made -> pyval -> str -> res pathmeta.

Lemma remote_live w D i : no_fault w -> good_fs (w_fs w) -> dir_id K (w_fs w) D i ->
  exists m w', cache_meta K (path_of D) w = (Ok (Some m), w') /\ same w w'.
Proof.
  intros N G (xs & m & name & L & R & _). apply look_dir in L as (es & L). destruct (dir_meta w D xs es _ name N G L R) as (w1 & E1 & S1). eauto.
Qed.
Lemma remote_id w D i : no_fault w -> good_fs (w_fs w) -> dir_id K (w_fs w) D i ->
  exists w', remote_of K true (path_of D) w = (Ok (Some i), w') /\ same w w'.
Proof.
  intros N G (xs & m & name & L & R & E & Ni). apply look_dir in L as (es & L). destruct (dir_meta w D xs es _ name N G L R) as (w1 & E1 & S1). exists w1. split; [|assumption].
  assert (B : meta_bool m = true).
  { cbn [recorded] in R. destruct (from_xattrs _ _ _) as [m0|]; [|discriminate]. cbn [rbind] in R. apply Ok_inj in R. destruct (meta_bool m0) eqn:B0; [|discriminate]. injection R as <-. exact B0. }
  unfold remote_of, cache_id, bind. rewrite E1, B. unfold ret. rewrite E. destruct i; try reflexivity. contradiction.
Qed.
Lemma dir_id_same w w' D i : same w w' -> dir_id K (w_fs w) D i -> dir_id K (w_fs w') D i.
Proof. now intros (-> & _). Qed.
Lemma dir_id_dir fs D i : dir_id K fs D i -> is_dir_at fs D.
Proof. intros (xs & _ & _ & L & _). now exists xs. Qed.

Lemma answers_names l i names new : answers child_far l i names new -> map b_name new = names.
Proof. induction 1 as [|l i x m a names new C T An IH]; [reflexivity|]. cbn [map b_name]. now rewrite IH. Qed.

(** Here, when there is one at the remote *)
Lemma here_live w D x m a : told m a -> no_fault w -> good_fs (w_fs w) -> is_dir_at (w_fs w) D -> good_name x -> clear (w_fs w) (D ++ [x]) ->
  exists w1 w' xs, p_mkdir true (path_of (D ++ [x])) w = (Ok tt, w1) /\ cache_init_meta K (path_of (D ++ [x])) m w1 = (Ok tt, w') /\
    no_fault w' /\ good_fs (w_fs w') /\ look (w_fs w') (D ++ [x]) = Some (ADir xs) /\
    (forall b name, told m b -> exists m', recorded K name (Some (ADir xs)) = Ok (Some m') /\ carries m' (shown b)) /\
    dir_id K (w_fs w') (D ++ [x]) (a Fid) /\ forall q, q <> D ++ [x] -> look (w_fs w') q = look (w_fs w) q.
Proof.
  intros T N G Hd X Cl. destruct (mkdir_live w D x N G Hd X Cl) as (w1 & es & E1 & _ & N1 & G1 & L1 & O1).
  destruct (init_live w1 (D ++ [x]) es m a T N1 G1 L1) as (w' & xs & E & _ & N' & G' & L & R & O).
  assert (Lk : look (w_fs w') (D ++ [x]) = Some (ADir xs)) by (apply look_dir; eauto).
  exists w1, w', xs. split; [assumption|]. split; [assumption|]. split; [assumption|]. split; [assumption|]. split; [assumption|]. split; [assumption|]. split.
  - destruct (R a x T) as (m' & Rm & Cm). exists xs, m', x. split; [assumption|]. split; [assumption|].
    destruct Cm as (Cm & _). specialize (Cm (c_dateparse K) Fid eq_refl). cbn [getf] in Cm. apply Ok_inj in Cm. rewrite Cm. unfold shown. destruct T as (_ & _ & _ & B). rewrite B.
    split; [reflexivity|]. now apply blank_none.
  - intros q Nq. now rewrite (O q Nq), (O1 q Nq).
Qed.

Lemma downward_live : forall names D l i new last w, no_fault w -> good_fs (w_fs w) -> dir_id K (w_fs w) D i -> Forall good_name names -> clear_way (w_fs w) D names ->
  answers child_far l i names new ->
  exists w' o, downward K true child_far (path_of D) names last l w = (Ok o, (l ++ new, w')) /\ no_fault w' /\ good_fs (w_fs w') /\ placed K D new (w_fs w') /\
    else_same D names (w_fs w) (w_fs w') /\ (forall pre b, new = pre ++ [b] -> o = Some (path_of (D ++ names), b_meta b)) /\ (new = [] -> o = last).
Proof.
  induction names as [|x names IH]; intros D l i new last w N G Hi Hn Hc An; inversion An as [|? ? ? m a ? new' Cf T An']; subst.
  - exists w, last. rewrite app_nil_r. split; [reflexivity|]. split; [assumption|]. split; [assumption|]. split; [intros pre b post E; now destruct pre|].
    split; [intros q _; reflexivity|]. split; [intros pre b E; now destruct pre|reflexivity].
  - inversion Hn as [|? ? X Hn']; subst.
    destruct (remote_live w D i N G Hi) as (mD & w1 & E1 & S1). pose proof (no_fault_same _ _ S1 N) as N1. assert (G1 : good_fs (w_fs w1)) by (now destruct S1 as (-> & _)).
    destruct (remote_id w1 D i N1 G1 (dir_id_same _ _ _ _ S1 Hi)) as (w2 & E2 & S2). pose proof (no_fault_same _ _ S2 N1) as N2.
    pose proof (same_trans _ _ _ S1 S2) as S12. assert (F2 : w_fs w2 = w_fs w) by (now destruct S12). assert (G2 : good_fs (w_fs w2)) by (now rewrite F2).
    destruct (here_live w2 D x m a T N2 G2) as (w3 & w4 & xs & E3 & E4 & N4 & G4 & L4 & R4 & I4 & O4).
    { rewrite F2. now apply (dir_id_dir _ _ i). } { assumption. } { rewrite F2. apply (Hc [x] names); [reflexivity|discriminate]. }
    destruct (IH (D ++ [x]) (l ++ [mkMade i x m]) (a Fid) new' (Some (path_of (D ++ [x]), m)) w4 N4 G4 I4 Hn') as (w' & o & E & N' & G' & Pl & Fr & Ol & On).
    { intros pre post -> Np. unfold clear. rewrite <- app_assoc, O4, F2; [apply (Hc (x :: pre) post); [reflexivity|discriminate]|].
      intro Z. apply app_inv_head in Z. injection Z as Z. contradiction. }
    { exact An'. }
    assert (Keep : look (w_fs w') (D ++ [x]) = Some (ADir xs)).
    { rewrite Fr; [exact L4|]. intros pre post _ Np Z. apply Np. apply (app_inv_head (D ++ [x])). now rewrite <- Z, app_nil_r. }
    exists w', o. split.
    { cbn [downward]. unfold bbind at 1, near. rewrite E1. unfold bbind at 1. rewrite E2. unfold bbind at 1, make_far. rewrite Cf. unfold bbind at 1.
      change (child (path_of D) x) with (path_of (D ++ [x])). rewrite E3. unfold bbind at 1. rewrite E4, E, <- app_assoc. reflexivity. }
    split; [assumption|]. split; [assumption|]. split; [|split; [|split]].
    + intros pre b post Eq. destruct pre as [|b0 pre]; injection Eq as <- ->.
      * exists xs. split; [exact Keep|]. intros c Tc. now apply R4.
      * destruct (Pl pre b post eq_refl) as (ys & Ly & Ry). exists ys. split; [|assumption]. cbn [app map b_name]. rewrite <- app_assoc in Ly. exact Ly.
    + intros q Hq. rewrite Fr.
      * rewrite O4, F2; [reflexivity|]. apply (Hq [x] names); [reflexivity|discriminate].
      * intros pre post -> Np. rewrite <- app_assoc. apply (Hq (x :: pre) post); [reflexivity|discriminate].
    + intros pre b Eq. destruct pre as [|b0 pre].
      * injection Eq as <- ->. rewrite (On eq_refl). inversion An'; subst. reflexivity.
      * injection Eq as <- ->. rewrite (Ol pre b eq_refl). now rewrite <- app_assoc.
    + discriminate.
Qed.

(** ** Looking for the directory that has an id *)
Variables (A : place) (names : list str).
Notation self := (path_of (A ++ names)).

Lemma none_live w j : no_fault w -> good_fs (w_fs w) -> is_dir_at (w_fs w) A -> Forall good_name names -> clear_way (w_fs w) A names -> (0 < j <= length names)%nat ->
  exists w', cache_meta K (path_of (A ++ firstn j names)) w = (Ok None, w') /\ same w w'.
Proof.
  intros N G Hd Hn Hc Hj. assert (Nj : firstn j names <> []) by (destruct j, names; cbn in *; (lia || discriminate)).
  assert (Cl : clear (w_fs w) (A ++ firstn j names)) by (apply (Hc _ (skipn j names)); [now rewrite firstn_skipn|assumption]).
  destruct Cl as [L|L].
  2:{ apply look_dir in L as (es & L). exact (dir_meta w _ _ _ _ [] N G L (nothing_recorded [])). }
  apply absent_meta; [assumption|]. intros follow q n Z. destruct Hd as (xs & Hd). apply look_dir in Hd as (es & Hd).
  assert (R : exists rx re, get (w_fs w) [] = Some (Dir rx re)).
  { destruct A as [|z A']; [eauto|]. change (z :: A') with ([] ++ z :: A') in Hd. now apply get_above in Hd as (rx & re & Hd); eauto. }
  destruct R as (rx & re & R).
  destruct (walk_clear (w_fs w) follow max_links (A ++ firstn j names) [] rx re R) as [(ys & zs & Gq & _)|(_ & Nf)].
  - apply Forall_app. split; [exact (good_names _ _ _ (proj1 G) Hd)|]. apply Forall_forall. intros c I. rewrite Forall_forall in Hn. apply Hn.
    rewrite <- (firstn_skipn j names). apply in_or_app. now left.
  - intros pre post Eq. cbn [app]. destruct (Nat.le_gt_cases (length pre) (length A)) as [Le|Gt].
    + right. assert (Ea : A = pre ++ skipn (length pre) A).
      { rewrite <- (firstn_skipn (length pre) A) at 1. f_equal. assert (Z1 : firstn (length pre) (A ++ firstn j names) = pre) by (rewrite Eq, firstn_app, firstn_all; replace (length pre - length pre)%nat with O by lia; cbn [firstn]; now rewrite app_nil_r).
        rewrite firstn_app in Z1. replace (length pre - length A)%nat with O in Z1 by lia. cbn [firstn] in Z1. now rewrite app_nil_r in Z1. }
      destruct (skipn (length pre) A) as [|y r].
      * rewrite app_nil_r in Ea. rewrite <- Ea. exists xs. apply look_dir. eauto.
      * rewrite Ea in Hd. apply get_above in Hd as (us & vs & Hd). exists us. apply look_dir. eauto.
    + assert (Ep : exists p2, pre = A ++ p2 /\ p2 <> [] /\ firstn j names = p2 ++ post).
      { exists (skipn (length A) pre). assert (Z1 : pre = A ++ skipn (length A) pre).
        { rewrite <- (firstn_skipn (length A) pre) at 1. f_equal. assert (Z2 : firstn (length A) (A ++ firstn j names) = A) by (rewrite firstn_app, firstn_all; replace (length A - length A)%nat with O by lia; cbn [firstn]; now rewrite app_nil_r).
          rewrite Eq, firstn_app in Z2. replace (length A - length pre)%nat with O in Z2 by lia. cbn [firstn] in Z2. now rewrite app_nil_r in Z2. }
        split; [assumption|]. split; [intro Z2; apply (f_equal (@length _)) in Z2; rewrite skipn_length in Z2; cbn in Z2; lia|].
        rewrite Z1, <- app_assoc in Eq. now apply app_inv_head in Eq. }
      destruct Ep as (p2 & -> & Np & E2). destruct (Hc p2 (post ++ skipn j names)) as [Z1|Z1]; [|assumption|now left|right; now exists []].
      rewrite app_assoc, <- E2. now rewrite firstn_skipn.
  - cbn [app] in Gq. apply look_none in L. congruence.
  - exact (Nf q n Z).
Qed.

Lemma upward_live l new w m0 i : no_fault w -> good_fs (w_fs w) -> dir_id K (w_fs w) A i -> Forall good_name names -> clear_way (w_fs w) A names ->
  answers child_far l i names new -> (exists pre, new = pre ++ [m0]) ->
  forall j, (j < length names)%nat ->
  exists w', upward K true child_far self (map (fun k => mkPP true (firstn k (A ++ names))) (rev (seq 0 (length A + S j)))) l w = (Ok (Some (b_meta m0)), (l ++ new, w')) /\
    placed K A new (w_fs w') /\ else_same A names (w_fs w) (w_fs w').
Proof.
  intros N G Hi Hn Hc An (pn & En) j Hj. revert w N G Hi Hc. induction j as [|j IH]; intros w N G Hi Hc.
  - rewrite Nat.add_1_r, seq_S, rev_app_distr. cbn [rev app map]. change (0 + length A)%nat with (length A).
    assert (Ec : firstn (length A) (A ++ names) = A) by (rewrite firstn_app, firstn_all; replace (length A - length A)%nat with O by lia; cbn [firstn]; now rewrite app_nil_r).
    cbn [upward]. change (mkPP true (firstn (length A) (A ++ names))) with (mkPP (pp_abs self) (firstn (length A) (pp_parts self))).
    assert (Ip : RelPathSpec.is_path self).
    { destruct (dir_id_dir _ _ _ Hi) as (xs0 & D0). apply look_dir in D0 as (es0 & D0). pose proof (good_names _ _ _ (proj1 G) D0) as Ga.
      intros c I. cbn [path_of pp_parts] in I. rewrite Forall_forall in Ga, Hn. apply in_app_or in I as [I|I]; [destruct (Ga c I) as (Z1 & Z2 & _ & Z3)|destruct (Hn c I) as (Z1 & Z2 & _ & Z3)]; auto. }
    rewrite (cut_relative self Ip). change (mkPP (pp_abs self) (firstn (length A) (pp_parts self))) with (path_of (firstn (length A) (A ++ names))). rewrite Ec.
    replace (skipn (length A) (pp_parts self)) with names by (cbn [path_of pp_parts]; rewrite skipn_app, skipn_all; replace (length A - length A)%nat with O by lia; reflexivity).
    destruct (remote_live w A i N G Hi) as (mD & w1 & E1 & S1). pose proof (no_fault_same _ _ S1 N) as N1. assert (F1 : w_fs w1 = w_fs w) by (now destruct S1).
    destruct (downward_live names A l i new None w1 N1) as (w2 & o & E2 & N2 & G2 & Pl & Fr & Ol & _); [now rewrite F1|now rewrite F1|assumption|now rewrite F1|assumption|].
    rewrite (Ol pn m0 En) in E2.
    assert (Last : exists m' w3, cache_meta K self w2 = (Ok (Some m'), w3) /\ same w2 w3).
    { destruct (Pl pn m0 []) as (xs & L & R); [assumption|]. rewrite <- En, (answers_names _ _ _ _ An) in L.
      assert (Tm : exists a, told (b_meta m0) a).
      { clear - An En. revert pn En. induction An as [|l i x m a names new C T An IH]; intros pn En; [now destruct pn|]. destruct pn as [|b pn]; injection En as <- En; [exists a; exact T|now apply (IH pn)]. }
      destruct Tm as (a & Ta). destruct (R a Ta) as (m' & Rm & _). apply look_dir in L as (es & L). destruct (dir_meta w2 _ _ _ _ _ N2 G2 L Rm) as (w3 & E3 & S3). eauto. }
    destruct Last as (m' & w3 & E3 & S3).
    exists w3. split.
    { unfold bbind at 1, near. rewrite E1. unfold bbind at 1, lift. unfold bbind at 1. change (parts (mkPP false names)) with names. rewrite E2.
      unfold bbind, attach, bind. rewrite E3. reflexivity. }
    destruct S3 as (-> & _). split; [assumption|]. unfold else_same in *. now rewrite <- F1.
  - replace (length A + S (S j))%nat with (S (length A + S j)) by lia. rewrite seq_S, rev_app_distr. cbn [rev app map]. change (0 + (length A + S j))%nat with (length A + S j)%nat.
    cbn [upward]. assert (Ec : firstn (length A + S j) (A ++ names) = A ++ firstn (S j) names).
    { rewrite firstn_app. rewrite firstn_all2 by lia. f_equal. f_equal. lia. }
    rewrite Ec. destruct (none_live w (S j) N G (dir_id_dir _ _ _ Hi) Hn Hc) as (w1 & E1 & S1); [lia|].
    assert (F1 : w_fs w1 = w_fs w) by (now destruct S1).
    destruct (IH ltac:(lia) w1) as (w' & E & Pl & Fr); [exact (no_fault_same _ _ S1 N)|now rewrite F1|now rewrite F1|now rewrite F1|].
    exists w'. split.
    { unfold bbind at 1, near. change (mkPP true (A ++ firstn (S j) names)) with (path_of (A ++ firstn (S j) names)). rewrite E1. exact E. }
    split; [assumption|]. unfold else_same in *. now rewrite <- F1.
Qed.

Lemma mkdir_remote_live exists_far up l i new fs cwd fault : good_fs fs -> (forall t, fault t = None) -> dir_id K fs A i -> Forall good_name names -> clear_way fs A names ->
  answers child_far l i names new -> (up = true \/ length names = 1%nat) -> names <> [] ->
  exists m w', mkdir_remote K true true exists_far child_far self up l (start fs cwd fault) = (Ok (Some m), (l ++ new, w')) /\
    (exists pre b, new = pre ++ [b] /\ b_meta b = m) /\ placed K A new (w_fs w') /\ else_same A names fs (w_fs w').
Proof.
  intros G N Hi Hn Hc An Up Ne. set (w := start fs cwd fault). assert (Nw : no_fault w) by (exact N).
  assert (En : exists pn b, new = pn ++ [b]).
  { pose proof (answers_names _ _ _ _ An) as Mn. destruct new as [|b0 new0 _] using rev_ind; [now rewrite <- Mn in Ne|eauto]. }
  destruct En as (pn & b & En).
  destruct (none_live w (length names) Nw G (dir_id_dir _ _ _ Hi) Hn Hc) as (w1 & E1 & S1); [destruct names; [contradiction|cbn; lia]|]. rewrite firstn_all in E1.
  assert (F1 : w_fs w1 = w_fs w) by (destruct S1 as (-> & _); reflexivity). pose proof (no_fault_same _ _ S1 Nw) as N1.
  assert (Single : forall x, names = [x] -> exists m w', mkdir_remote K true true exists_far child_far self up l w = (Ok (Some m), (l ++ new, w')) /\
    (exists pre b, new = pre ++ [b] /\ b_meta b = m) /\ placed K A new (w_fs w') /\ else_same A names fs (w_fs w')).
  { intros x Ex. assert (Pp : pp_parent self = path_of A) by (unfold pp_parent, path_of; cbn [pp_parts pp_abs]; now rewrite Ex, removelast_last).
    assert (Pn : pp_name self = x) by (unfold pp_name, path_of; cbn [pp_parts]; now rewrite Ex, last_last).
    rewrite Ex in An. inversion An as [|? ? ? m a ? new' Cf T An']; subst. inversion An'; subst. clear An'.
    destruct (remote_live w1 A i N1) as (mD & w2 & E2 & S2); [now rewrite F1|now rewrite F1|]. pose proof (no_fault_same _ _ S2 N1) as N2. assert (F2 : w_fs w2 = w_fs w1) by (now destruct S2).
    destruct (remote_id w2 A i N2) as (w3 & E3 & S3); [now rewrite F2, F1|now rewrite F2, F1|]. pose proof (no_fault_same _ _ S3 N2) as N3. assert (F3 : w_fs w3 = w_fs w2) by (now destruct S3).
    destruct (here_live w3 A x m a T N3) as (w4 & w5 & xs & E4 & E5 & N5 & G5 & L5 & R5 & _ & O5).
    { now rewrite F3, F2, F1. } { rewrite F3, F2, F1. now apply (dir_id_dir _ _ i). } { now inversion Hn. } { rewrite F3, F2, F1. apply (Hc [x] []); [reflexivity|discriminate]. }
    destruct (R5 a x T) as (m' & Rm & _). pose proof L5 as L5'. apply look_dir in L5' as (es & L5'). destruct (dir_meta w5 _ _ _ _ _ N5 G5 L5' Rm) as (w6 & E6 & S6).
    exists m, w6. split.
    { unfold mkdir_remote, bbind at 1, near. rewrite E1. unfold bbind at 1, bret at 1. unfold bbind at 1. rewrite Pp, E2. unfold bbind at 1. rewrite E3. unfold bbind at 1, make_far. rewrite Pn, Cf.
      unfold bbind at 1. rewrite E4. unfold bbind, attach, bind. rewrite E5, E6. reflexivity. }
    split; [exists [], (mkMade i x m); auto|]. destruct S6 as (-> & _). split.
    - intros pre b0 post Eq. destruct pre as [|? pre]; [|now destruct pre]. injection Eq as <- <-. exists xs. split; [exact L5|]. intros c Tc. now apply R5.
    - intros q Hq. rewrite O5, F3, F2, F1; [reflexivity|]. apply (Hq [x] []); [reflexivity|discriminate]. }
  destruct names as [|x [|y r]] eqn:Ex; [contradiction|now apply (Single x)|]. destruct Up as [->|Z]; [|discriminate]. rewrite <- Ex in *. clear Single.
  assert (Ln : (2 <= length names)%nat) by (rewrite Ex; cbn; lia).
  assert (Pp : pp_parent self = path_of (A ++ firstn (length names - 1) names)).
  { unfold pp_parent, path_of. cbn [pp_parts pp_abs]. f_equal. rewrite removelast_app by assumption. f_equal. rewrite removelast_firstn_len. f_equal. lia. }
  destruct (none_live w1 (length names - 1) N1) as (w2 & E2 & S2); [now rewrite F1|rewrite F1; now apply (dir_id_dir _ _ i)|assumption|now rewrite F1|lia|].
  assert (F2 : w_fs w2 = w_fs w1) by (now destruct S2).
  destruct (upward_live l new w2 b i (no_fault_same _ _ S2 N1)) with (j := (length names - 1)%nat) as (w' & E & Pl & Fr); [now rewrite F2, F1|now rewrite F2, F1|assumption|now rewrite F2, F1|assumption|eauto|lia|].
  exists (b_meta b), w'. split.
  { unfold mkdir_remote, bbind at 1, near. rewrite E1. unfold bbind at 1, bret at 1. unfold bbind at 1. rewrite Pp, E2. unfold above_path. cbn [path_of pp_abs pp_parts].
    rewrite app_length. replace (length names) with (S (length names - 1)) at 1 by lia. exact E. }
  split; [eauto|]. split; [assumption|]. unfold else_same in *. now rewrite F2, F1 in Fr.
Qed.
End Far.
End Live.

(** ** Nothing is made *)
Lemma still_states fs cwd fault w : w_fs w = w_fs (start fs cwd fault) -> w_hist w = w_hist (start fs cwd fault) -> forall s, In s (states w) -> s = fs.
Proof. intros F H s I. unfold states in I. rewrite F, H in I. cbn in I. intuition. Qed.
Lemma calm_read {A} (m : M A) w r v : firm m -> no_fault w -> m (start (w_fs w) (w_cwd w) (fun _ => None)) = (r, v) -> exists w', m w = (r, w') /\ same w w'.
Proof.
  intros F N H. apply F in H as [(t & e & Z & _)|H]; [discriminate| |intros t e Z; discriminate]. now apply H.
Qed.
Lemma none_run K p w : no_fault w -> none_at K (w_fs w) (w_cwd w) p -> exists w', cache_meta K p w = (Ok None, w') /\ same w w'.
Proof. intros N (v & H). now apply (calm_read _ w _ v (firm_meta K p)). Qed.
Lemma none_at_same K w w' p : same w w' -> none_at K (w_fs w) (w_cwd w) p -> none_at K (w_fs w') (w_cwd w') p.
Proof. now intros (-> & -> & _). Qed.

Lemma id_run K p i w : no_fault w -> id_at K (w_fs w) (w_cwd w) p i -> i <> PNone ->
  exists m w1 w2, cache_meta K p w = (Ok (Some m), w1) /\ same w w1 /\ remote_of K true p w1 = (Ok (Some i), w2) /\ same w w2.
Proof.
  intros N (v & H) Ni.
  destruct (calm_read _ w _ v (firm_id K p) N H) as (w1 & E1 & S1).
  unfold cache_id, bind in E1. destruct (cache_meta K p w) as [[[m|]|e] w0] eqn:Em; [|injection E1 as E1; congruence|discriminate].
  pose proof (quiet_cache_meta K _ _ _ _ Em) as S0. destruct (meta_bool m) eqn:B; [|injection E1 as E1; congruence]. unfold ret in E1. injection E1 as E1 <-.
  destruct S0 as (F0 & C0 & H0 & T0).
  destruct (calm_read _ w0 (Ok i) v (firm_id K p)) as (w2 & E2 & S2); [intro t; rewrite T0; apply N|rewrite F0, C0; exact H|].
  exists m, w0, w2. split; [reflexivity|]. split; [repeat split; assumption|]. split; [|apply (same_trans _ w0); [repeat split; assumption|assumption]].
  unfold remote_of, bind. rewrite E2. unfold ret. destruct i; try reflexivity. contradiction.
Qed.

Lemma remote_exists K anchored exists_far child_far self up i l fs cwd fault : (forall t, fault t = None) -> id_at K fs cwd self i -> i <> PNone -> exists_far l i = Ok true ->
  exists w', mkdir_remote K true anchored exists_far child_far self up l (start fs cwd fault) = (Err RemotePathExistsErr, (l, w')) /\ (forall s, In s (states w') -> s = fs).
Proof.
  intros N H Ni Ef. set (w := start fs cwd fault). destruct (id_run K self i w N H Ni) as (m & w1 & w2 & E1 & S1 & E2 & S2).
  exists w2. split; [|destruct S2 as (F & _ & Hh & _); exact (still_states fs cwd fault _ F Hh)].
  unfold mkdir_remote, bbind at 1, near. rewrite E1. unfold bbind at 1 2. rewrite E2, Ef. reflexivity.
Qed.

Lemma above_none K configured child_far self fs cwd l : forall ps w, no_fault w -> w_fs w = fs -> w_cwd w = cwd -> (forall p, In p ps -> none_at K fs cwd p) ->
  exists w', upward K configured child_far self ps l w = (Ok None, (l, w')) /\ same w w'.
Proof.
  induction ps as [|p ps IH]; intros w N F C H; [exists w; split; [reflexivity|apply same_refl]|].
  destruct (none_run K p w N) as (w1 & E1 & S1); [rewrite F, C; apply H; now left|]. pose proof S1 as (F1 & C1 & _).
  destruct (IH w1 (no_fault_same _ _ S1 N)) as (w' & E & S'); [congruence|congruence|intros q I; apply H; now right|].
  exists w'. split; [|exact (same_trans _ _ _ S1 S')]. cbn [upward]. unfold bbind at 1, near. rewrite E1. exact E.
Qed.

Lemma nothing_above K configured anchored exists_far child_far self l fs cwd fault : (forall t, fault t = None) -> pp_parts self <> [] ->
  (forall p, on_way self p -> none_at K fs cwd p) -> forall up,
  exists w', mkdir_remote K configured anchored exists_far child_far self up l (start fs cwd fault) = ((if up then Ok None else Err (OSErr ENOENT)), (l, w')) /\ (forall s, In s (states w') -> s = fs).
Proof.
  intros N Ne H up. set (w := start fs cwd fault).
  assert (Ws : on_way self self) by (split; [reflexivity|]; exists []; now rewrite app_nil_r).
  assert (Wp : on_way self (pp_parent self)) by (split; [reflexivity|]; exists [last (pp_parts self) []]; now apply app_removelast_last).
  destruct (none_run K self w N (H _ Ws)) as (w1 & E1 & S1). pose proof (no_fault_same _ _ S1 N) as N1.
  destruct (none_run K (pp_parent self) w1 N1 (none_at_same K _ _ _ S1 (H _ Wp))) as (w2 & E2 & S2). pose proof (same_trans _ _ _ S1 S2) as S12.
  assert (Fin : forall w', same w w' -> (forall s, In s (states w') -> s = fs)) by (intros w' (F & _ & Hh & _); exact (still_states fs cwd fault _ F Hh)).
  destruct up.
  - destruct (above_none K configured child_far self fs cwd l (above_path self) w2 (no_fault_same _ _ S2 N1)) as (w' & E & S'); [now destruct S12|now destruct S12 as (_ & -> & _)| |].
    + intros p I. apply H. unfold above_path in I. apply in_map_iff in I as (k & <- & _). split; [reflexivity|]. exists (skipn k (pp_parts self)). cbn [pp_parts]. now rewrite firstn_skipn.
    + exists w'. split; [|apply Fin; exact (same_trans _ _ _ S12 S')]. unfold mkdir_remote, bbind at 1, near. rewrite E1. unfold bbind at 1, bret at 1. unfold bbind at 1. rewrite E2. exact E.
  - exists w2. split; [|now apply Fin]. unfold mkdir_remote, bbind at 1, near. rewrite E1. unfold bbind at 1, bret at 1. unfold bbind at 1. rewrite E2. reflexivity.
Qed.

Lemma no_parents K configured anchored exists_far child_far self l fs cwd fault : (forall t, fault t = None) -> none_at K fs cwd self -> none_at K fs cwd (pp_parent self) ->
  exists w', mkdir_remote K configured anchored exists_far child_far self false l (start fs cwd fault) = (Err (OSErr ENOENT), (l, w')) /\ (forall s, In s (states w') -> s = fs).
Proof.
  intros N H1 H2. set (w := start fs cwd fault).
  destruct (none_run K self w N H1) as (w1 & E1 & S1). pose proof (no_fault_same _ _ S1 N) as N1.
  destruct (none_run K (pp_parent self) w1 N1 (none_at_same K _ _ _ S1 H2)) as (w2 & E2 & S2). pose proof (same_trans _ _ _ S1 S2) as (F & _ & Hh & _).
  exists w2. split; [|exact (still_states fs cwd fault _ F Hh)]. unfold mkdir_remote, bbind at 1, near. rewrite E1. unfold bbind at 1, bret at 1. unfold bbind at 1. rewrite E2. reflexivity.
Qed.
