(** * Lemmas on cache_init of a remote *)
From Coq Require Import String Strings.Byte NArith ZArith Arith Bool List Lia.
From Verif Require Import Model.Py Model.PurePath Model.Meta Model.MetaXattr Model.MetaUpdate Model.Fs Model.PathOps Model.Cache Model.CacheChildren Model.MkdirCache Model.MkdirRemote Model.RemoteInit
  Spec.FsSpec Spec.LoopSpec Spec.DataDirSpec Spec.MetaSpec Spec.XattrSpec Spec.CacheSpec Spec.MkdirCacheSpec Spec.MkdirRemoteSpec Spec.RemoteInitSpec
  Proofs.PyLemmas Proofs.PathLemmas Proofs.FsLemmas Proofs.RunLemmas Proofs.RmtreeProofs Proofs.MoveLemmas Proofs.CopyProofs Proofs.LoopProofs
  Proofs.CacheLemmas Proofs.AttrLemmas Proofs.DataDirProofs Proofs.MkdirCacheProofs Proofs.MkdirCacheLive Proofs.MkdirRemoteProofs Proofs.MkdirRemoteLive.
From Verif Require Proofs.RmdirtreeProofs.
Import ListNotations.

(** Nothing leads to what is below something that is not there. *)
Lemma walk_below fs follow b : forall l cur x y r xs es, Forall good_name l -> good_name x ->
  get fs (cur ++ l) = Some (Dir xs es) -> entry x es = None ->
  walk_from fs follow b cur (l ++ x :: y :: r) = Fail ENOENT.
Proof.
  induction l as [|z l IH]; intros cur x y r xs es N (X1 & X2 & X3 & X4) G E.
  - apply str_eqb_neq in X2, X3. rewrite app_nil_r in G. rewrite walk_eq; cbn [app]; rewrite G, X2, X3, E; reflexivity.
  - inversion N as [|? ? (N1 & N2 & N3 & N4) N5]; subst. apply str_eqb_neq in N2, N3.
    pose proof G as G'. change (z :: l) with ([z] ++ l) in G'. rewrite app_assoc, get_app, get_snoc in G'.
    assert (K : walk_from fs follow b (cur ++ [z]) (l ++ x :: y :: r) = Fail ENOENT).
    { apply (IH (cur ++ [z]) x y r xs es); try assumption; [now repeat split|]. rewrite <- app_assoc. exact G. }
    rewrite walk_eq; cbn [app]; destruct (get fs cur) as [[d xs0|xs0 es0|t]|]; try discriminate; rewrite N2, N3;
      destruct (entry z es0) as [[d' xs'|xs' es'|t']|] eqn:E0; try discriminate; try exact K;
      (destruct l as [|z' l]; [cbn in G'; discriminate|discriminate]).
Qed.
Lemma walk_of_below fs cwd follow d x y r : good_fs fs -> is_dir_at fs d -> good_name x -> look fs (d ++ [x]) = None ->
  walk fs cwd follow (path_of (d ++ x :: y :: r)) = Fail ENOENT.
Proof.
  intros G (xs & D) X L. apply look_dir in D as (es & D). apply look_none in L. rewrite get_snoc, D in L.
  unfold walk, path_of. cbn [pp_abs pp_parts]. apply (walk_below fs follow max_links d [] x y r xs es); [|assumption|assumption|assumption].
  now apply (good_names _ fs _ (proj1 G) D).
Qed.

Lemma firstn_snoc {A} (l : list A) n : n < length l -> exists x, nth_error l n = Some x /\ firstn (S n) l = firstn n l ++ [x].
Proof.
  revert n. induction l as [|a l IH]; intros n H; [cbn in H; lia|]. destruct n as [|n]; [now exists a|].
  cbn in H. destruct (IH n) as (x & N & E); [lia|]. exists x. split; [exact N|]. cbn [firstn app]. now rewrite <- E.
Qed.
Lemma firstn_split {A} (l : list A) n k : k <= n -> firstn n l = firstn k l ++ firstn (n - k) (skipn k l).
Proof.
  revert n k. induction l as [|a l IH]; intros n k H; [now rewrite !firstn_nil, skipn_nil, firstn_nil|].
  destruct n as [|n]; [now replace k with 0 by lia|]. destruct k as [|k]; [reflexivity|]. cbn. f_equal. apply IH. lia.
Qed.

Section Run.
Variable K : conf.
Hypothesis Pf : prefix_ok (c_prefix K).
Variable A : place.
Variable far : list str -> kid.
Variable ps : list str.
Hypothesis Hn : Forall good_name ps.

Notation at_ n := (A ++ firstn n ps).

Lemma here_at n : here (path_of A) (firstn n ps) = path_of (at_ n).
Proof. reflexivity. Qed.

Lemma parent_of_path : pp_parent (path_of A) = path_of (removelast A).
Proof. unfold pp_parent, path_of. cbn. now destruct A. Qed.

Lemma above_run w : no_fault w -> good_fs (w_fs w) -> readable K (w_fs w) (removelast A) ->
  exists m w', cache_meta K (pp_parent (path_of A)) w = (Ok m, w') /\ same w w'.
Proof.
  intros N G (xs & m & L & R). apply look_dir in L as (es & L). rewrite parent_of_path.
  destruct (dir_meta K w _ xs es m [] N G L R) as (w' & E & S). eauto.
Qed.

Lemma not_there w p : no_fault w -> (forall follow q n, walk (w_fs w) (w_cwd w) follow p <> Found q n) -> exists w', p_exists p w = (Ok false, w') /\ same w w'.
Proof.
  intros N W. destruct (test_run true p (fun _ => true) w N) as (w1 & S1 & E). exists w1. split; [|assumption]. unfold p_exists. rewrite E.
  specialize (W true). destruct (walk (w_fs w) (w_cwd w) true p) as [q n|d x|e] eqn:Wk; [elim (W q n eq_refl)|reflexivity|].
  apply RmdirtreeProofs.walk_fail in Wk. now rewrite Wk.
Qed.

Lemma first_name fs k : first_there fs A ps k -> exists x, firstn (S k) ps = firstn k ps ++ [x] /\ good_name x /\ is_dir_at fs (at_ k) /\ look fs (at_ k ++ [x]) = None.
Proof.
  intros (Lt & D & L). destruct (firstn_snoc ps k Lt) as (x & Nx & Ex). exists x. split; [assumption|].
  split; [exact (proj1 (Forall_forall _ _) Hn x (nth_error_In _ _ Nx))|]. split; [assumption|]. rewrite Ex in L. now rewrite app_assoc in L.
Qed.

(** Two or more are missing *)
Lemma far_below fs cwd follow k n : good_fs fs -> first_there fs A ps k -> S k < n -> n <= length ps -> walk fs cwd follow (path_of (at_ n)) = Fail ENOENT.
Proof.
  intros G T L1 L2. destruct (first_name fs k T) as (x & Ex & X & D & L).
  rewrite (firstn_split ps n (S k)) by lia. rewrite Ex, app_assoc, app_assoc, <- app_assoc.
  destruct (firstn (n - S k) (skipn (S k) ps)) as [|y r] eqn:Er.
  - exfalso. apply (f_equal (@length str)) in Er. rewrite firstn_length, skipn_length in Er. cbn in Er. lia.
  - cbn [app]. now apply walk_of_below.
Qed.

Lemma no_set w m p e : no_fault w -> meta_bool m = true -> (forall follow q n, walk (w_fs w) (w_cwd w) follow p <> Found q n) ->
  forall K', (forall w0, same w w0 -> exists w1, prepare K' p w0 = (Err e, w1) /\ same w w1) ->
  exists w', meta_updater K' p (Some m) true w = (Err e, w') /\ same w w'.
Proof.
  intros N B W K' P. destruct (absent_meta K' w p N W) as (w1 & E1 & S1). pose proof S1 as (F1 & C1 & _ & _).
  assert (N1 : no_fault w1) by exact (no_fault_same _ _ S1 N).
  destruct (not_there w1 p N1) as (w2 & E2 & S2); [now rewrite F1, C1|].
  destruct (P w2 (same_trans _ _ _ S1 S2)) as (w3 & E3 & S3). exists w3. split; [|assumption].
  unfold meta_updater, bind at 1. rewrite E1. unfold update_meta. cbn [negb]. unfold lift, bind, ret, catch, when, cache_set, p_exists_not_symlink.
  rewrite B. unfold bind. rewrite E2. unfold ret. rewrite E3. reflexivity.
Qed.

Lemma attempt_none w n m : no_fault w -> good_fs (w_fs w) -> readable K (w_fs w) (removelast A) -> k_metadata (far (firstn n ps)) = Ok (Some m) -> meta_bool m = true ->
  (forall follow q x, walk (w_fs w) (w_cwd w) follow (path_of (at_ n)) <> Found q x) ->
  (forall w0, same w w0 -> exists w1, prepare (conf_for K (far (firstn n ps))) (path_of (at_ n)) w0 = (Err (OSErr ENOENT), w1) /\ same w w1) ->
  exists w', attempt K (path_of A) far (firstn n ps) w = (Err (OSErr ENOENT), w') /\ same w w'.
Proof.
  intros N G R Km B W P. destruct (above_run w N G R) as (m0 & w1 & E1 & S1). pose proof S1 as (F1 & C1 & _ & _).
  destruct (no_set w1 m (path_of (at_ n)) (OSErr ENOENT) (no_fault_same _ _ S1 N) B) with (K' := conf_for K (far (firstn n ps))) as (w2 & E2 & S2).
  - now rewrite F1, C1.
  - intros w0 S0. destruct (P w0 (same_trans _ _ _ S1 S0)) as (w3 & E3 & S3). exists w3. split; [assumption|].
    destruct S3 as (a & b & c & d), S1 as (a1 & b1 & c1 & d1). split; [congruence|]. split; [congruence|]. split; congruence.
  - exists w2. split; [|exact (same_trans _ _ _ S1 S2)]. unfold attempt, bind at 1. rewrite E1. unfold catch, bind at 1, lift. rewrite Km. unfold bind. rewrite here_at, E2. reflexivity.
Qed.

Lemma mkdir_none w p : no_fault w -> (forall cwd, walk (w_fs w) cwd false p = Fail ENOENT) -> exists w', sys_mkdir p w = (Err (OSErr ENOENT), w') /\ same w w'.
Proof.
  intros N W. unfold sys_mkdir. match goal with |- context [sys ?f w] => pose proof (sys_run f w N) as R end. cbv beta in R. rewrite W in R. exact R.
Qed.

Lemma told_true c a : far_dir c a -> exists m, k_metadata c = Ok (Some m) /\ meta_bool m = true /\ told m a.
Proof. intros (_ & m & E & T). exists m. split; [assumption|]. split; [exact (told_bool _ _ T)|assumption]. Qed.

Lemma none_found fs n : (forall cwd follow, walk fs cwd follow (path_of (at_ n)) = Fail ENOENT) -> forall cwd follow q x, walk fs cwd follow (path_of (at_ n)) <> Found q x.
Proof. intros H cwd follow q x. rewrite H. discriminate. Qed.

Lemma attempt_dir w k n a : no_fault w -> good_fs (w_fs w) -> readable K (w_fs w) (removelast A) -> first_there (w_fs w) A ps k -> S k < n -> n <= length ps ->
  far_dir (far (firstn n ps)) a -> exists w', attempt K (path_of A) far (firstn n ps) w = (Err (OSErr ENOENT), w') /\ same w w'.
Proof.
  intros N G R T L1 L2 D. destruct (told_true _ _ D) as (m & Km & B & _). destruct D as (Dr & _).
  apply (attempt_none w n m N G R Km B).
  - apply none_found. intros cwd follow. now apply (far_below _ _ _ k).
  - intros w0 S0. pose proof S0 as (F0 & C0 & _ & _). assert (N0 : no_fault w0) by exact (no_fault_same _ _ S0 N).
    assert (W0 : forall cwd follow, walk (w_fs w0) cwd follow (path_of (at_ n)) = Fail ENOENT) by (intros; rewrite F0; now apply (far_below _ _ _ k)).
    destruct (ask_run (fun _ _ => Ok (r_is_dir (c_remote (conf_for K (far (firstn n ps)))))) w0 N0) as (w1 & E1 & S1). pose proof S1 as (F1 & _).
    destruct (not_there w1 (path_of (at_ n)) (no_fault_same _ _ S1 N0)) as (w2 & E2 & S2); [intros follow q x; rewrite F1; apply (none_found _ _ W0)|]. pose proof S2 as (F2 & _).
    destruct (mkdir_none w2 (path_of (at_ n)) (no_fault_same _ _ S2 (no_fault_same _ _ S1 N0))) as (w3 & E3 & S3); [intro cwd; now rewrite F2, F1|].
    exists w3. split; [|exact (same_trans _ _ _ S0 (same_trans _ _ _ S1 (same_trans _ _ _ S2 S3)))].
    unfold prepare, bind at 1. rewrite E1. cbn [c_remote conf_for]. rewrite Dr. unfold bind. rewrite E2. cbn [negb when]. exact E3.
Qed.

Lemma parent_at n : n < length ps -> pp_parent (path_of (at_ (S n))) = path_of (at_ n).
Proof.
  intro H. destruct (firstn_snoc ps n H) as (x & _ & ->). rewrite app_assoc. unfold pp_parent, path_of. cbn. destruct ((A ++ firstn n ps) ++ [x]) as [|y l] eqn:E; [now apply app_eq_nil in E as [_ E]|].
  now rewrite <- E, removelast_last.
Qed.

Lemma attempt_file w k n : no_fault w -> good_fs (w_fs w) -> readable K (w_fs w) (removelast A) -> first_there (w_fs w) A ps k -> S k < n -> n < length ps ->
  far_file (far (firstn (S n) ps)) -> exists w', attempt K (path_of A) far (firstn (S n) ps) w = (Err (OSErr ENOENT), w') /\ same w w'.
Proof.
  intros N G R T L1 L2 (Dr & Df & m & a & Km & To).
  apply (attempt_none w (S n) m N G R Km (told_bool _ _ To)).
  - apply none_found. intros cwd follow. now apply (far_below _ _ _ k); [| |lia|].
  - intros w0 S0. pose proof S0 as (F0 & C0 & _ & _). assert (N0 : no_fault w0) by exact (no_fault_same _ _ S0 N). rewrite <- F0 in G, T.
    assert (W0 : forall cwd follow, walk (w_fs w0) cwd follow (path_of (at_ n)) = Fail ENOENT) by (intros; apply (far_below _ _ _ k); [assumption|assumption|assumption|lia]).
    destruct (ask_run (fun _ _ => Ok (r_is_dir (c_remote (conf_for K (far (firstn (S n) ps)))))) w0 N0) as (w1 & E1 & S1). pose proof S1 as (F1 & _).
    destruct (ask_run (fun _ _ => Ok (r_is_file (c_remote (conf_for K (far (firstn (S n) ps)))))) w1 (no_fault_same _ _ S1 N0)) as (w1' & E1' & S1'). pose proof S1' as (F1' & _).
    pose proof (same_trans _ _ _ S1 S1') as S01. assert (N1 : no_fault w1') by exact (no_fault_same _ _ S01 N0).
    destruct (not_there w1' (path_of (at_ n)) N1) as (w2 & E2 & S2); [intros follow q x; rewrite F1', F1; apply (none_found _ _ W0)|]. pose proof S2 as (F2 & _).
    destruct (mkdir_none w2 (path_of (at_ n)) (no_fault_same _ _ S2 N1)) as (w3 & E3 & S3); [intro cwd; now rewrite F2, F1', F1|].
    exists w3. split; [|exact (same_trans _ _ _ S0 (same_trans _ _ _ S01 (same_trans _ _ _ S2 S3)))].
    unfold prepare, bind at 1. rewrite E1. cbn [c_remote conf_for] in *. rewrite Dr. unfold bind at 1. rewrite E1', Df. unfold bind. rewrite (parent_at n L2), E2. cbn [negb when]. exact E3.
Qed.

(** One is missing *)
Lemma told_tells' m a : told m a -> tells (mkAbove [] (Ok (Some m))) a.
Proof. intros (I & T & S0 & B). exists m. auto. Qed.

Lemma attempt_one w k a : no_fault w -> good_fs (w_fs w) -> readable K (w_fs w) (removelast A) -> first_there (w_fs w) A ps k -> far_dir (far (firstn (S k) ps)) a ->
  exists w' xs es, attempt K (path_of A) far (firstn (S k) ps) w = (Ok (path_of (at_ (S k))), w') /\ w_cwd w' = w_cwd w /\ no_fault w' /\ good_fs (w_fs w') /\
    get (w_fs w') (at_ (S k)) = Some (Dir xs es) /\ (exists m, recorded K [] (Some (ADir xs)) = Ok (Some m) /\ carries m (shown a)) /\
    forall q, q <> at_ (S k) -> look (w_fs w') q = look (w_fs w) q.
Proof.
  intros N G R T D. destruct (told_true _ _ D) as (m & Km & B & To). destruct D as (Dr & _).
  destruct (first_name _ _ T) as (x & Ex & X & Dd & L). set (K' := conf_for K (far (firstn (S k) ps))).
  destruct (tells_xattrs K' Pf (mkAbove [] (Ok (Some m))) a [] (told_tells' _ _ To)) as (m0 & l & m' & Um & _ & El & Rc & Cm).
  cbn [u_meta] in Um. assert (m0 = m) by congruence. subst m0.
  destruct (above_run w N G R) as (ma & w1 & E1 & S1).
  assert (W : forall w0 follow cwd, same w w0 -> walk (w_fs w0) cwd follow (path_of (at_ (S k))) = Missing (at_ k) x).
  { intros w0 follow cwd (-> & _). rewrite Ex, app_assoc. now apply walk_of_missing. }
  assert (Nf : forall w0 cwd, same w w0 -> forall follow q n, walk (w_fs w0) cwd follow (path_of (at_ (S k))) <> Found q n) by (intros w0 cwd S0 follow q n; rewrite (W w0 follow cwd S0); discriminate).
  assert (Nx : forall w0, same w w0 -> no_fault w0) by (intros w0 S0; exact (no_fault_same _ _ S0 N)).
  destruct (absent_meta K' w1 (path_of (at_ (S k))) (Nx _ S1) (Nf _ _ S1)) as (w2 & E2 & S2). pose proof (same_trans _ _ _ S1 S2) as Q2.
  destruct (not_there w2 (path_of (at_ (S k))) (Nx _ Q2) (Nf _ _ Q2)) as (w3 & E3 & S3). pose proof (same_trans _ _ _ Q2 S3) as Q3.
  destruct (ask_run (fun _ _ => Ok (r_is_dir (c_remote K'))) w3 (Nx _ Q3)) as (w4 & E4 & S4). pose proof (same_trans _ _ _ Q3 S4) as Q4.
  destruct (not_there w4 (path_of (at_ (S k))) (Nx _ Q4) (Nf _ _ Q4)) as (w5 & E5 & S5). pose proof (same_trans _ _ _ Q4 S5) as Q5.
  pose proof Q5 as (F5 & C5 & _ & T5).
  destruct (sys_ok (fun fs cwd => match walk fs cwd false (path_of (at_ (S k))) with
     | Found _ _ => fail EEXIST | Missing d0 x0 => Ok (tt, put fs (d0 ++ [x0]) (Dir [] [])) | Fail e => fail e end) w5 tt (put (w_fs w) (at_ (S k)) (Dir [] [])) (Nx _ Q5)) as (w6 & E6 & C6).
  { rewrite (W _ _ _ Q5), F5, Ex, app_assoc. reflexivity. }
  pose proof C6 as (F6 & W6 & _ & T6). assert (N6 : no_fault w6) by (unfold no_fault; rewrite T6; exact (Nx _ Q5)).
  assert (Eq : at_ (S k) = at_ k ++ [x]) by now rewrite Ex, app_assoc.
  pose proof (dir_plus _ _ _ Dd L) as (_ & P2 & P3). rewrite <- Eq in P2, P3. apply look_dir in P2 as (es & P2). rewrite <- F6 in P2.
  assert (G6 : good_fs (w_fs w6)) by (rewrite F6, Eq; apply good_put_new; auto; apply good_dir; [exact (NoDup_nil _)|intros ? []|intros ? ? []]).
  destruct (exists_found w6 _ _ N6 G6 P2) as (w7 & E7 & S7); [discriminate|]. destruct (same_facts _ _ _ _ S7 N6 G6 P2) as (N7 & G7 & H7).
  destruct (exists_found w7 _ _ N7 G7 H7) as (w8 & E8 & S8); [discriminate|]. destruct (same_facts _ _ _ _ S8 N7 G7 H7) as (N8 & G8 & H8).
  destruct (not_link w8 _ _ _ N8 G8 H8) as (w9 & E9 & S9). destruct (same_facts _ _ _ _ S9 N8 G8 H8) as (N9 & G9 & H9).
  destruct (sets_run (at_ (S k)) l w9 [] es N9 G9 H9) as (w' & E & C' & T' & G' & L' & O).
  pose proof (same_trans _ _ _ S7 (same_trans _ _ _ S8 S9)) as (F9 & C9 & _ & T9).
  exists w', (setall l []), es. split.
  { unfold attempt, bind at 1. rewrite E1. unfold catch at 1, bind at 1, lift at 1. rewrite Km, here_at. unfold bind at 1, meta_updater. fold K'. unfold bind at 1. rewrite E2. unfold update_meta. cbn [negb].
    unfold lift, bind at 1 2 3, ret, catch. unfold cache_set. rewrite B. unfold p_exists_not_symlink, bind. rewrite E3. unfold ret, prepare, bind. rewrite E4. subst K'. cbn [c_remote conf_for] in *. rewrite Dr, E5. cbn [negb when].
    unfold sys_mkdir. rewrite E6, E7. unfold eat_set, bind. rewrite E8, E9. unfold lift. rewrite El, E. reflexivity. }
  split; [congruence|]. split; [unfold no_fault; rewrite T'; exact N9|]. split; [assumption|]. split; [assumption|]. split; [exists m'; split; assumption|].
  intros q Nq. rewrite (O q Nq), F9, F6. now apply P3.
Qed.

(** Then that has metadata *)
Lemma init_exists w n a xs es m : no_fault w -> good_fs (w_fs w) -> far_dir (far (firstn n ps)) a -> get (w_fs w) (at_ n) = Some (Dir xs es) -> recorded K [] (Some (ADir xs)) = Ok (Some m) ->
  exists w', init_above K (path_of A) far (firstn n ps) w = (Err CacheExistsErr, w') /\ same w w'.
Proof.
  intros N G D H R. destruct (told_true _ _ D) as (m0 & Km & _ & _).
  destruct (dir_meta (conf_for K (far (firstn n ps))) w _ xs es (Some m) [] N G H R) as (w' & E & S0). exists w'. split; [|assumption].
  assert (B : meta_bool m = true).
  { cbn [recorded] in R. destruct (from_xattrs _ _ _) as [m1|]; [|discriminate]. cbn [rbind] in R. apply Ok_inj in R. destruct (meta_bool m1) eqn:B0; [|discriminate]. injection R as <-. exact B0. }
  unfold init_above, bind at 1, lift. rewrite Km. unfold bind at 1, ret. rewrite here_at. unfold cache_init_meta, bind. rewrite E. cbn [meta_true]. rewrite B. reflexivity.
Qed.

(** ** All of it *)
Definition fine (w : world) : Prop := no_fault w /\ good_fs (w_fs w) /\ readable K (w_fs w) (removelast A).

Lemma fine_same w w' : same w w' -> fine w -> fine w'.
Proof. intros S0 (N & G & R). pose proof S0 as (F & _). split; [exact (no_fault_same _ _ S0 N)|]. now rewrite F. Qed.
Lemma above_other n : n < length ps -> removelast A <> at_ (S n).
Proof.
  intros H E. apply (f_equal (@length str)) in E. rewrite app_length, firstn_length, removelast_firstn_len, firstn_length in E. lia.
Qed.
Lemma one_more_readable fs s n : n < length ps -> one_more K far A (firstn (S n) ps) fs s -> readable K fs (removelast A) -> readable K s (removelast A).
Proof. intros H (_ & O) (xs & m & L & R). exists xs, m. rewrite (O _ (above_other n H)). auto. Qed.

Lemma made_one w k : fine w -> first_there (w_fs w) A ps k -> (exists a, far_dir (far (firstn (S k) ps)) a) ->
  exists w', attempt K (path_of A) far (firstn (S k) ps) w = (Ok (path_of (at_ (S k))), w') /\ fine w' /\ one_more K far A (firstn (S k) ps) (w_fs w) (w_fs w') /\
    exists w2, init_above K (path_of A) far (firstn (S k) ps) w' = (Err CacheExistsErr, w2) /\ same w' w2.
Proof.
  intros (N & G & R) T (a & D). destruct (attempt_one w k a N G R T D) as (w' & xs & es & E & C & N' & G' & L & (m & Rm & Cm) & O).
  assert (M : one_more K far A (firstn (S k) ps) (w_fs w) (w_fs w')).
  { split; [|assumption]. exists xs. split; [apply look_dir; eauto|]. intros b Db.
    destruct (attempt_one w k b N G R T Db) as (w2 & ys & zs & E2 & _ & _ & _ & L2 & X & _). rewrite E in E2. assert (w' = w2) by congruence. subst w2. rewrite L in L2. injection L2 as <- _. exact X. }
  exists w'. split; [assumption|]. split; [split; [assumption|]; split; [assumption|]; exact (one_more_readable _ _ k (proj1 T) M R)|]. split; [assumption|].
  exact (init_exists w' (S k) a xs es m N' G' D L Rm).
Qed.

Definition leaf_missing (k n : nat) : Prop :=
  (exists a, far_dir (far (firstn n ps)) a) \/ (far_file (far (firstn n ps)) /\ S (S k) < n).

Lemma attempt_leaf w k n : fine w -> first_there (w_fs w) A ps k -> S k < n -> n <= length ps -> leaf_missing k n ->
  exists w', attempt K (path_of A) far (firstn n ps) w = (Err (OSErr ENOENT), w') /\ same w w'.
Proof.
  intros (N & G & R) T L1 L2 [(a & D)|(F & L3)]; [exact (attempt_dir w k n a N G R T L1 L2 D)|].
  destruct n as [|n]; [lia|]. apply (attempt_file w k n); try assumption; lia.
Qed.

Lemma stuck k : forall n w, fine w -> first_there (w_fs w) A ps k -> S k < n -> n <= length ps ->
  (forall j, 0 < j < n -> exists a, far_dir (far (firstn j ps)) a) -> leaf_missing k n ->
  exists w', far_init K (path_of A) far true ps n w = (Err CacheExistsErr, w') /\ fine w' /\ one_more K far A (firstn (S k) ps) (w_fs w) (w_fs w').
Proof.
  induction n as [|n IH]; intros w Fw T L1 L2 D Lf; [lia|].
  destruct (attempt_leaf w k (S n) Fw T L1 L2 Lf) as (w1 & E1 & S1). pose proof (fine_same _ _ S1 Fw) as F1. pose proof S1 as (Fs & _).
  assert (T1 : first_there (w_fs w1) A ps k) by now rewrite Fs.
  destruct (Nat.eq_dec n (S k)) as [->|Ne].
  - destruct (made_one w1 k F1 T1) as (w2 & E2 & F2 & M2 & w3 & E3 & S3); [apply D; lia|].
    exists w3. split; [|split; [exact (fine_same _ _ S3 F2)|pose proof S3 as (-> & _); now rewrite <- Fs]].
    cbn [far_init]. unfold catch at 1. rewrite E1. unfold bind, catch. rewrite E2, E3. reflexivity.
  - destruct (IH w1 F1 T1) as (w2 & E2 & F2 & M2); [lia|lia|intros j Hj; apply D; lia|left; apply D; lia|].
    exists w2. split; [|split; [assumption|now rewrite <- Fs]]. cbn [far_init]. fold (far_init K (path_of A) far true ps n). unfold catch at 1. rewrite E1. unfold bind. rewrite E2. reflexivity.
Qed.

Lemma plain_stuck k w parents : parents = false -> fine w -> first_there (w_fs w) A ps k -> S k < length ps -> leaf_missing k (length ps) ->
  exists w', cache_init K (path_of A) far parents ps w = (Err (OSErr ENOENT), w') /\ same w w'.
Proof.
  intros -> Fw T L Lf. destruct (attempt_leaf w k (length ps) Fw T L (le_n _) Lf) as (w1 & E1 & S1). exists w1. split; [|assumption].
  unfold cache_init. destruct (length ps); cbn [far_init]; unfold catch at 1; rewrite E1; reflexivity.
Qed.

Lemma last_made k w parents : fine w -> first_there (w_fs w) A ps k -> S k = length ps -> (exists a, far_dir (far ps) a) ->
  exists w', cache_init K (path_of A) far parents ps w = (Ok (path_of (A ++ ps)), w') /\ fine w' /\ one_more K far A ps (w_fs w) (w_fs w').
Proof.
  intros Fw T L D. assert (Ea : firstn (S k) ps = ps) by (rewrite L; apply firstn_all). rewrite <- Ea in D.
  destruct (made_one w k Fw T D) as (w1 & E1 & F1 & M1 & _). rewrite Ea in E1, M1. exists w1. split; [|auto].
  unfold cache_init. rewrite <- L. cbn [far_init]. unfold catch at 1. rewrite Ea, E1. reflexivity.
Qed.

Lemma look_below fs q r : look fs q = None -> look fs (q ++ r) = None.
Proof. intro H. apply look_none in H. apply look_none. now rewrite get_app, H. Qed.

Lemma next_there k w s : first_there (w_fs w) A ps k -> S k < length ps -> one_more K far A (firstn (S k) ps) (w_fs w) s -> first_there s A ps (S k).
Proof.
  intros (_ & D & L) H ((xs & Ls & _) & O). split; [assumption|]. split; [now exists xs|].
  destruct (firstn_snoc ps (S k) H) as (x & _ & Ex). rewrite O.
  - rewrite Ex, app_assoc. now apply look_below.
  - rewrite Ex, app_assoc. intro E. apply (f_equal (@length str)) in E. rewrite app_length in E. cbn in E. lia.
Qed.

Definition told_at (s : node) (n : nat) : Prop :=
  exists xs, look s (at_ n) = Some (ADir xs) /\ forall a, far_dir (far (firstn n ps)) a -> exists m, recorded K [] (Some (ADir xs)) = Ok (Some m) /\ carries m (shown a).

Lemma told_kept fs s n j : j <= n -> n < length ps -> one_more K far A (firstn (S n) ps) fs s -> told_at fs j -> told_at s j.
Proof.
  intros H H2 (_ & O) (xs & L & R). exists xs. split; [|assumption]. rewrite O; [assumption|].
  intro E. apply (f_equal (@length str)) in E. rewrite !app_length, !firstn_length in E. lia.
Qed.

Lemma all_calls : forall d k w, fine w -> first_there (w_fs w) A ps k -> length ps = S k + d -> (forall j, 0 < j <= length ps -> exists a, far_dir (far (firstn j ps)) a) ->
  exists v w', refused (cache_init K (path_of A) far true ps) d w v /\ cache_init K (path_of A) far true ps v = (Ok (path_of (A ++ ps)), w') /\
    (forall j, k < j <= length ps -> told_at (w_fs w') j) /\
    (forall q, (forall j, k < j <= length ps -> q <> at_ j) -> look (w_fs w') q = look (w_fs w) q) /\ forall j, j <= k -> told_at (w_fs w) j -> told_at (w_fs w') j.
Proof.
  induction d as [|d IH]; intros k w Fw T L D.
  - destruct (last_made k w true Fw T) as (w' & E & F' & M); [lia|specialize (D (length ps)); rewrite firstn_all in D; apply D; lia|].
    assert (Ea : firstn (S k) ps = ps) by (replace (S k) with (length ps) by lia; apply firstn_all).
    exists w, w'. split; [constructor|]. split; [assumption|]. split; [|split].
    + intros j Hj. assert (j = S k) by lia. subst j. destruct M as (M & _). unfold told_at. now rewrite Ea.
    + intros q Hq. destruct M as (_ & O). apply O. rewrite <- Ea. apply Hq. lia.
    + intros j Hj. apply (told_kept _ _ k j Hj); [lia|now rewrite Ea].
  - destruct (stuck k (length ps) w Fw T) as (w1 & E & F1 & M); [lia|lia|intros j Hj; apply D; lia|left; apply D; lia|].
    destruct (IH (S k) w1 F1 (next_there k w _ T (ltac:(lia)) M)) as (v & w' & Rf & E' & Al & Ot & Kp); [lia|assumption|].
    exists v, w'. split; [now apply (refused_one _ _ _ w1)|]. split; [assumption|]. split; [|split].
    + intros j Hj. destruct (Nat.eq_dec j (S k)) as [->|Ne]; [apply Kp; [lia|]; exact (proj1 M)|apply Al; lia].
    + intros q Hq. rewrite Ot; [|intros j Hj; apply Hq; lia]. apply (proj2 M). apply Hq. lia.
    + intros j Hj Tj. apply Kp; [lia|]. apply (told_kept (w_fs w) _ k j Hj); [lia|assumption|assumption].
Qed.
End Run.

Lemma fine_start K A fs cwd : good_fs fs -> readable K fs (removelast A) -> fine K A (start fs cwd (fun _ => None)).
Proof. intros G R. split; [intro t; reflexivity|auto]. Qed.

Lemma parents_refused K A far ps k fs cwd :
  prefix_ok (c_prefix K) -> Forall good_name ps -> good_fs fs -> readable K fs (removelast A) -> first_there fs A ps k -> S k < length ps ->
  (forall n, 0 < n < length ps -> exists a, far_dir (far (firstn n ps)) a) ->
  (exists a, far_dir (far ps) a) \/ (far_file (far ps) /\ S (S k) < length ps) ->
  exists w', cache_init K (path_of A) far true ps (start fs cwd (fun _ => None)) = (Err CacheExistsErr, w') /\ one_more K far A (firstn (S k) ps) fs (w_fs w').
Proof.
  intros Pf Hn G R T L D Lf. destruct (stuck K Pf A far ps Hn k (length ps) _ (fine_start K A fs cwd G R) T L (le_n _)) as (w' & E & _ & M).
  - exact D.
  - unfold leaf_missing. now rewrite firstn_all.
  - exists w'. auto.
Qed.
Lemma plain_refused K A far ps k fs cwd :
  Forall good_name ps -> good_fs fs -> readable K fs (removelast A) -> first_there fs A ps k -> S k < length ps ->
  (exists a, far_dir (far ps) a) \/ (far_file (far ps) /\ S (S k) < length ps) ->
  exists w', cache_init K (path_of A) far false ps (start fs cwd (fun _ => None)) = (Err (OSErr ENOENT), w') /\ (forall s, In s (states w') -> s = fs).
Proof.
  intros Hn G R T L Lf. destruct (plain_stuck K A far ps Hn k _ false eq_refl (fine_start K A fs cwd G R) T L) as (w' & E & (F & _ & Hh & _)).
  - unfold leaf_missing. now rewrite firstn_all.
  - exists w'. split; [assumption|]. unfold states. rewrite F, Hh. intros s I0. repeat (destruct I0 as [<-|I0]; [reflexivity|]). destruct I0.
Qed.
Lemma one_missing K A far ps k fs cwd parents :
  prefix_ok (c_prefix K) -> Forall good_name ps -> good_fs fs -> readable K fs (removelast A) -> first_there fs A ps k -> S k = length ps -> (exists a, far_dir (far ps) a) ->
  exists w', cache_init K (path_of A) far parents ps (start fs cwd (fun _ => None)) = (Ok (path_of (A ++ ps)), w') /\ one_more K far A ps fs (w_fs w').
Proof.
  intros Pf Hn G R T L D. destruct (last_made K Pf A far ps Hn k _ parents (fine_start K A fs cwd G R) T L D) as (w' & E & _ & M). eauto.
Qed.
Lemma one_each K A far ps k fs cwd :
  prefix_ok (c_prefix K) -> Forall good_name ps -> good_fs fs -> readable K fs (removelast A) -> first_there fs A ps k ->
  (forall n, 0 < n <= length ps -> exists a, far_dir (far (firstn n ps)) a) ->
  exists v w', refused (cache_init K (path_of A) far true ps) (length ps - S k) (start fs cwd (fun _ => None)) v /\
    cache_init K (path_of A) far true ps v = (Ok (path_of (A ++ ps)), w') /\
    (forall n, k < n <= length ps -> exists xs, look (w_fs w') (A ++ firstn n ps) = Some (ADir xs) /\
       forall a, far_dir (far (firstn n ps)) a -> exists m, recorded K [] (Some (ADir xs)) = Ok (Some m) /\ carries m (shown a)) /\
    forall q, (forall n, k < n <= length ps -> q <> A ++ firstn n ps) -> look (w_fs w') q = look fs q.
Proof.
  intros Pf Hn G R T D. destruct (all_calls K Pf A far ps Hn (length ps - S k) k _ (fine_start K A fs cwd G R) T) as (v & w' & Rf & E & Al & Ot & _); [destruct T; lia|assumption|].
  exists v, w'. auto.
Qed.
