(** * Lemmas on all that is below a cache *)
From Coq Require Import String Strings.Byte NArith ZArith Arith Bool List Lia.
From Verif Require Import Model.Py Model.PurePath Model.Meta Model.MetaXattr Model.MetaSymlink Model.MetaUpdate Model.Fs Model.PathOps Model.Cache Model.CacheChildren Model.MkdirCache Model.MkdirRemote Model.RemoteInit Model.CacheRchildren
  Spec.FsSpec Spec.LoopSpec Spec.DataDirSpec Spec.MetaSpec Spec.XattrSpec Spec.CacheSpec Spec.MkdirCacheSpec Spec.MkdirRemoteSpec Spec.RemoteInitSpec Spec.CacheRchildrenSpec
  Proofs.PyLemmas Proofs.PathLemmas Proofs.FsLemmas Proofs.RunLemmas Proofs.RmtreeProofs Proofs.MoveLemmas Proofs.CopyProofs Proofs.LoopProofs Proofs.MetaSymlinkProofs
  Proofs.CacheLemmas Proofs.AttrLemmas Proofs.DataDirProofs Proofs.MkdirCacheProofs Proofs.MkdirCacheLive Proofs.MkdirRemoteProofs Proofs.MkdirRemoteLive Proofs.RemoteInitProofs.
Import ListNotations.

Section Run.
Variable K : conf.
Hypothesis Pf : prefix_ok (c_prefix K).
Variable D : place.
Variable x : str.
Hypothesis X : good_name x.
Notation P := (D ++ [x]).

Lemma missing_same w w0 follow cwd : good_fs (w_fs w) -> is_dir_at (w_fs w) D -> look (w_fs w) P = None -> same w w0 -> walk (w_fs w0) cwd follow (path_of P) = Missing D x.
Proof. intros G Dd L (-> & _). now apply walk_of_missing. Qed.

(** A new directory *)
Lemma new_dir c a w : no_fault w -> good_fs (w_fs w) -> is_dir_at (w_fs w) D -> look (w_fs w) P = None -> far_dir c a ->
  exists m w' xs m', k_metadata c = Ok (Some m) /\ meta_updater (conf_for K c) (path_of P) (Some m) true w = (Ok false, w') /\ no_fault w' /\ good_fs (w_fs w') /\
    look (w_fs w') P = Some (ADir xs) /\ recorded K [] (Some (ADir xs)) = Ok (Some m') /\ carries m' (shown a) /\ forall q, q <> P -> look (w_fs w') q = look (w_fs w) q.
Proof.
  intros N G Dd L (Dr & m & Km & To). pose proof (told_bool _ _ To) as B. set (K' := conf_for K c).
  destruct (tells_xattrs K' Pf (mkAbove [] (Ok (Some m))) a [] (told_tells' _ _ To)) as (m0 & l & m' & Um & _ & El & Rc & Cm).
  cbn [u_meta] in Um. assert (m0 = m) by congruence. subst m0.
  assert (Nf : forall w0 cwd, same w w0 -> forall follow q n, walk (w_fs w0) cwd follow (path_of P) <> Found q n) by (intros w0 cwd S0 follow q n; rewrite (missing_same w w0 follow cwd G Dd L S0); discriminate).
  assert (Nx : forall w0, same w w0 -> no_fault w0) by (intros w0 S0; exact (no_fault_same _ _ S0 N)).
  destruct (absent_meta K' w (path_of P) N (Nf _ _ (same_refl w))) as (w2 & E2 & Q2).
  destruct (not_there w2 (path_of P) (Nx _ Q2) (Nf _ _ Q2)) as (w3 & E3 & S3). pose proof (same_trans _ _ _ Q2 S3) as Q3.
  destruct (ask_run (fun _ _ => Ok (r_is_dir (c_remote K'))) w3 (Nx _ Q3)) as (w4 & E4 & S4). pose proof (same_trans _ _ _ Q3 S4) as Q4.
  destruct (not_there w4 (path_of P) (Nx _ Q4) (Nf _ _ Q4)) as (w5 & E5 & S5). pose proof (same_trans _ _ _ Q4 S5) as Q5.
  pose proof Q5 as (F5 & C5 & _ & T5).
  destruct (sys_ok (fun fs cwd => match walk fs cwd false (path_of P) with
     | Found _ _ => fail EEXIST | Missing d0 x0 => Ok (tt, put fs (d0 ++ [x0]) (Dir [] [])) | Fail e => fail e end) w5 tt (put (w_fs w) P (Dir [] [])) (Nx _ Q5)) as (w6 & E6 & C6).
  { rewrite (missing_same w w5 _ _ G Dd L Q5), F5. reflexivity. }
  pose proof C6 as (F6 & W6 & _ & T6). assert (N6 : no_fault w6) by (unfold no_fault; rewrite T6; exact (Nx _ Q5)).
  pose proof (dir_plus _ _ _ Dd L) as (_ & P2 & P3). apply look_dir in P2 as (es & P2). rewrite <- F6 in P2.
  assert (G6 : good_fs (w_fs w6)) by (rewrite F6; apply good_put_new; auto; apply good_dir; [exact (NoDup_nil _)|intros ? []|intros ? ? []]).
  destruct (exists_found w6 _ _ N6 G6 P2) as (w7 & E7 & S7); [discriminate|]. destruct (same_facts _ _ _ _ S7 N6 G6 P2) as (N7 & G7 & H7).
  destruct (exists_found w7 _ _ N7 G7 H7) as (w8 & E8 & S8); [discriminate|]. destruct (same_facts _ _ _ _ S8 N7 G7 H7) as (N8 & G8 & H8).
  destruct (not_link w8 _ _ _ N8 G8 H8) as (w9 & E9 & S9). destruct (same_facts _ _ _ _ S9 N8 G8 H8) as (N9 & G9 & H9).
  destruct (sets_run P l w9 [] es N9 G9 H9) as (w' & E & C' & T' & G' & L' & O).
  pose proof (same_trans _ _ _ S7 (same_trans _ _ _ S8 S9)) as (F9 & C9 & _ & T9).
  exists m, w', (setall l []), m'. split; [assumption|]. split.
  { unfold meta_updater. fold K'. unfold bind at 1. rewrite E2. unfold update_meta. cbn [negb].
    unfold lift, bind at 1 2 3, ret, catch. unfold cache_set. rewrite B. unfold p_exists_not_symlink, bind. rewrite E3. unfold ret, prepare, bind. rewrite E4. subst K'. cbn [c_remote conf_for] in *. rewrite Dr, E5. cbn [negb when].
    unfold sys_mkdir. rewrite E6, E7. unfold eat_set, bind. rewrite E8, E9. unfold lift. rewrite El, E. reflexivity. }
  split; [unfold no_fault; rewrite T'; exact N9|]. split; [assumption|]. split; [apply look_dir; eauto|]. split; [assumption|]. split; [assumption|].
  intros q Nq. rewrite (O q Nq), F9, F6. now apply P3.
Qed.

Lemma no_match name raw l l' m : from_symlink name raw true l = Ok m -> from_symlink name raw false l' = Ok m.
Proof.
  unfold from_symlink. destruct (parts (pp_parse raw)) as [|ln [|a [|b r]]]; try discriminate; try exact (fun H => H);
    destruct (str_eqb name ln); cbn [andb negb]; try exact (fun H => H); destruct l; discriminate.
Qed.

(** A new link *)
Lemma new_link c a w : no_fault w -> good_fs (w_fs w) -> is_dir_at (w_fs w) D -> look (w_fs w) P = None -> far_link c a ->
  exists m w' t m', k_metadata c = Ok (Some m) /\ meta_updater (conf_for K c) (path_of P) (Some m) true w = (Ok false, w') /\ no_fault w' /\ good_fs (w_fs w') /\
    look (w_fs w') P = Some (ALink t) /\ recorded K x (Some (ALink t)) = Ok (Some m') /\ carries m' a /\ forall q, q <> P -> look (w_fs w') q = look (w_fs w) q.
Proof.
  intros N G Dd L (Dr & Df & m & Km & I & T & Sf & Ni). set (K' := conf_for K c).
  assert (Fn : file_name x) by (destruct X as (X1 & X2 & _ & X4); now repeat split).
  destruct (link_safe_round_trip (c_dateparse K') a m x false T Fn I Sf) as (t & m' & El & Rt & Cm).
  assert (Tn : pp_str t <> []) by (intro E0; rewrite E0 in Rt; discriminate Rt).
  assert (B : meta_bool m = true).
  { apply id_bool. now rewrite (init_id _ _ I). }
  assert (Nf : forall w0 cwd, same w w0 -> forall follow q n, walk (w_fs w0) cwd follow (path_of P) <> Found q n) by (intros w0 cwd S0 follow q n; rewrite (missing_same w w0 follow cwd G Dd L S0); discriminate).
  assert (Nx : forall w0, same w w0 -> no_fault w0) by (intros w0 S0; exact (no_fault_same _ _ S0 N)).
  destruct (absent_meta K' w (path_of P) N (Nf _ _ (same_refl w))) as (w2 & E2 & Q2).
  destruct (not_there w2 (path_of P) (Nx _ Q2) (Nf _ _ Q2)) as (w3 & E3 & S3). pose proof (same_trans _ _ _ Q2 S3) as Q3.
  destruct (ask_run (fun _ _ => Ok (r_is_dir (c_remote K'))) w3 (Nx _ Q3)) as (w4 & E4 & S4). pose proof (same_trans _ _ _ Q3 S4) as Q4.
  destruct (ask_run (fun _ _ => Ok (r_is_file (c_remote K'))) w4 (Nx _ Q4)) as (w5 & E5 & S5). pose proof (same_trans _ _ _ Q4 S5) as Q5.
  assert (Dg : exists ys es, get (w_fs w5) D = Some (Dir ys es)) by (destruct Q5 as (-> & _); destruct Dd as (ys & Dd); apply look_dir in Dd as (es & Dd); eauto).
  destruct Dg as (ys & es & Dg).
  assert (G5 : good_fs (w_fs w5)) by (destruct Q5 as (-> & _); exact G).
  destruct (exists_found w5 _ _ (Nx _ Q5) G5 Dg) as (w6 & E6 & S6); [discriminate|]. pose proof (same_trans _ _ _ Q5 S6) as Q6.
  destruct (not_there w6 (path_of P) (Nx _ Q6) (Nf _ _ Q6)) as (w7 & E7 & S7). pose proof (same_trans _ _ _ Q6 S7) as Q7.
  destruct (not_there w7 (path_of P) (Nx _ Q7) (Nf _ _ Q7)) as (w8 & E8 & S8). pose proof (same_trans _ _ _ Q7 S8) as Q8.
  destruct (test_run false (path_of P) (fun n => match n with Link _ => true | _ => false end) w8 (Nx _ Q8)) as (w9 & S9 & E9). rewrite (missing_same w w8 _ _ G Dd L Q8) in E9.
  pose proof (same_trans _ _ _ Q8 S9) as Q9. pose proof Q9 as (F9 & _).
  pose proof (sys_run (fun fs cwd => match pp_str t with [] => fail ENOENT | _ => match walk fs cwd false (path_of P) with
     | Found _ _ => fail EEXIST | Missing d0 x0 => Ok (tt, put fs (d0 ++ [x0]) (Link (pp_str t))) | Fail e => fail e end end) w9 (Nx _ Q9)) as R0.
  cbv beta in R0. rewrite (missing_same w w9 _ _ G Dd L Q9), F9 in R0. destruct (pp_str t) as [|t0 tr] eqn:Et; [contradiction|]. destruct R0 as (w' & E & C').
  pose proof C' as (F' & _ & _ & T').
  assert (Pl : plus P (ALink (t0 :: tr)) (w_fs w) (put (w_fs w) P (Link (t0 :: tr)))).
  { apply plus_put; [destruct Dd as (zs & Dd); apply look_dir in Dd as (e & Dd); eauto|now apply look_none|reflexivity|reflexivity]. }
  destruct Pl as (_ & P2 & P3). exists m, w', (t0 :: tr), m'. split; [assumption|]. split.
  { unfold meta_updater. fold K'. unfold bind at 1. rewrite E2. unfold update_meta. cbn [negb].
    unfold lift, bind at 1 2 3, ret, catch. unfold cache_set. rewrite B. unfold p_exists_not_symlink, bind. rewrite E3. unfold ret, prepare, bind. rewrite E4. subst K'. cbn [c_remote conf_for] in *. rewrite Dr, E5, Df.
    replace (pp_parent (path_of P)) with (path_of D) by (unfold pp_parent, path_of; cbn; destruct (D ++ [x]) eqn:Ed; [now apply app_eq_nil in Ed as [_ Ed]|now rewrite <- Ed, removelast_last]).
    rewrite E6. cbn [negb when]. unfold ret. rewrite E7. unfold symlink_set, bind. rewrite E8. unfold p_is_symlink. rewrite E9. unfold ret, lift.
    replace (pp_name (path_of P)) with x by (unfold pp_name, path_of; cbn; now rewrite last_last).
    rewrite El. unfold sys_symlink. rewrite Et, E. reflexivity. }
  split; [unfold no_fault; rewrite T'; exact (Nx _ Q9)|]. split; [rewrite F'; apply good_put_new; auto; apply good_link|]. split; [rewrite F'; exact P2|].
  split; [cbn [recorded]; now rewrite (no_match _ _ _ _ _ Rt)|]. split; [assumption|]. intros q Nq. rewrite F'. now apply P3.
Qed.
End Run.

Section All.
Variable K : conf.
Hypothesis Pf : prefix_ok (c_prefix K).
Variable A : place.
Variable far : list str -> kid.

Lemma here_place ps : here (path_of A) ps = path_of (A ++ ps).
Proof. reflexivity. Qed.

Lemma one w ps : no_fault w -> good_fs (w_fs w) -> proper far ps -> is_dir_at (w_fs w) (A ++ removelast ps) -> look (w_fs w) (A ++ ps) = None ->
  exists m w', k_metadata (far ps) = Ok m /\ meta_updater (conf_for K (far ps)) (path_of (A ++ ps)) m true w = (Ok false, w') /\ no_fault w' /\ good_fs (w_fs w') /\
    stands K far A (w_fs w') ps /\ forall q, q <> A ++ ps -> look (w_fs w') q = look (w_fs w) q.
Proof.
  intros N G (Ne & Gn & Cs) Dd L.
  assert (Sp : ps = removelast ps ++ [last ps []]) by now apply app_removelast_last.
  assert (Ep : A ++ ps = (A ++ removelast ps) ++ [last ps []]) by (rewrite <- app_assoc, <- Sp; reflexivity).
  assert (X : good_name (last ps [])) by (rewrite Sp in Gn; apply Forall_app in Gn as [_ Gn]; now inversion Gn).
  rewrite Ep in L. destruct Cs as [(a & Fd) | (a & Fl)].
  - destruct (new_dir K Pf _ _ X (far ps) a w N G Dd L Fd) as (m & w' & xs & m' & Km & E & N' & G' & L' & R & C & O). rewrite <- Ep in *.
    exists (Some m), w'. split; [exact Km|]. split; [exact E|]. split; [exact N'|]. split; [exact G'|]. split; [|exact O]. split.
    + intros a0 Fd0. rewrite Ep in L. destruct (new_dir K Pf _ _ X (far ps) a0 w N G Dd L Fd0) as (m0 & w0 & xs0 & m0' & Km0 & E0 & _ & _ & L0 & R0 & C0 & _). rewrite <- Ep in *.
      assert (m0 = m) by congruence. subst m0. assert (w0 = w') by congruence. subst w0. exists xs0, m0'. exact (conj L0 (conj R0 C0)).
    + intros a0 (F0 & _). destruct Fd as (F1 & _). congruence.
  - destruct (new_link K _ _ X (far ps) a w N G Dd L Fl) as (m & w' & xs & m' & Km & E & N' & G' & L' & R & C & O). rewrite <- Ep in *.
    exists (Some m), w'. split; [exact Km|]. split; [exact E|]. split; [exact N'|]. split; [exact G'|]. split; [|exact O]. split.
    + intros a0 (F0 & _). destruct Fl as (F1 & _). congruence.
    + intros a0 Fl0. rewrite Ep in L. destruct (new_link K _ _ X (far ps) a0 w N G Dd L Fl0) as (m0 & w0 & xs0 & m0' & Km0 & E0 & _ & _ & L0 & R0 & C0 & _). rewrite <- Ep in *.
      assert (m0 = m) by congruence. subst m0. assert (w0 = w') by congruence. subst w0. exists xs0, m0'. exact (conj L0 (conj R0 C0)).
Qed.

Lemma stands_eq s s' ps : look s' (A ++ ps) = look s (A ++ ps) -> stands K far A s ps -> stands K far A s' ps.
Proof. intros E S. unfold stands in *. rewrite E. exact S. Qed.

Lemma all_from fs l0 : NoDup l0 -> (forall ps, In ps l0 -> proper far ps /\ look fs (A ++ ps) = None) -> outer_first far A fs l0 ->
  forall l pre w, l0 = pre ++ l -> no_fault w -> good_fs (w_fs w) ->
    (forall ps, In ps pre -> stands K far A (w_fs w) ps) -> (forall q, (forall ps, In ps pre -> q <> A ++ ps) -> look (w_fs w) q = look fs q) ->
  exists w', cache_rchildren K (path_of A) far l w = (Ok (map (fun ps => path_of (A ++ ps)) l), w') /\
    (forall ps, In ps l0 -> stands K far A (w_fs w') ps) /\ (forall q, (forall ps, In ps l0 -> q <> A ++ ps) -> look (w_fs w') q = look fs q) /\ no_fault w' /\ good_fs (w_fs w').
Proof.
  intros Nd Al Of. induction l as [|ps l IH]; intros pre w E0 N G St O.
  - rewrite app_nil_r in E0. subst pre. exists w. exact (conj eq_refl (conj St (conj O (conj N G)))).
  - destruct (Al ps) as (Pr & L); [rewrite E0; apply in_or_app; right; now left|].
    assert (Np : ~ In ps pre) by (intro I; rewrite E0 in Nd; apply NoDup_remove_2 in Nd; apply Nd, in_or_app; now left).
    assert (Fr : forall q, (forall p, In p pre -> A ++ q <> A ++ p) <-> ~ In q pre) by (intro q; split; [intros H I; exact (H q I eq_refl)|intros H p I E; apply app_inv_head in E; subst; contradiction]).
    assert (Dd : is_dir_at (w_fs w) (A ++ removelast ps)).
    { destruct (Of pre ps l E0) as [Dd | (I & a & Fd)].
      - destruct (in_dec (list_eq_dec (list_eq_dec N.eq_dec)) (removelast ps) pre) as [I|I].
        + destruct (Al (removelast ps)) as (_ & Ln); [rewrite E0; apply in_or_app; now left|]. destruct Dd as (xs & Dd). congruence.
        + destruct Dd as (xs & Dd). exists xs. rewrite (O _ (proj2 (Fr _) I)). exact Dd.
      - destruct (St _ I) as (Sd & _). destruct (Sd a Fd) as (xs & _ & Lx & _). exists xs. exact Lx. }
    assert (Lw : look (w_fs w) (A ++ ps) = None) by (rewrite (O _ (proj2 (Fr _) Np)); exact L).
    destruct (one w ps N G Pr Dd Lw) as (m & w1 & Km & E1 & N1 & G1 & S1 & O1).
    destruct (IH (pre ++ [ps]) w1) as (w' & E' & S' & O').
    + rewrite <- app_assoc. exact E0.
    + exact N1.
    + exact G1.
    + intros p I. apply in_app_or in I as [I|[<-|[]]]; [|exact S1]. apply (stands_eq (w_fs w)); [|exact (St p I)]. apply O1. intro E. apply app_inv_head in E. subst. contradiction.
    + intros q H. rewrite O1; [apply O; intros p I; apply H, in_or_app; now left|apply H, in_or_app; right; now left].
    + exists w'. split; [|exact (conj S' O')]. cbn [cache_rchildren map]. unfold bind, lift. rewrite Km, here_place, E1, E'. reflexivity.
Qed.

Lemma all_here l fs cwd : NoDup l -> (forall ps, In ps l -> proper far ps /\ look fs (A ++ ps) = None) -> outer_first far A fs l -> good_fs fs ->
  exists w', cache_rchildren K (path_of A) far l (start fs cwd (fun _ => None)) = (Ok (map (fun ps => path_of (A ++ ps)) l), w') /\
    (forall ps, In ps l -> stands K far A (w_fs w') ps) /\ forall q, (forall ps, In ps l -> q <> A ++ ps) -> look (w_fs w') q = look fs q.
Proof.
  intros Nd Al Of G. destruct (all_from fs l Nd Al Of l [] (start fs cwd (fun _ => None)) eq_refl) as (w' & E & S' & O & _); [exact (fun _ => eq_refl)|exact G|intros ? []|reflexivity|]. exists w'. exact (conj E (conj S' O)).
Qed.

Lemma rchildren_app l r w qs w1 : cache_rchildren K (path_of A) far l w = (Ok qs, w1) ->
  forall e w2, cache_rchildren K (path_of A) far r w1 = (Err e, w2) -> cache_rchildren K (path_of A) far (l ++ r) w = (Err e, w2).
Proof.
  revert w qs. induction l as [|ps l IH]; intros w qs E e w2 R.
  - injection E as _ ->. exact R.
  - cbn [cache_rchildren app] in *. unfold bind, lift, ret in *. destruct (k_metadata (far ps)) as [m|]; [|discriminate].
    destruct (meta_updater (conf_for K (far ps)) (here (path_of A) ps) m true w) as [[b|] w0]; [|discriminate].
    destruct (cache_rchildren K (path_of A) far l w0) as [[q|] w3] eqn:E3; [|discriminate]. injection E as _ ->.
    rewrite (IH w0 q E3 e w2 R). reflexivity.
Qed.

Lemma refused_here w ps k a : no_fault w -> good_fs (w_fs w) -> Forall good_name ps -> first_there (w_fs w) A ps k -> S k < length ps -> far_dir (far ps) a ->
  forall r, exists w', cache_rchildren K (path_of A) far (ps :: r) w = (Err (OSErr ENOENT), w') /\ same w w'.
Proof.
  intros N G Hn T L1 D r. destruct (told_true _ _ D) as (m & Km & B & _). destruct D as (Dr & _).
  assert (W : forall cwd follow, walk (w_fs w) cwd follow (path_of (A ++ ps)) = Fail ENOENT).
  { intros cwd follow. pose proof (far_below A ps Hn (w_fs w) cwd follow k (length ps) G T L1 (le_n _)) as W. rewrite firstn_all in W. exact W. }
  destruct (no_set w m (path_of (A ++ ps)) (OSErr ENOENT) N B) with (K' := conf_for K (far ps)) as (w' & E & S').
  - intros follow q n. rewrite W. discriminate.
  - intros w0 S0. pose proof S0 as (F0 & C0 & _ & _). assert (N0 : no_fault w0) by exact (no_fault_same _ _ S0 N).
    destruct (ask_run (fun _ _ => Ok (r_is_dir (c_remote (conf_for K (far ps))))) w0 N0) as (w1 & E1 & S1). pose proof S1 as (F1 & _).
    destruct (not_there w1 (path_of (A ++ ps)) (no_fault_same _ _ S1 N0)) as (w2 & E2 & S2); [intros follow q x; rewrite F1, F0, W; discriminate|]. pose proof S2 as (F2 & _).
    destruct (mkdir_none w2 (path_of (A ++ ps)) (no_fault_same _ _ S2 (no_fault_same _ _ S1 N0))) as (w3 & E3 & S3); [intro cwd; rewrite F2, F1, F0; apply W|].
    exists w3. split; [|exact (same_trans _ _ _ S0 (same_trans _ _ _ S1 (same_trans _ _ _ S2 S3)))].
    unfold prepare, bind at 1. rewrite E1. cbn [c_remote conf_for]. rewrite Dr. unfold bind. rewrite E2. cbn [negb when]. exact E3.
  - exists w'. split; [|exact S']. cbn [cache_rchildren]. unfold bind, lift. rewrite Km, here_place, E. reflexivity.
Qed.

(** One is before the directory it is in *)
Lemma some_here l ps r k fs cwd : NoDup l -> (forall qs, In qs l -> proper far qs /\ look fs (A ++ qs) = None) -> outer_first far A fs l -> good_fs fs ->
  Forall good_name ps -> first_there fs A ps k -> ~ In (firstn (S k) ps) l -> S k < length ps -> (exists a, far_dir (far ps) a) ->
  exists w', cache_rchildren K (path_of A) far (l ++ ps :: r) (start fs cwd (fun _ => None)) = (Err (OSErr ENOENT), w') /\
    (forall qs, In qs l -> stands K far A (w_fs w') qs) /\ forall q, (forall qs, In qs l -> q <> A ++ qs) -> look (w_fs w') q = look fs q.
Proof.
  intros Nd Al Of G Hn (Lt & Dk & Ln) Ni L1 (a & D).
  destruct (all_from fs l Nd Al Of l [] (start fs cwd (fun _ => None)) eq_refl) as (w1 & E1 & S1 & O1 & N1 & G1); [exact (fun _ => eq_refl)|exact G|intros ? []|reflexivity|].
  assert (O' : forall q, ~ In q l -> look (w_fs w1) (A ++ q) = look fs (A ++ q)) by (intros q I; apply O1; intros p Ip E; apply app_inv_head in E; subst; contradiction).
  assert (T : first_there (w_fs w1) A ps k).
  { split; [exact Lt|]. split; [|rewrite O'; assumption]. destruct Dk as (xs & Dk). exists xs. rewrite O'; [exact Dk|].
    intro I. destruct (Al _ I) as (_ & Z). congruence. }
  destruct (refused_here w1 ps k a N1 G1 Hn T L1 D r) as (w' & E & (F & _)).
  exists w'. split; [exact (rchildren_app _ _ _ _ _ E1 _ _ E)|]. rewrite F. exact (conj S1 O1).
Qed.
End All.
