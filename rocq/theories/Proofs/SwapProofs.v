From Coq Require Import String NArith ZArith Bool List Lia.
From Verif Require Import Model.Py Model.PurePath Model.Fs Model.PathOps Model.Swap Spec.FsSpec Spec.LoopSpec Spec.SwapSpec
  Proofs.PyLemmas Proofs.FsLemmas Proofs.RunLemmas Proofs.RmtreeProofs Proofs.RmdirtreeProofs Proofs.MoveLemmas.
Import ListNotations.

Lemma mkdtemp_inv D : forall names w r w', good_fs (w_fs w) -> is_dir_at (w_fs w) D -> Forall good_name names ->
  mkdtemp (path_of D) names w = (r, w') ->
  ((exists e, r = Err e) /\ same w w' /\ (no_fault w -> forall x, In x names -> look (w_fs w) (D ++ [x]) <> None)) \/
  (exists x, In x names /\ good_name x /\ look (w_fs w) (D ++ [x]) = None /\ r = Ok (path_of (D ++ [x])) /\
     changed (put (w_fs w) (D ++ [x]) (Dir [] [])) w w').
Proof.
  induction names as [|x names IH]; intros w r w' G Dd N H.
  - injection H as <- <-. left. split; [now eexists|]. split; [apply same_refl|intros _ x []].
  - inversion N as [|? ? Nx Nr]; subst. cbn [mkdtemp] in H. change (child (path_of D) x) with (path_of (D ++ [x])) in H.
    assert (Ks : forall e w1, same w w1 -> (no_fault w -> look (w_fs w) (D ++ [x]) <> None) ->
      match e with OSErr EEXIST => mkdtemp (path_of D) names | _ => raise e end w1 = (r, w') ->
      ((exists e, r = Err e) /\ same w w' /\ (no_fault w -> e = OSErr EEXIST -> forall y, In y (x :: names) -> look (w_fs w) (D ++ [y]) <> None)) \/
      (exists x, In x names /\ good_name x /\ look (w_fs w) (D ++ [x]) = None /\ r = Ok (path_of (D ++ [x])) /\
         changed (put (w_fs w) (D ++ [x]) (Dir [] [])) w w')).
    { intros e w1 S Lx K.
      assert (Cases : (e = OSErr EEXIST /\ mkdtemp (path_of D) names w1 = (r, w')) \/ (e <> OSErr EEXIST /\ r = Err e /\ w' = w1)).
      { destruct e; try (right; split; [discriminate|]; now injection K as <- <-).
        destruct e; try (right; split; [discriminate|]; now injection K as <- <-). now left. }
      destruct Cases as [[-> K']|(Ne & -> & ->)].
      - pose proof S as (F & C & Hh & T). apply IH in K'; [|now rewrite F|now rewrite F|assumption]. rewrite F in K'.
        destruct K' as [(E & S' & A)|(y & Iy & Gy & Ly & -> & Ch)].
        + left. split; [assumption|]. split; [now apply (same_trans _ w1)|]. intros Nf _ y [<-|Hy]; [now apply Lx|].
          apply A; [now apply (no_fault_same w)|assumption].
        + right. exists y. destruct Ch as (C1 & C2 & C3 & C4). rewrite C in C2. rewrite Hh in C3. rewrite T in C4. unfold changed. tauto.
      - left. split; [now eexists|]. split; [assumption|]. intros _ E. contradiction. }
    destruct (look (w_fs w) (D ++ [x])) as [t|] eqn:L.
    + destruct (look_some (w_fs w) (D ++ [x])) as (n & Gn); [congruence|].
      apply catch_inv in H as [(b & H & ->)|(e & w1 & H & K)].
      * apply bind_inv in H as [(u & w1 & H & E)|(e & H & E)]; [|discriminate]. apply (mkdir_exists _ _ _ _ _ G Gn) in H as (_ & e & E' & _). discriminate.
      * apply bind_inv in H as [(u & w2 & H & E)|(e' & H & E)]; [discriminate|]. injection E as ->.
        apply (mkdir_exists _ _ _ _ _ G Gn) in H as (S & e & E & Ce). injection E as ->.
        destruct (Ks _ _ S ltac:(congruence) K) as [(A & B & C)|(y & Iy & R)].
        -- left. split; [assumption|]. split; [assumption|]. intro Nf. apply C; [assumption|]. destruct Ce as [->|Ce]; [reflexivity|]. rewrite Nf in Ce. discriminate.
        -- right. exists y. split; [now right|exact R].
    + apply catch_inv in H as [(b & H & ->)|(e & w1 & H & K)].
      * apply bind_inv in H as [(u & w1 & H & E)|(e & H & E)]; [|discriminate]. injection E as <- <-.
        apply (mkdir_step _ _ _ G Dd Nx L) in H as [(e & E & _)|(_ & Ch)]; [discriminate|].
        right. exists x. split; [now left|]. split; [assumption|]. split; [assumption|]. split; [reflexivity|assumption].
      * apply bind_inv in H as [(u & w2 & H & E)|(e' & H & E)]; [discriminate|]. injection E as ->.
        apply (mkdir_step _ _ _ G Dd Nx L) in H as [(e & E & S & Fl)|(E & _)]; [|discriminate]. injection E as ->.
        destruct (Ks e w1 S) as [(A & B & C)|(y & Iy & R)]; [|exact K| |].
        -- intro Nf. rewrite Nf in Fl. discriminate.
        -- left. split; [assumption|]. split; [assumption|]. intro Nf. rewrite Nf in Fl. discriminate.
        -- right. exists y. split; [now right|exact R].
Qed.

(** All states since [w] have both trees. *)
Definition kept (fs : node) (A B : place) (w w' : world) : Prop :=
  both_there fs A B (w_fs w') /\ exists l, w_hist w' = l ++ w_hist w /\ Forall (both_there fs A B) l.
Lemma kept_same fs A B w w1 w2 : kept fs A B w w1 -> same w1 w2 -> kept fs A B w w2.
Proof. intros (K & l & H & F) (S1 & _ & S2 & _). unfold kept. rewrite S1, S2. split; [assumption|]. now exists l. Qed.
Lemma kept_changed fs A B w w1 w2 s : kept fs A B w w1 -> changed s w1 w2 -> both_there fs A B s -> kept fs A B w w2.
Proof.
  intros (K & l & H & F) (S1 & _ & S2 & _) Bs. unfold kept. rewrite S1, S2. split; [assumption|]. exists (s :: l). rewrite H. split; [reflexivity|]. now constructor.
Qed.

Lemma is_dir_look fs q s : look s q = look fs q -> is_dir_at fs q -> is_dir_at s q.
Proof. unfold is_dir_at. now intros ->. Qed.

Lemma fallback_run names A D b w r w' : good_fs (w_fs w) -> A <> [] -> look (w_fs w) A <> None -> look (w_fs w) (D ++ [b]) <> None ->
  apart A (D ++ [b]) -> Forall good_name names -> swap_fallback names (path_of A) (path_of (D ++ [b])) w = (r, w') ->
  kept (w_fs w) A (D ++ [b]) w w' /\ (r = Ok tt -> exchanged (w_fs w) A (D ++ [b]) (w_fs w')) /\
  (no_fault w -> (exists x, In x names /\ look (w_fs w) (D ++ [x]) = None) -> r = Ok tt).
Proof.
  set (fs := w_fs w). set (B := D ++ [b]). intros G NA LA LB Ap Nn H.
  destruct (look_some fs A LA) as (nA & GA). destruct (look_some fs B LB) as (nB & GB).
  assert (Dd : is_dir_at fs D) by (apply get_above in GB as (xs & es & Gd); exists xs; apply look_dir; now exists es).
  assert (NB : B <> []) by (unfold B; now destruct D).
  assert (K0 : kept fs A B w w) by (split; [exists A, B; repeat split; try apply Ap; intro; reflexivity|exists []; now split]).
  unfold swap_fallback in H.
  replace (pp_parent (path_of B)) with (path_of D) in H by (unfold pp_parent, path_of, B; cbn [pp_abs pp_parts]; now rewrite removelast_last).
  replace (pp_name (path_of B)) with b in H by (unfold pp_name, path_of, B; cbn [pp_parts]; now rewrite last_last).
  apply bind_inv in H as [(td & w1 & H1 & H)|(e & H1 & ->)].
  2:{ apply (mkdtemp_inv D) in H1 as [(E & S & Nx)|(x & _ & _ & _ & E & _)]; try assumption; [|discriminate].
      split; [now apply (kept_same _ _ _ _ w)|]. split; [discriminate|]. intros Nf (x & Ix & Lx). now apply (Nx Nf x) in Ix. }
  apply (mkdtemp_inv D) in H1 as [((e & E) & _)|(x & Ix & Gx & Lx & E & Ch1)]; try assumption; [discriminate|].
  injection E as ->. change (child (path_of (D ++ [x])) b) with (path_of ((D ++ [x]) ++ [b])) in H.
  set (T := D ++ [x]) in *. change (w_fs w) with fs in Ch1, Lx. set (TB := T ++ [b]) in *.
  assert (xb : x <> b) by (intros ->; contradiction).
  assert (NT : T <> []) by (unfold T; now destruct D).
  assert (aBT : apart B T) by (apply apart_snoc; congruence).
  assert (aAT : apart A T).
  { split; intro K.
    - apply below_snoc in K as [K|K]; [|subst A; contradiction]. apply (proj1 Ap). apply (below_trans _ D); [assumption|apply below_app].
    - apply (look_below_none _ _ _ Lx) in K. contradiction. }
  assert (aATB : apart A TB) by now apply apart_app_r. assert (aBTB : apart B TB) by now apply apart_app_r.
  destruct (look_some fs B LB) as (nB' & GB'). rewrite GB in GB'. injection GB' as <-.
  assert (Gb : good_name b) by (pose proof (good_names _ _ _ (proj1 G) GB) as F; apply Forall_app in F as [_ F]; now inversion F).
  assert (rA : forall Q q, apart A Q -> below A q -> ~ below Q q) by (intros; now apply (apart_below A)).
  assert (rB : forall Q q, apart B Q -> below B q -> ~ below Q q) by (intros; now apply (apart_below B)).
  assert (rT : forall Q q, apart T Q -> below T q -> ~ below Q q) by (intros; now apply (apart_below T)).
  assert (nDT : ~ below T D) by (intro K; apply below_len in K; unfold T in K; rewrite app_length in K; cbn in K; lia).
  assert (nDB : ~ below B D) by (intro K; apply below_len in K; unfold B in K; rewrite app_length in K; cbn in K; lia).
  assert (nDA : ~ below A D) by (intro K; apply (proj1 Ap); apply (below_trans _ D); [assumption|apply below_app]).
  (* s1 *)
  set (s1 := put fs T (Dir [] [])) in *. pose proof Ch1 as (F1 & C1 & _ & T1).
  assert (L1 : forall q, ~ below T q -> look s1 q = look fs q) by (intros q K; now apply look_put_other).
  assert (GT1 : get s1 T = Some (Dir [] [])) by now apply get_put_new.
  assert (G1 : good_fs s1) by (apply good_put_new; try assumption; constructor; [constructor|intros ? []|intros ? ? []]).
  assert (B1 : both_there fs A B s1).
  { exists A, B. split; [intro q; apply L1, (rA T); [assumption|apply below_app]|]. split; [|assumption]. intro q; apply L1, (rB T); [assumption|apply below_app]. }
  pose proof (kept_changed _ _ _ _ _ _ _ K0 Ch1 B1) as K1.
  assert (Nf1 : no_fault w -> no_fault w1) by (intros Nf t; rewrite T1; apply Nf).
  (* s2 *)
  apply bind_inv in H as [(u & w2 & H2 & H)|(e & H2 & ->)];
    (destruct (look_some s1 B) as (mB & GB1); [rewrite L1 by (apply (rB T); [assumption|apply below_refl]); assumption|]);
    (assert (LTB1 : look s1 TB = None) by (apply look_none; unfold TB; rewrite get_snoc, GT1; reflexivity));
    (assert (DT1 : is_dir_at s1 T) by (exists []; apply look_dir; now exists []));
    (apply (rename_step w1 B T b mB) in H2; [|now rewrite F1|assumption|now rewrite F1|now rewrite F1|assumption|now rewrite F1|apply aBTB]);
    (destruct H2 as [(e' & E & S2 & Fl2)|(E & Ch2)]; try discriminate E).
  2:{ split; [now apply (kept_same _ _ _ _ w1)|]. split; [discriminate|]. intro Nf. rewrite (Nf1 Nf) in Fl2. discriminate. }
  clear E. rewrite F1 in Ch2. destruct (move_moves s1 B T b mB NB GB1 DT1 LTB1 (proj1 aBTB)) as [_ (M21 & M22 & M23)].
  set (s2 := put (del s1 B) (T ++ [b]) mB) in *. fold TB in M21, M22, M23. pose proof Ch2 as (F2 & C2 & _ & T2).
  assert (G2 : good_fs s2) by now apply good_move.
  assert (A2 : forall q, look s2 (A ++ q) = look fs (A ++ q)).
  { intro q. rewrite M22 by (first [apply (rA B)|apply (rA TB)]; [assumption|apply below_app]). apply L1, (rA T); [assumption|apply below_app]. }
  assert (TB2 : forall q, look s2 (TB ++ q) = look fs (B ++ q)).
  { intro q. rewrite M21. apply L1, (rB T); [assumption|apply below_app]. }
  assert (K2 : kept fs A B w w2) by (apply (kept_changed _ _ _ _ _ _ _ K1 Ch2); exists A, TB; repeat split; try apply aATB; assumption).
  assert (Nf2 : no_fault w -> no_fault w2) by (intros Nf t; rewrite T2; now apply Nf1).
  (* s3 *)
  apply bind_inv in H as [(u' & w3 & H3 & H)|(e & H3 & ->)];
    (destruct (look_some s2 A) as (mA & GA2); [specialize (A2 []); rewrite !app_nil_r in A2; now rewrite A2|]);
    (assert (LB2 : look s2 B = None) by (apply M23, below_refl));
    (assert (DD2 : is_dir_at s2 D) by (apply (is_dir_look fs); [rewrite M22; [now apply L1|assumption|];
       intro K; apply nDT; apply (below_trans _ TB); [apply below_app|assumption]|assumption]));
    (apply (rename_step w2 A D b mA) in H3; [|now rewrite F2|assumption|now rewrite F2|now rewrite F2|assumption|now rewrite F2|apply Ap]);
    (destruct H3 as [(e' & E & S3 & Fl3)|(E & Ch3)]; try discriminate E).
  2:{ split; [now apply (kept_same _ _ _ _ w2)|]. split; [discriminate|]. intro Nf. rewrite (Nf2 Nf) in Fl3. discriminate. }
  clear E. rewrite F2 in Ch3. destruct (move_moves s2 A D b mA NA GA2 DD2 LB2 (proj1 Ap)) as [_ (M31 & M32 & M33)].
  set (s3 := put (del s2 A) (D ++ [b]) mA) in *. fold B in M31, M32, M33. pose proof Ch3 as (F3 & C3 & _ & T3).
  assert (G3 : good_fs s3) by now apply good_move.
  assert (TB3 : forall q, look s3 (TB ++ q) = look fs (B ++ q)).
  { intro q. rewrite M32; [apply TB2| |]; apply (apart_below TB); try apply below_app; now apply apart_sym. }
  assert (B3 : forall q, look s3 (B ++ q) = look fs (A ++ q)) by (intro q; rewrite M31; apply A2).
  assert (K3 : kept fs A B w w3) by (apply (kept_changed _ _ _ _ _ _ _ K2 Ch3); exists B, TB; repeat split; try apply aBTB; assumption).
  assert (Nf3 : no_fault w -> no_fault w3) by (intros Nf t; rewrite T3; now apply Nf2).
  (* s4 *)
  assert (NTB : TB <> []) by (unfold TB; now destruct T).
  destruct (exists_last NA) as (E' & a & EA).
  assert (DE : is_dir_at fs E') by (rewrite EA in GA; apply get_above in GA as (xs & es & Gd); exists xs; apply look_dir; now exists es).
  assert (Ga : good_name a) by (rewrite EA in GA; pose proof (good_names _ _ _ (proj1 G) GA) as F; apply Forall_app in F as [_ F]; now inversion F).
  assert (nE : forall Q, apart A Q -> ~ below Q E').
  { intros Q aQ K. apply (proj2 aQ). rewrite EA. apply (below_trans _ E'); [assumption|apply below_app]. }
  assert (nEA : ~ below A E') by (intro K; apply below_len in K; rewrite EA, app_length in K; cbn in K; lia).
  apply bind_inv in H as [(u2 & w4 & H4 & H)|(e & H4 & ->)];
    (destruct (look_some s3 TB) as (mT & GT3); [specialize (TB3 []); rewrite !app_nil_r in TB3; now rewrite TB3|]);
    (assert (LA3 : look s3 A = None) by (apply M33, below_refl));
    (assert (DE3 : is_dir_at s3 E') by (apply (is_dir_look fs); [rewrite M32 by (try assumption; now apply nE);
       rewrite M22 by (now apply nE); apply L1; now apply nE|assumption]));
    (rewrite EA in LA3, H4; apply (rename_step w3 TB E' a mT) in H4;
      [|now rewrite F3|assumption|now rewrite F3|now rewrite F3|assumption|now rewrite F3|rewrite <- EA; apply aATB]);
    (destruct H4 as [(e' & E & S4 & Fl4)|(E & Ch4)]; try discriminate E).
  2:{ split; [now apply (kept_same _ _ _ _ w3)|]. split; [discriminate|]. intro Nf. rewrite (Nf3 Nf) in Fl4. discriminate. }
  clear E. rewrite F3 in Ch4. assert (nTA : ~ below TB (E' ++ [a])) by (rewrite <- EA; apply aATB).
  destruct (move_moves s3 TB E' a mT NTB GT3 DE3 LA3 nTA) as [_ (M41 & M42 & M43)].
  rewrite <- EA in *. set (s4 := put (del s3 TB) A mT) in *. pose proof Ch4 as (F4 & C4 & _ & T4).
  assert (G4 : good_fs s4) by (unfold s4; rewrite EA; now apply good_move).
  assert (A4 : forall q, look s4 (A ++ q) = look fs (B ++ q)) by (intro q; rewrite M41; apply TB3).
  assert (B4 : forall q, look s4 (B ++ q) = look fs (A ++ q)).
  { intro q. rewrite M42; [apply B3| |]; [apply (rB TB)|apply (rB A)]; try apply below_app; [assumption|now apply apart_sym]. }
  assert (O4 : forall q, ~ below A q -> ~ below B q -> ~ below TB q -> look s4 q = look s1 q).
  { intros q X Y Z. rewrite M42, M32, M22 by assumption. reflexivity. }
  assert (K4 : kept fs A B w w4) by (apply (kept_changed _ _ _ _ _ _ _ K3 Ch4); exists B, A; repeat split; try apply Ap; assumption).
  (* s5 *)
  assert (nTT : ~ below TB T) by (intro K; apply below_len in K; unfold TB in K; rewrite app_length in K; cbn in K; lia).
  assert (GT4 : get s4 T = Some (Dir [] [])).
  { apply empty_dir; [assumption| |].
    - rewrite O4; [apply look_dir; now exists []|apply aAT|apply aBT|assumption].
    - intros y Gy. destruct (str_dec b y) as [<-|Ny]; [apply M43, below_refl|].
      rewrite O4; [apply look_none; now rewrite get_snoc, GT1| | |].
      + apply (rT A); [now apply apart_sym|apply below_app].
      + apply (rT B); [now apply apart_sym|apply below_app].
      + apply (proj1 (apart_snoc T b y Ny)). }
  apply (rmdir_step w4 T []) in H; [|now rewrite F4|assumption|now rewrite F4].
  destruct H as [(e' & -> & S5 & Fl5)|(-> & Ch5)].
  { split; [now apply (kept_same _ _ _ _ w4)|]. split; [discriminate|]. intro Nf. rewrite T4, (Nf3 Nf) in Fl5. discriminate. }
  rewrite F4 in Ch5. pose proof Ch5 as (F5 & _).
  assert (Ex : exchanged fs A B (del s4 T)).
  { split; [|split].
    - intro q. rewrite look_del_other by (apply (rB T); [assumption|apply below_app]). apply B4.
    - intro q. rewrite look_del_other by (apply (rA T); [assumption|apply below_app]). apply A4.
    - intros q X Y. destruct (below_dec T q) as [K|K].
      + rewrite look_del_below by assumption. symmetry. now apply (look_below_none fs T).
      + rewrite look_del_other by assumption. rewrite O4, L1; try assumption; [reflexivity|].
        intro Z. apply K. apply (below_trans _ TB); [apply below_app|assumption]. }
  split; [|split; [|reflexivity]].
  - apply (kept_changed _ _ _ _ _ _ _ K4 Ch5). exists B, A. destruct Ex as (X & Y & _). repeat split; try assumption; apply Ap.
  - intros _. now rewrite F5.
Qed.

(** ** With renameat2 *)
Lemma look_ask_quiet {A} (g : place * node -> res A) follow p w e w' : no_fault w -> (forall x, exists a, g x = Ok a) ->
  ask (fun fs cwd => do r <- lookup follow p fs cwd ; g r) w = (Err e, w') -> exists n, e = OSErr n.
Proof.
  intros N G H. apply ask_inv in H as (_ & [H|(e' & _ & H)]); [|rewrite N in H; discriminate].
  unfold lookup in H. destruct (walk (w_fs w) (w_cwd w) follow p) as [q n|d x|n]; cbn [rbind] in H.
  - destruct (G (q, n)) as (a & E). rewrite E in H. discriminate.
  - injection H as ->. now eexists.
  - injection H as ->. now eexists.
Qed.
Lemma exists_quiet p w e w' : no_fault w -> p_exists p w <> (Err e, w').
Proof.
  intros N H. destruct (test_run true p (fun _ => true) w N) as (w1 & _ & R). unfold p_exists in H. rewrite R in H.
  destruct (walk (w_fs w) (w_cwd w) true p) eqn:E; try discriminate H. apply walk_fail in E. rewrite E in H. discriminate.
Qed.

Lemma swap_run A B w r w' nA nB : good_fs (w_fs w) -> A <> [] -> B <> [] -> get (w_fs w) A = Some nA -> get (w_fs w) B = Some nB ->
  apart A B -> p_swap (path_of A) (path_of B) w = (r, w') ->
  (exists e, r = Err e /\ same w w' /\ (no_fault w -> e <> KeyboardInterrupt)) \/
  (r = Ok tt /\ changed (put (put (w_fs w) A nB) B nA) w w').
Proof.
  intros G NA NB GA GB Ap H. unfold p_swap in H.
  apply bind_inv in H as [(se & w1 & H1 & H)|(e & H1 & ->)]; pose proof H1 as S; apply test_inv in S as [S _].
  2:{ left. exists e. split; [reflexivity|]. split; [assumption|]. intro N. now apply exists_quiet in H1. }
  clear H1. apply bind_inv in H as [(te & w2 & H1 & H)|(e & H1 & ->)]; pose proof H1 as S'; apply test_inv in S' as [S' _]; apply (same_trans _ _ _ S) in S'.
  2:{ left. exists e. split; [reflexivity|]. split; [assumption|]. intro N. apply exists_quiet in H1; [contradiction|]. now apply (no_fault_same w). }
  clear H1 S w1. rename S' into S. destruct se; cbn [negb] in H; [|left; injection H as <- <-; eexists; split; [reflexivity|]; split; [assumption|discriminate]].
  destruct te; cbn [negb] in H; [|left; injection H as <- <-; eexists; split; [reflexivity|]; split; [assumption|discriminate]].
  unfold swap_linux in H. revert H.
  assert (St : forall {X Y} (g : place * node -> res X) follow p (k : X -> M Y) u (rr : res Y) v, same w u -> (forall x, exists a, g x = Ok a) ->
    bind (ask (fun fs cwd => do r <- lookup follow p fs cwd ; g r)) k u = (rr, v) ->
    (exists e, rr = Err e /\ same w v /\ (no_fault w -> e <> KeyboardInterrupt)) \/ exists x u', same w u' /\ k x u' = (rr, v)).
  { intros X Y g follow p k u rr v Su Gg H. apply bind_inv in H as [(x & u1 & H1 & H)|(e & H1 & ->)]; pose proof H1 as S'; apply ask_inv in S' as [S' _]; apply (same_trans _ _ _ Su) in S'.
    - right. eauto.
    - left. exists e. split; [reflexivity|]. split; [assumption|]. intro N. apply look_ask_quiet in H1 as (n & ->); [discriminate|now apply (no_fault_same w)|assumption]. }
  intro H. apply (St _ _ (fun r => Ok (snd r))) in H as [H|(x & u & Su & H)]; [now left| |assumption|now eexists].
  clear S w2. apply (St _ _ (fun r => Ok (snd r))) in H as [H|(x' & u' & Su' & H)]; [now left| |assumption|now eexists].
  clear Su u. apply (St _ _ (fun r => Ok (fst r))) in H as [H|(fa & u & Su & H)]; [now left| |assumption|now eexists].
  clear Su' u'. apply (St _ _ (fun r => Ok (fst r))) in H as [H|(fb & u' & Su' & H)]; [now left| |assumption|now eexists].
  clear Su u St.
  assert (Sp : forall {Y} p (k : unit -> M Y) u (rr : res Y) v, bind (spelled p) k u = (rr, v) -> (rr = Err UnicodeError /\ v = u) \/ k tt u = (rr, v)).
  { intros Y p k u rr v K. unfold bind, spelled, lift in K. destruct (utf8_enc (pp_str p)); [now right|left]. injection K as <- <-. now split. }
  apply Sp in H as [[-> ->]|H]; [left; eexists; split; [reflexivity|]; split; [assumption|discriminate]|].
  apply Sp in H as [[-> ->]|H]; [left; eexists; split; [reflexivity|]; split; [assumption|discriminate]|]. clear Sp.
  assert (Ct : exists r0, sys_exchange fa (path_of A) fb (path_of B) u' = (r0, w') /\
    match r0 with Ok tt => r = Ok tt | Err e => exists e', r = Err e' /\ (e' = KeyboardInterrupt -> e = KeyboardInterrupt) end).
  { unfold catch in H. destruct (sys_exchange fa (path_of A) fb (path_of B) u') as [[[]|e] v] eqn:X; injection H as <- <-.
    - eexists. split; reflexivity.
    - exists (Err e). split; [reflexivity|]. eexists. split; [reflexivity|]. destruct e; intro K; try discriminate K; reflexivity. }
  clear H. destruct Ct as (r0 & H & Ct). destruct Su' as (F & C & Hh & T).
  unfold sys_exchange in H. revert H. rewrite (not_dotdot _ _ _ G NA GA), (not_dotdot _ _ _ G NB GB). cbn [orb]. intro H.
  eapply sys_step in H; [|unfold lookup; rewrite F, (walk_of _ _ _ _ _ G GA), (walk_of _ _ _ _ _ G GB) by discriminate; cbn [rbind];
    destruct A as [|a A]; [congruence|]; destruct B as [|b B]; [congruence|];
    (destruct (list_eqb str_eqb (a :: A) (b :: B)) eqn:E; [apply list_eqb_eq in E; rewrite E in Ap; destruct Ap as [K _]; elim K; apply below_refl|]);
    (destruct (is_prefix (a :: A) (b :: B)) eqn:E1; [apply is_prefix_spec in E1; now destruct Ap|]);
    (destruct (is_prefix (b :: B) (a :: A)) eqn:E2; [apply is_prefix_spec in E2; now destruct Ap|]); reflexivity].
  destruct H as [(e & -> & (S1 & S2 & S3 & S4) & Fl)|(-> & Ch)].
  - destruct Ct as (e' & -> & Ct). left. exists e'. split; [reflexivity|]. split; [repeat split; congruence|]. intro N. rewrite T, N in Fl. discriminate.
  - right. split; [exact Ct|]. destruct Ch as (C1 & C2 & C3 & C4). repeat split; congruence.
Qed.

Lemma exchange_exchanged fs A B nA nB : A <> [] -> B <> [] -> get fs A = Some nA -> get fs B = Some nB -> apart A B ->
  exchanged fs A B (put (put fs A nB) B nA).
Proof.
  intros NA NB GA GB Ap.
  assert (P : forall n P c v, P <> [] -> get n P = Some c -> forall q, look (put n P v) (P ++ q) = look v q).
  { intros n P c v NP Gc q. unfold look. destruct (exists_last NP) as (D & x & ->). rewrite get_put_below; [reflexivity|].
    apply get_above in Gc as (xs & es & Gc). destruct (D ++ [x]) eqn:E; [destruct D; discriminate|]. rewrite <- E, removelast_last. eauto. }
  assert (nB' : ~ below B A) by apply Ap.
  assert (LB : look (put fs A nB) B = look fs B) by (apply look_put_other, Ap).
  destruct (look_some (put fs A nB) B) as (m & Gm); [rewrite LB; intro K; apply look_none in K; congruence|].
  split; [|split].
  - intro q. rewrite (P _ _ m) by assumption. symmetry. now apply look_app.
  - intro q. rewrite look_put_other by (apply (apart_below A); [assumption|apply below_app]). rewrite (P _ _ nA) by assumption. symmetry. now apply look_app.
  - intros q X Y. now rewrite !look_put_other by assumption.
Qed.

(** ** swap_carefree *)
Lemma swap_carefree_run names A B w r w' : good_fs (w_fs w) -> A <> [] -> B <> [] -> look (w_fs w) A <> None -> look (w_fs w) B <> None ->
  apart A B -> Forall good_name names -> p_swap_carefree names (path_of A) (path_of B) w = (r, w') ->
  kept (w_fs w) A B w w' /\ (r = Ok tt -> exchanged (w_fs w) A B (w_fs w')) /\
  (no_fault w -> (exists x, In x names /\ look (w_fs w) (removelast B ++ [x]) = None) -> r = Ok tt).
Proof.
  intros G NA NB LA LB Ap Nn H. destruct (look_some _ _ LA) as (nA & GA). destruct (look_some _ _ LB) as (nB & GB).
  unfold p_swap_carefree in H. apply catch_inv in H as [([] & H & ->)|(e & w1 & H & K)].
  - destruct (swap_run _ _ _ _ _ _ _ G NA NB GA GB Ap H) as [(e & E & _)|(_ & Ch)]; [discriminate|].
    pose proof (exchange_exchanged _ _ _ _ _ NA NB GA GB Ap) as Ex. destruct Ch as (C1 & C2 & C3 & C4).
    assert (Bt : both_there (w_fs w) A B (put (put (w_fs w) A nB) B nA)).
    { exists B, A. destruct Ex as (X & Y & _). split; [assumption|]. split; [assumption|]. now apply apart_sym. }
    split; [|split].
    + split; [now rewrite C1|]. eexists [_]. split; [exact C3|]. constructor; [exact Bt|constructor].
    + intros _. now rewrite C1.
    + reflexivity.
  - destruct (swap_run _ _ _ _ _ _ _ G NA NB GA GB Ap H) as [(e' & E & S & Q)|(E & _)]; [|discriminate]. injection E as <-.
    pose proof S as (F & C & Hh & T).
    assert (Cs : (e = KeyboardInterrupt /\ (Err e, w1) = (r, w')) \/ swap_fallback names (path_of A) (path_of B) w1 = (r, w')).
    { destruct e; try (right; exact K). left. split; [reflexivity|exact K]. }
    destruct Cs as [[-> E]|E].
    + injection E as <- <-. split; [|split].
      * apply (kept_same _ _ _ _ w); [|assumption]. split; [|now exists []]. exists A, B. split; [intro; reflexivity|]. split; [intro; reflexivity|assumption].
      * discriminate.
      * intro N. now apply Q in N.
    + destruct (exists_last NB) as (D & b & ->). rewrite removelast_last. apply fallback_run in E; try assumption; try (rewrite F; assumption).
      rewrite F in E. destruct E as ((K1 & l & K2 & K3) & Ex & Nf). split; [|split; [assumption|]].
      * split; [assumption|]. exists l. now rewrite K2, Hh.
      * intros N X. apply Nf; [now apply (no_fault_same w)|assumption].
Qed.

(** ** As the properties state it *)
Lemma swap_carefree_states names A B fs cwd fault r w' : good_fs fs -> A <> [] -> B <> [] -> look fs A <> None -> look fs B <> None ->
  apart A B -> Forall good_name names -> p_swap_carefree names (path_of A) (path_of B) (start fs cwd fault) = (r, w') ->
  forall s, In s (states w') -> both_there fs A B s.
Proof.
  intros G NA NB LA LB Ap Nn H. apply swap_carefree_run in H; try assumption. destruct H as [(K & l & E & F) _].
  unfold states. rewrite E. cbn [w_hist start]. intros s [<-|I]; [exact K|]. apply in_app_or in I as [I|[<-|[]]].
  - rewrite Forall_forall in F. now apply F.
  - exists A, B. split; [intro; reflexivity|]. split; [intro; reflexivity|assumption].
Qed.
Lemma swap_carefree_ok names A B fs cwd fault w' : good_fs fs -> A <> [] -> B <> [] -> look fs A <> None -> look fs B <> None ->
  apart A B -> Forall good_name names -> p_swap_carefree names (path_of A) (path_of B) (start fs cwd fault) = (Ok tt, w') ->
  exchanged fs A B (w_fs w').
Proof. intros G NA NB LA LB Ap Nn H. apply swap_carefree_run in H; try assumption. now apply H. Qed.
Lemma swap_carefree_works names A B fs cwd r w' x : good_fs fs -> A <> [] -> B <> [] -> look fs A <> None -> look fs B <> None ->
  apart A B -> Forall good_name names -> In x names -> look fs (removelast B ++ [x]) = None ->
  p_swap_carefree names (path_of A) (path_of B) (start fs cwd (fun _ => None)) = (r, w') -> r = Ok tt.
Proof.
  intros G NA NB LA LB Ap Nn I L H. apply swap_carefree_run in H; try assumption. apply H; [|eauto]. intro t. reflexivity.
Qed.
(** [swap] alone is atomic. *)
Lemma swap_atomic self target w e w' : p_swap self target w = (Err e, w') -> same w w'.
Proof.
  intro H. unfold p_swap in H.
  apply bind_inv in H as [(se & w1 & H1 & H)|(e1 & H1 & E)]; apply test_inv in H1 as [S _]; [|assumption].
  apply bind_inv in H as [(te & w2 & H1 & H)|(e1 & H1 & E)]; apply test_inv in H1 as [S' _]; apply (same_trans _ _ _ S) in S'; [|assumption].
  clear S w1. rename S' into S. destruct se; cbn [negb] in H; [|now injection H as <- <-]. destruct te; cbn [negb] in H; [|now injection H as <- <-].
  apply bind_inv in H as [(x & w1 & H1 & H)|(e1 & H1 & E)]; apply ask_inv in H1 as [S' _]; apply (same_trans _ _ _ S) in S'; [|assumption].
  clear S w2. apply bind_inv in H as [(x' & w2 & H1 & H)|(e1 & H1 & E)]; apply ask_inv in H1 as [S _]; apply (same_trans _ _ _ S') in S; [|assumption].
  clear S' w1. unfold swap_linux in H.
  apply bind_inv in H as [(y & w1 & H1 & H)|(e1 & H1 & E)]; apply ask_inv in H1 as [S' _]; apply (same_trans _ _ _ S) in S'; [|assumption].
  clear S w2. apply bind_inv in H as [(y' & w2 & H1 & H)|(e1 & H1 & E)]; apply ask_inv in H1 as [S _]; apply (same_trans _ _ _ S') in S; [|assumption].
  clear S' w1.
  assert (Sp : forall p (k : unit -> M unit) rr v, bind (spelled p) k w2 = (rr, v) -> v = w2 \/ k tt w2 = (rr, v)).
  { intros p k rr v K. unfold bind, spelled, lift in K. destruct (utf8_enc (pp_str p)); [now right|left]. now injection K. }
  apply Sp in H as [->|H]; [assumption|]. apply Sp in H as [->|H]; [assumption|]. clear Sp.
  apply catch_inv in H as [(a & _ & E)|(e1 & w1 & H & K)]; [discriminate|]. injection K as _ <-.
  apply sys_inv in H as [(e2 & _ & S' & _)|(a & fs & E & _)]; [|discriminate]. now apply (same_trans _ w2).
Qed.
Lemma swap_atomic_fs self target fs cwd fault e w' : p_swap self target (start fs cwd fault) = (Err e, w') -> forall s, In s (states w') -> s = fs.
Proof.
  intro H. apply swap_atomic in H as (F & _ & Hh & _). unfold states. rewrite F, Hh. cbn. intros s [<-|[<-|[]]]; reflexivity.
Qed.
(** Without faults the exception is that of [mkdtemp]. *)
Lemma swap_carefree_raises names A B fs cwd e w' : good_fs fs -> A <> [] -> B <> [] -> look fs A <> None -> look fs B <> None ->
  apart A B -> Forall good_name names -> p_swap_carefree names (path_of A) (path_of B) (start fs cwd (fun _ => None)) = (Err e, w') ->
  forall s, In s (states w') -> s = fs.
Proof.
  intros G NA NB LA LB Ap Nn H. pose proof H as H0. apply swap_carefree_run in H0; try assumption. destruct H0 as (_ & _ & Nf).
  assert (N : no_fault (start fs cwd (fun _ => None))) by (intro t; reflexivity). specialize (Nf N). cbn [w_fs start] in Nf.
  unfold p_swap_carefree in H. apply catch_inv in H as [(a & H & E)|(e1 & w1 & H & K)]; [discriminate|]. apply swap_atomic in H as S.
  assert (Fin : same (start fs cwd (fun _ => None)) w' -> forall s, In s (states w') -> s = fs).
  { intros (F & _ & Hh & _). unfold states. rewrite F, Hh. cbn. intros s [<-|[<-|[]]]; reflexivity. }
  assert (Cs : (@Err unit e1, w1) = (Err e, w') \/ swap_fallback names (path_of A) (path_of B) w1 = (Err e, w')).
  { destruct e1; try (right; exact K). left. exact K. }
  destruct Cs as [E|E]; [injection E as -> <-; now apply Fin|]. unfold swap_fallback in E.
  destruct (exists_last NB) as (D & b & ->). rewrite removelast_last in Nf.
  replace (pp_parent (path_of (D ++ [b]))) with (path_of D) in E by (unfold pp_parent, path_of; cbn [pp_abs pp_parts]; now rewrite removelast_last).
  pose proof S as (F & _). destruct (look_some _ _ LB) as (nB & GB).
  assert (Dd : is_dir_at fs D) by (apply get_above in GB as (xs & es & Gd); exists xs; apply look_dir; now exists es).
  apply bind_inv in E as [(td & w2 & H1 & E)|(e2 & H1 & E)]; apply (mkdtemp_inv D) in H1; try assumption; try (rewrite F; assumption); rewrite F in H1.
  - destruct H1 as [((e3 & E3) & _)|(x & Ix & _ & Lx & _)]; [discriminate|]. assert (X : Err e = Ok tt) by (apply Nf; eauto). discriminate.
  - destruct H1 as [(_ & S' & _)|(x & _ & _ & _ & E3 & _)]; [|discriminate]. apply Fin. now apply (same_trans _ w1).
Qed.
