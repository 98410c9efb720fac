(** * Lemmas on running setup.py *)
From Coq Require Import String NArith ZArith Bool List Lia.
From Verif Require Import Model.Py Model.PurePath Model.Fs Model.PathOps Model.DataDir Model.Cwd Model.PackageFolder Model.Setup
  Spec.FsSpec Spec.LoopSpec Spec.ZipSpec Spec.CwdSpec Spec.PackageFolderSpec Spec.SetupSpec
  Proofs.PyLemmas Proofs.FsLemmas Proofs.RunLemmas Proofs.RmtreeProofs Proofs.RmdirtreeProofs Proofs.ZipProofs Proofs.RepoProofs Proofs.CwdProofs Proofs.PackageFolderProofs.
Import ListNotations.

(** ** What is recorded *)
Section Record.
Context {C : Type}.
Lemma does_total (s : script C) : forall w, exists r l w', does s w r l w'.
Proof.
  induction s as [|m k IH|z k IH|c k IH|s IHs k IHk]; intro w.
  - eexists _, _, _. constructor.
  - destruct (m w) as [[[]|e] w1] eqn:E.
    + destruct (IH w1) as (r & l & w2 & D). eexists _, _, _. eapply does_do; eassumption.
    + eexists _, _, _. eapply does_fail; eassumption.
  - destruct (IH w) as (r & l & w2 & D). eexists _, _, _. apply does_level; eassumption.
  - destruct (IH w) as (r & l & w2 & D). eexists _, _, _. apply does_call; eassumption.
  - destruct (IHs w) as ([[]|e] & l & w1 & D).
    + destruct l as [|x l].
      * eexists _, _, _. apply does_other_none; eassumption.
      * destruct (exists_last (l := x :: l)) as (l' & c & E); [discriminate|]. rewrite E in D.
        destruct (IHk w1) as (r & l2 & w2 & D2). eexists _, _, _. eapply does_other; eassumption.
    + eexists _, _, _. eapply does_other_fail; eassumption.
Qed.

(** The last of the calls, or what was there *)
Definition last_or (l : list C) (o : option C) : option C := fold_left (fun _ c => Some c) l o.
Lemma last_or_snoc l c o : last_or (l ++ [c]) o = Some c.
Proof. unfold last_or. now rewrite fold_left_app. Qed.

(** Runs that are over are not written to again. *)
Definition kept (n : nat) (pr pr' : proc C) : Prop :=
  p_hook pr' = p_hook pr /\ (p_runs pr <= p_runs pr')%nat /\ forall x, (x < p_runs pr)%nat -> x <> n -> p_last pr' x = p_last pr x.
Lemma exec_run s : forall w r l w', does s w r l w' -> forall n pr, p_hook pr = Fake n -> (n < p_runs pr)%nat ->
  exists pr', exec s pr w = (r, pr', w') /\ kept n pr pr' /\ p_last pr' n = last_or l (p_last pr n).
Proof.
  assert (R : forall s, (forall w r l w', does s w r l w' -> forall n pr, p_hook pr = Fake n -> (n < p_runs pr)%nat ->
      exists pr', exec s pr w = (r, pr', w') /\ kept n pr pr' /\ p_last pr' n = last_or l (p_last pr n)) ->
    forall w r l w', does s w r l w' -> forall n pr, p_hook pr = Fake n -> (n < p_runs pr)%nat ->
      exists pr', recorded (exec s) pr w =
        (match r with Err e => Err e | Ok _ => match last_or l None with None => Err TypeError | Some c => Ok c end end, pr', w') /\
        kept n pr pr' /\ p_last pr' n = p_last pr n).
  { intros s0 IH w r l w' D n pr Hk L. unfold recorded. cbv zeta. set (pr1 := mkProc _ _ _ _).
    destruct (IH w r l w' D (p_runs pr) pr1 eq_refl (Nat.lt_succ_diag_r _)) as (pr2 & E & (K1 & K2 & K3) & La). rewrite E.
    eexists. split; [|split].
    - rewrite La. cbn [p_last pr1]. rewrite Nat.eqb_refl. reflexivity.
    - split; [reflexivity|]. split; [cbn [p_runs set_hook]; cbn [p_runs pr1] in K2; lia|]. intros x X Xn. cbn [p_last set_hook].
      rewrite K3; [|cbn [p_runs pr1]; lia|lia]. cbn [p_last pr1]. destruct (Nat.eqb_spec x (p_runs pr)); [lia|reflexivity].
    - cbn [p_last set_hook]. rewrite K3; [|cbn [p_runs pr1]; lia|lia]. cbn [p_last pr1]. destruct (Nat.eqb_spec n (p_runs pr)); [lia|reflexivity]. }
  induction s as [|m k IH|z k IH|c k IH|s IHs k IHk]; intros w r l w' D n pr Hk L; inversion D; subst; cbn [exec].
  - exists pr. repeat split; lia.
  - match goal with H : m w = _ |- _ => rewrite H end. eapply IH; eassumption.
  - match goal with H : m w = _ |- _ => rewrite H end. exists pr. repeat split; lia.
  - match goal with H : does k _ _ _ _ |- _ => destruct (IH _ _ _ _ H n (set_level z pr) Hk L) as (pr' & E & K & La) end.
    exists pr'. split; [exact E|]. split; [exact K|exact La].
  - rewrite Hk. match goal with H : does k _ _ _ _ |- _ => destruct (IH _ _ _ _ H n (set_last C n (Some c) pr) Hk L) as (pr' & E & (K1 & K2 & K3) & La) end.
    exists pr'. split; [exact E|]. split.
    + split; [exact K1|]. split; [exact K2|]. intros x X Xn. rewrite (K3 x X Xn). cbn [p_last set_last]. destruct (Nat.eqb_spec x n); [lia|reflexivity].
    + rewrite La. cbn [p_last set_last]. now rewrite Nat.eqb_refl.
  - match goal with H : does s _ _ _ _ |- _ => destruct (R s IHs _ _ _ _ H n pr Hk L) as (pr1 & E1 & (K1 & K2 & K3) & La) end.
    rewrite E1, last_or_snoc. match goal with H : does k _ _ _ _ |- _ => destruct (IHk _ _ _ _ H n pr1) as (pr2 & E2 & (J1 & J2 & J3) & Lb) end; [congruence|lia|].
    exists pr2. split; [exact E2|]. split; [|congruence]. split; [congruence|]. split; [lia|]. intros x X Xn. rewrite J3 by lia. now apply K3.
  - match goal with H : does s _ _ _ _ |- _ => destruct (R s IHs _ _ _ _ H n pr Hk L) as (pr1 & E1 & K & La) end.
    rewrite E1. exists pr1. split; [reflexivity|]. split; [exact K|exact La].
  - match goal with H : does s _ _ _ _ |- _ => destruct (R s IHs _ _ _ _ H n pr Hk L) as (pr1 & E1 & K & La) end.
    rewrite E1. exists pr1. split; [reflexivity|]. split; [exact K|exact La].
Qed.
Lemma recorded_run (file : ppath -> script C) p w r l w' pr : does (file p) w r l w' ->
  exists o pr', run_kwargs file p pr w = (o, pr', w') /\ outcome r l o /\ p_hook pr' = p_hook pr.
Proof.
  intro D. unfold run_kwargs, recorded. cbv zeta. set (pr1 := mkProc _ _ _ _).
  destruct (exec_run _ _ _ _ _ D (p_runs pr) pr1 eq_refl (Nat.lt_succ_diag_r _)) as (pr2 & E & _ & La). rewrite E.
  eexists _, _. split; [reflexivity|]. split; [|reflexivity]. rewrite La. cbn [p_last pr1]. rewrite Nat.eqb_refl.
  destruct r as [[]|e]; [|reflexivity]. cbn [outcome]. destruct l as [|x l]; [reflexivity|].
  destruct (exists_last (l := x :: l)) as (l' & c & El); [discriminate|]. rewrite El, last_or_snoc. now exists l', c.
Qed.
End Record.

(** ** Where it is run *)
Lemma setup_abs fs cwd cwd' p : pp_abs p = true -> has_setup fs cwd p -> has_setup fs cwd' p.
Proof. intros A (q & n & W). exists q, n. unfold walk in *. cbn [pp_abs] in *. rewrite A in *. exact W. Qed.
Lemma innermost_abs fs cwd cwd' p o : pp_abs p = true -> innermost fs cwd p o -> innermost fs cwd' p o.
Proof.
  intro A. assert (B : forall q, at_or_below q p -> pp_abs q = true) by (intros q W; apply at_or_below_parts in W as (W & _); congruence).
  destruct o as [q|]; cbn [innermost].
  - intros (X & Y & Z). split; [exact X|]. split; [exact (setup_abs _ _ _ _ (B q X) Y)|]. intros q' D W K. exact (Z q' D W (setup_abs _ _ _ _ (B q' W) K)).
  - intros X q W K. exact (X q W (setup_abs _ _ _ _ (B q W) K)).
Qed.
Lemma innermost_dir fs cwd p f : innermost fs cwd p (Some f) -> exists q, dir_by fs cwd f q.
Proof.
  intros (_ & H & _). apply setup_dir in H. unfold dir_b in H. destruct (walk fs cwd true f) as [q [| |]| |] eqn:W; try discriminate H. eexists _, _, _. exact W.
Qed.

Section Run.
Context {C : Type}.
Variable far : node -> place -> ppath -> res ppath.
Lemma folder_names p q w : no_fault w -> names (w_fs w) (w_cwd w) p q ->
  exists o w', same w w' /\ folder far p w = (found_or o, w') /\ innermost (w_fs w) (w_cwd w) q o.
Proof. intros N [[S ->]|[S (l & n & W & ->)]]; [now apply folder_run|eapply folder_resolved; eassumption]. Qed.
Lemma names_abs fs cwd cwd' p q : pp_abs p = true -> names fs cwd p q -> names fs cwd' p q /\ pp_abs q = true.
Proof.
  intros A [[S ->]|[S (l & n & W & ->)]]; [split; [now left|exact A]|]. split; [|reflexivity]. right. split; [exact S|]. exists l, n. split; [|reflexivity].
  unfold walk in *. rewrite A in *. exact W.
Qed.
Lemma setupfu_run {A} (run_setup : ppath -> P C A) p o (pr : proc C) w q f l : pp_abs p = true ->
  no_fault w -> good_fs (w_fs w) -> is_dir_at (w_fs w) (w_cwd w) ->
  names (w_fs w) (w_cwd w) p q -> innermost (w_fs w) (w_cwd w) q (Some f) -> dir_by (w_fs w) (w_cwd w) f l ->
  exists w1, moved l w w1 /\ forall r pr2 w2, run_setup (mkPP true (pp_parts f ++ [$"setup.py"])) pr w1 = (r, pr2, w2) ->
    no_fault w2 -> good_fs (w_fs w2) -> is_dir_at (w_fs w2) (w_cwd w) ->
    exists w3, setupfu far run_setup p o pr w = (r, set_level (p_level pr) pr2, w3) /\ moved (w_cwd w) w2 w3.
Proof.
  intros Ab N G D Nm X Q. destruct (names_abs _ _ l _ _ Ab Nm) as [Nm' Aq].
  destruct (folder_names p q w N Nm) as (of & wa & Sa & Ea & Xa). pose proof (innermost_unique _ _ _ _ _ X Xa) as <-. cbn [found_or] in Ea.
  pose proof (no_fault_same _ _ Sa N) as Na. destruct (same_fs _ _ Sa) as [Fa Ca].
  destruct (is_dir_of wa f Na) as (b & wb & Eb & Sb & K). assert (b = true) as -> by (apply K; exists l; now rewrite Fa, Ca).
  pose proof (no_fault_same _ _ Sb Na) as Nb. destruct (same_fs _ _ Sb) as [Fb Cb].
  destruct (getcwd_of wb Nb) as (wc & Ec & Sc); [now rewrite Fb, Cb, Fa, Ca|]. pose proof (no_fault_same _ _ Sc Nb) as Nc. destruct (same_fs _ _ Sc) as [Fc Cc].
  destruct (chdir_ok wc f l Nc) as (wd & Ed & Md); [now rewrite Fc, Cc, Fb, Cb, Fa, Ca|].
  assert (M : moved l w wd).
  { apply (moved_trans (w_cwd w) l w wc); [|exact Md]. apply same_moved. exact (same_trans _ _ _ Sa (same_trans _ _ _ Sb Sc)). }
  pose proof (no_fault_moved _ _ _ M N) as Nd. destruct M as (M1 & M2 & M3 & M4).
  destruct (folder_names p q wd Nd) as (of & we & Se & Ee & Xe); [now rewrite M1, M2|].
  rewrite M1, M2 in Xe. pose proof (innermost_unique _ _ _ _ _ (innermost_abs _ _ l _ _ Aq X) Xe) as <-. cbn [found_or] in Ee.
  exists we. split; [apply (moved_trans l l w wd); [now repeat split|rewrite <- M2; now apply same_moved]|].
  intros r pr2 w2 R N2 G2 D2. unfold setupfu. cbv zeta. rewrite Ea. unfold enter. cbv beta. rewrite Eb, Ec, Ed. unfold setup_file, bind. rewrite Ee.
  cbn [ret]. assert (Fp : pp_abs f = true) by (destruct X as (X & _); apply at_or_below_parts in X as (X & _); congruence).
  unfold child. rewrite Fp. unfold ret. rewrite R. cbv iota zeta. unfold exit_, set_obj. cbn [Nat.eqb]. rewrite Cb, Ca.
  destruct (chdir_ok w2 (path_of (w_cwd w)) (w_cwd w) N2) as (w3 & E3 & M'); [now apply dir_by_place|]. rewrite E3. now exists w3.
Qed.
Lemma setupfu_none {A} (run_setup : ppath -> P C A) p o (pr : proc C) w q : no_fault w -> names (w_fs w) (w_cwd w) p q ->
  innermost (w_fs w) (w_cwd w) q None -> exists w', same w w' /\ setupfu far run_setup p o pr w = (Err ValueError, pr, w').
Proof.
  intros N Nm X. destruct (folder_names p q w N Nm) as (of & wa & Sa & Ea & Xa). pose proof (innermost_unique _ _ _ _ _ X Xa) as <-. cbn [found_or] in Ea.
  exists wa. split; [exact Sa|]. unfold setupfu. cbv zeta. now rewrite Ea.
Qed.
End Run.
