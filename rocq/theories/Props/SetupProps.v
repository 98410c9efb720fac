(** * C100: running setup.py *)
From Coq Require Import String NArith ZArith Bool List.
From Verif Require Import Model.Py Model.PurePath Model.Fs Model.PathOps Model.Cwd Model.PackageFolder Model.Setup
  Spec.FsSpec Spec.LoopSpec Spec.CwdSpec Spec.RepoSpec Spec.PackageFolderSpec Spec.SetupSpec
  Proofs.GoodFs Proofs.PackageFolderProofs Proofs.SetupProofs Props.PackageFolderProps.
Import ListNotations.

(** The setup.py of the innermost package is run in its directory.  However it ends, the
    result is its own; the current directory and the level of the root logger are those of
    before.  Missing from the full statement: relative paths ([C100_relative_refuted]), and
    a setup.py that takes away the directory it was called from ([C100_away_refuted]). *)
Theorem C100_setup_partial :
  forall C far A (run_setup : ppath -> P C A) p o pr w q f l, pp_abs p = true ->
    no_fault w -> good_fs (w_fs w) -> is_dir_at (w_fs w) (w_cwd w) ->
    names (w_fs w) (w_cwd w) p q -> innermost (w_fs w) (w_cwd w) q (Some f) -> dir_by (w_fs w) (w_cwd w) f l ->
    exists w1, moved l w w1 /\ forall r pr2 w2, run_setup (mkPP true (pp_parts f ++ [$"setup.py"])) pr w1 = (r, pr2, w2) ->
      no_fault w2 -> good_fs (w_fs w2) -> is_dir_at (w_fs w2) (w_cwd w) ->
      exists w3, setupfu far run_setup p o pr w = (r, mkProc (p_level pr) (p_hook pr2) (p_last pr2) (p_runs pr2), w3) /\ moved (w_cwd w) w2 w3.
Proof. exact (fun C far A => @setupfu_run C far A). Qed.
Print Assumptions C100_setup_partial.
(** Without a package nothing is run. *)
Theorem C100_none :
  forall C far A (run_setup : ppath -> P C A) p o pr w q, no_fault w -> names (w_fs w) (w_cwd w) p q ->
    innermost (w_fs w) (w_cwd w) q None ->
    exists w', unchanged w w' /\ setupfu far run_setup p o pr w = (Err ValueError, pr, w').
Proof. exact (fun C far A => @setupfu_none C far A). Qed.
Print Assumptions C100_none.
(** With [setup_use_kwargs]: the arguments of the last call of [setup] that the file itself
    made are given, also where it runs others; [setuptools.setup] is put back, however the
    file ends. *)
Theorem C100_kwargs :
  forall C (file : ppath -> script C) p w, (exists r l w', does (file p) w r l w') /\
    forall r l w', does (file p) w r l w' -> forall pr,
      exists o pr', run_kwargs file p pr w = (o, pr', w') /\ outcome r l o /\ p_hook pr' = p_hook pr.
Proof. exact (fun C file p w => conj (does_total (file p) w) (fun r l w' D pr => recorded_run file p w r l w' pr D)). Qed.
Print Assumptions C100_kwargs.

Definition n_fs : node :=
  Dir [] [($"r", Dir [] [($"sub", Dir [] [($"setup.py", File [] []); ($"m", Dir [] []); ($"sub", Dir [] [($"setup.py", File [] [])])])]);
          ($"t", Dir [] [])].
(** Tells which file was run in which directory *)
Definition n_tell (p : ppath) : P N (ppath * place) := fun pr w => (Ok (p, w_cwd w), set_level 99 pr, w).
Definition n_pr : proc N := mkProc 30 Own (fun _ => None) 0.
Definition n_run {A} (f : ppath -> P N A) (p : str) (cwd : place) := setupfu c69_far f (pp_parse p) (fun _ => None) n_pr (start n_fs cwd (fun _ => None)).

(** A relative path is looked at again from the directory of the package, where it can
    lead to a package inside: its setup.py is run, in the directory around it. *)
Theorem C100_relative_refuted :
  good_fs n_fs /\ is_dir_at n_fs [$"r"] /\ fst (folder c69_far (pp_parse $"sub") (start n_fs [$"r"] (fun _ => None))) = Ok (pp_parse $"/r/sub") /\
  fst (fst (n_run n_tell $"sub" [$"r"])) = Ok (pp_parse $"/r/sub/sub/setup.py", [$"r"; $"sub"]) /\
  fst (fst (n_run n_tell $"/r/sub" [$"r"])) = Ok (pp_parse $"/r/sub/setup.py", [$"r"; $"sub"]).
Proof.
  split; [apply good_fs_b_ok; vm_compute; reflexivity|]. split; [eexists; vm_compute; reflexivity|].
  repeat match goal with |- _ /\ _ => split end; vm_compute; reflexivity.
Qed.
Print Assumptions C100_relative_refuted.

(** Where the directory it was called from is gone, the process stays in that of the
    package, and what the setup.py gave is lost. *)
Definition n_away (_ : ppath) : script N := Call 5%N (Do (sys_rmdir (pp_parse $"/t")) Done).
Theorem C100_away_refuted :
  is_dir_at n_fs [$"t"] /\
  match n_run (run_kwargs n_away) $"/r/sub" [$"t"] with (r, pr, w) => r = Err (OSErr ENOENT) /\ w_cwd w = [$"r"; $"sub"] /\ p_hook pr = Own end.
Proof. split; [eexists; vm_compute; reflexivity|]. vm_compute. repeat split. Qed.
Print Assumptions C100_away_refuted.

Definition n_file (p : ppath) : script N :=
  if pp_eqb p (pp_parse $"/r/sub/setup.py")
  then Call 1%N (Other (Call 2%N (Call 3%N Done)) (Level 10 (Call 4%N (Do (sys_chdir (pp_parse $"/")) (Other (Call 6%N Done) Done)))))
  else Other Done (Call 7%N Done).
Example C100_case :
  names n_fs [$"t"] (pp_parse $"/r/sub/m") (pp_parse $"/r/sub/m") /\
  names n_fs [$"t"] (pp_parse $"/t/../r/sub/m") (pp_parse $"/r/sub/m") /\
  innermost n_fs [$"t"] (pp_parse $"/r/sub/m") (Some (pp_parse $"/r/sub")) /\
  dir_by n_fs [$"t"] (pp_parse $"/r/sub") [$"r"; $"sub"] /\
  match n_run n_tell $"/t/../r/sub/m" [$"t"] with (r, pr, w) => r = Ok (pp_parse $"/r/sub/setup.py", [$"r"; $"sub"]) /\ w_cwd w = [$"t"] /\ p_level pr = 30%Z end /\
  match n_run (run_kwargs n_file) $"/r/sub/m" [$"t"] with (r, pr, w) => r = Ok 4%N /\ w_cwd w = [$"t"] /\ p_level pr = 30%Z /\ p_hook pr = Own end /\
  match n_run (run_kwargs n_file) $"/r/sub/sub" [$"t"] with (r, pr, w) => r = Err TypeError /\ w_cwd w = [$"t"] /\ p_hook pr = Own end /\
  fst (fst (n_run n_tell $"/t" [])) = Err ValueError.
Proof.
  split; [left; split; [split; [reflexivity|vm_compute; intuition discriminate]|reflexivity]|].
  split; [right; split; [intros [_ H]; apply H; vm_compute; tauto|eexists _, _; split; vm_compute; reflexivity]|]. split.
  { destruct (folder_run c69_far (pp_parse $"/r/sub/m") (start n_fs [$"t"] (fun _ => None))) as (o & w' & _ & E & X).
    - intros t. reflexivity.
    - split; [reflexivity|vm_compute; intuition discriminate].
    - assert (F : fst (folder c69_far (pp_parse $"/r/sub/m") (start n_fs [$"t"] (fun _ => None))) = Ok (pp_parse $"/r/sub")) by (vm_compute; reflexivity).
      rewrite E in F. destruct o as [q|]; [|discriminate F]. cbn [fst found_or] in F. injection F as F. rewrite F in X. exact X. }
  split; [eexists _, _; vm_compute; reflexivity|]. vm_compute. repeat split.
Qed.
