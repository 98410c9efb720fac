(** * C69: the folder of a package *)
From Coq Require Import String NArith ZArith Bool List.
From Verif Require Import Model.Py Model.PurePath Model.RelPath Model.Fs Model.PathOps Model.DataDir Model.Repo Model.PackageFolder
  Spec.FsSpec Spec.LoopSpec Spec.ZipSpec Spec.RepoSpec Spec.PackageFolderSpec
  Proofs.PyLemmas Proofs.GoodFs Proofs.RepoProofs Proofs.PackageFolderProofs.
Import ListNotations.

(** The nearest directory with a setup.py, of the path and those above it; ValueError
    where there is none, and nothing changes. *)
Theorem C69_folder :
  forall far p w, no_fault w -> straight p ->
    exists o w', unchanged w w' /\ folder far p w = (match o with Some q => Ok q | None => Err ValueError end, w') /\
      innermost (w_fs w) (w_cwd w) p o.
Proof. exact folder_run. Qed.
Print Assumptions C69_folder.
(** For other paths, of the place they lead to. *)
Theorem C69_resolved :
  forall far p w l n, no_fault w -> ~ straight p -> walk (w_fs w) (w_cwd w) true p = Found l n ->
    exists o w', unchanged w w' /\ folder far p w = (match o with Some q => Ok q | None => Err ValueError end, w') /\
      innermost (w_fs w) (w_cwd w) (mkPP true l) o.
Proof. exact folder_resolved. Qed.
Print Assumptions C69_resolved.
(** This is one answer. *)
Theorem C69_unique :
  forall fs cwd p r r', innermost fs cwd p r -> innermost fs cwd p r' -> r = r'.
Proof. exact innermost_unique. Qed.
Print Assumptions C69_unique.

(** Tags have no prefix exactly where the package is the top of the repository.  Missing
    from the full statement: relative paths through links ([C69_prefix_refuted]). *)
Theorem C69_prefix_partial :
  forall far home_of p w f, no_fault w -> good_fs (w_fs w) -> is_dir_at (w_fs w) (w_cwd w) -> straight p ->
    innermost (w_fs w) (w_cwd w) p (Some f) ->
    exists o w', unchanged w w' /\ nearest (w_fs w) (w_cwd w) p o /\
      exists b, tag_prefix far home_of p w = (Ok b, w') /\ (b = false <-> o = Some f).
Proof. exact prefix_run. Qed.
Print Assumptions C69_prefix_partial.
(** The folder as seen from above the repository; missing: packages around the
    repository ([C69_outside_refuted]). *)
Theorem C69_arg_folder_partial :
  forall far home_of p w f wd l, no_fault w -> good_fs (w_fs w) -> is_dir_at (w_fs w) (w_cwd w) -> straight p ->
    innermost (w_fs w) (w_cwd w) p (Some f) -> nearest (w_fs w) (w_cwd w) p (Some wd) ->
    pp_parts f = pp_parts wd ++ l -> pp_parts wd <> [] ->
    exists w', unchanged w w' /\ arg_folder far home_of p w = (Ok (mkPP false (pp_name wd :: l)), w').
Proof. exact arg_folder_run. Qed.
Print Assumptions C69_arg_folder_partial.

Definition c69_fs : node :=
  Dir [] [($"w", Dir [] [($"l", Link $"/r")]);
          ($"r", Dir [] [($".git", Dir [] []); ($"setup.py", File [] []);
                         ($"sub", Dir [] [($"setup.py", File [] []); ($"m", Dir [] [])]); ($"d", Dir [] [])]);
          ($"s", Dir [] [($"setup.py", File [] []); ($"q", Dir [] [($".git", Dir [] [])])])].
Definition c69_far (_ : node) (_ : place) (_ : ppath) : res ppath := Err OutOfFuel.
Definition c69_home (_ : str) : res ppath := Err RuntimeErr.
Definition c69_w (cwd : place) : world := start c69_fs cwd (fun _ => None).

(** The same place, written in two ways: the package is the top of its repository, or it
    is not. *)
Theorem C69_prefix_refuted :
  one_place c69_fs [$"w"] (pp_parse $"l") (pp_parse $"/r") /\
  fst (tag_prefix c69_far c69_home (pp_parse $"l") (c69_w [$"w"])) = Ok true /\
  fst (tag_prefix c69_far c69_home (pp_parse $"/r") (c69_w [$"w"])) = Ok false.
Proof.
  split; [eexists _, _; split; vm_compute; reflexivity|]. split; vm_compute; reflexivity.
Qed.
Print Assumptions C69_prefix_refuted.

(** A repository without setup.py is released as a package that is not in it. *)
Theorem C69_outside_refuted :
  nearest c69_fs [] (pp_parse $"/s/q") (Some (pp_parse $"/s/q")) /\
  fst (folder c69_far (pp_parse $"/s/q") (c69_w [])) = Ok (pp_parse $"/s") /\
  fst (arg_folder c69_far c69_home (pp_parse $"/s/q") (c69_w [])) = Ok (pp_parse $".").
Proof.
  split; [|split; vm_compute; reflexivity].
  split; [now left|]. split; [eexists _, _; vm_compute; reflexivity|]. intros q' D W. now destruct (no_cycle _ _ D W).
Qed.
Print Assumptions C69_outside_refuted.

Example C69_case :
  good_fs c69_fs /\ is_dir_at c69_fs [$"w"] /\ straight (pp_parse $"/r/sub/m/x") /\ ~ straight (pp_parse $"l/../sub") /\
  innermost c69_fs [] (pp_parse $"/r/sub/m/x") (Some (pp_parse $"/r/sub")) /\
  fst (folder c69_far (pp_parse $"/r/sub/m/x") (c69_w [])) = Ok (pp_parse $"/r/sub") /\
  fst (folder c69_far (pp_parse $"/r/d") (c69_w [])) = Ok (pp_parse $"/r") /\
  fst (folder c69_far (pp_parse $"sub") (c69_w [$"r"])) = Ok (pp_parse $"/r/sub") /\
  fst (folder c69_far (pp_parse $"/w") (c69_w [])) = Err ValueError /\
  fst (tag_prefix c69_far c69_home (pp_parse $"/r/sub/m") (c69_w [])) = Ok true /\
  fst (tag_prefix c69_far c69_home (pp_parse $"/r/d") (c69_w [])) = Ok false /\
  fst (arg_folder c69_far c69_home (pp_parse $"/r/sub/m") (c69_w [])) = Ok (pp_parse $"r/sub") /\
  fst (arg_folder c69_far c69_home (pp_parse $"/r/d") (c69_w [])) = Ok (pp_parse $"r").
Proof.
  split; [apply good_fs_b_ok; vm_compute; reflexivity|]. split; [eexists; vm_compute; reflexivity|].
  split; [split; [reflexivity|vm_compute; intuition discriminate]|].
  split; [intros [A _]; vm_compute in A; discriminate|]. split.
  { destruct (folder_run c69_far (pp_parse $"/r/sub/m/x") (c69_w [])) as (o & w' & _ & E & X).
    - intros t. reflexivity.
    - split; [reflexivity|vm_compute; intuition discriminate].
    - assert (F : fst (folder c69_far (pp_parse $"/r/sub/m/x") (c69_w [])) = Ok (pp_parse $"/r/sub")) by (vm_compute; reflexivity).
      rewrite E in F. destruct o as [q|]; [|discriminate F]. cbn [fst found_or] in F. injection F as F. rewrite F in X. exact X. }
  repeat (apply conj; [vm_compute; reflexivity|]); vm_compute; reflexivity.
Qed.
