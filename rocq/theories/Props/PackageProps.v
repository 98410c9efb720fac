(** * C67: the next version of a package *)
From Coq Require Import String NArith ZArith Bool List.
From Verif Require Import Model.Py Model.Version Model.Package Spec.VersionSpec Spec.PackageSpec
  Proofs.PyLemmas Proofs.PackageProofs.
Import ListNotations.

(** The version given is newer than every release PyPI told of.  [rel_comp] is one of
    release, major, minor and micro.  Missing from the full statement: PyPI answers
    ([C67_unanswered_refuted]). *)
Theorem C67_newer_partial :
  forall parse answers repo, numbers parse -> forall p c s v s' j,
    comp_of c <> None -> version_next parse version_cmp answers repo p c s = (Ok v, s') -> p_kept s' = Some j ->
    (forall r, released parse j r -> newer v r) /\
    exists w, parse (y_version j) = Ok w /\ newer v w /\ newest parse j w /\ next_version w p c = Ok v.
Proof. exact next_newer. Qed.
Print Assumptions C67_newer_partial.

(** Otherwise it is the one in setup.py, and PyPI was asked twice. *)
Theorem C67_unanswered :
  forall parse answers repo p c s v s',
    version_next parse version_cmp answers repo p c s = (Ok v, s') -> p_kept s' = None ->
    repo = Ok v /\ p_kept s = None /\ answers (p_asked s) = Ok None /\ answers (S (p_asked s)) = Ok None.
Proof. exact next_repo. Qed.
Print Assumptions C67_unanswered.

(** Where PyPI's version is its newest release there is a next one, as far as
    [next_version] gives one; missing: [C67_prerelease_refuted]. *)
Theorem C67_gives_partial :
  forall parse answers repo p c s j w r,
    p_kept s = Some j -> readable parse j -> parse (y_version j) = Ok w ->
    released parse j r -> same_version w r -> newest parse j w ->
    version_next parse version_cmp answers repo p c s = (next_version w p c, s).
Proof. exact next_gives. Qed.
Print Assumptions C67_gives_partial.

(** Where it is not, there is none, whatever is asked for. *)
Theorem C67_asserts :
  forall parse answers repo p c s j w,
    p_kept s = Some j -> readable parse j -> y_releases j <> [] -> parse (y_version j) = Ok w ->
    ((exists r, released parse j r /\ newer r w) \/ (forall r, released parse j r -> newer w r)) ->
    version_next parse version_cmp answers repo p c s = (Err AssertionError, s).
Proof. exact next_asserts. Qed.
Print Assumptions C67_asserts.

(** [bump] does not find the version released if [version_next] heard from PyPI. *)
Theorem C67_bump_partial :
  forall parse answers repo, numbers parse -> forall p c s v s' j,
    comp_of c <> None -> version_next parse version_cmp answers repo p c s = (Ok v, s') -> p_kept s' = Some j ->
    forall w s2, bump parse version_cmp answers repo p c s <> (Ok (AlreadyReleased w), s2).
Proof. exact bump_fresh. Qed.
Print Assumptions C67_bump_partial.

Definition v10 : version := mkV 0 [1; 0]%N None None None None.
Definition v11 : version := mkV 0 [1; 1]%N None None None None.
Definition v20a1 : version := mkV 0 [2; 0]%N (Some (La, 1%N)) None None None.
Definition k67_parse (t : str) : res version :=
  if str_eqb t $"1.0" then Ok v10 else if str_eqb t $"1.1" then Ok v11
  else if str_eqb t $"2.0a1" then Ok v20a1 else Err ValueError.

(** An alpha release after 1.1: PyPI's version stays 1.1 (it gives pre-releases only
    where there is nothing else), and there is no next version of any kind. *)
Theorem C67_prerelease_refuted :
  forall answers repo p c,
    fst (version_next k67_parse version_cmp answers repo p c
           (mkPS (Some (mkPypi $"1.1" [$"1.0"; $"1.1"; $"2.0a1"])) 0%nat)) = Err AssertionError.
Proof.
  intros. rewrite (next_asserts k67_parse answers repo p c _ (mkPypi $"1.1" [$"1.0"; $"1.1"; $"2.0a1"]) v11).
  - reflexivity.
  - reflexivity.
  - intros t [<-|[<-|[<-|[]]]]; eexists; vm_compute; reflexivity.
  - discriminate.
  - vm_compute. reflexivity.
  - left. exists v20a1. split; [exists $"2.0a1"; split; [right; right; now left|vm_compute; reflexivity]|vm_compute; reflexivity].
Qed.
Print Assumptions C67_prerelease_refuted.

(** PyPI fails twice and then answers: the next version is the one in setup.py, which is
    older than the newest release, or is that one; [bump] is in the branch it should
    never hit. *)
Definition k67_late (n : nat) : res (option pypi) :=
  match n with O | S O => Ok None | _ => Ok (Some (mkPypi $"1.1" [$"1.1"; $"1.0"])) end.
Theorem C67_unanswered_refuted :
  (exists s', version_next k67_parse version_cmp k67_late (Ok v10) Current Release (mkPS None 0%nat) = (Ok v10, s')) /\
  (exists j s', version_latest_released k67_parse version_cmp k67_late (mkPS None 2%nat) = (Ok (Some v11), s') /\
     p_kept s' = Some j /\ released k67_parse j v10 /\ newer v11 v10) /\
  fst (bump k67_parse version_cmp k67_late (Ok v11) Current Release (mkPS None 0%nat)) = Ok (AlreadyReleased v11).
Proof.
  split; [eexists; vm_compute; reflexivity|]. split; [|vm_compute; reflexivity].
  exists (mkPypi $"1.1" [$"1.1"; $"1.0"]). eexists. split; [vm_compute; reflexivity|]. split; [reflexivity|].
  split; [exists $"1.0"; split; [right; now left|vm_compute; reflexivity]|vm_compute; reflexivity].
Qed.
Print Assumptions C67_unanswered_refuted.

(** Releases in no order; the hypotheses hold. *)
Example C67_case :
  let answers := fun _ => Ok (Some (mkPypi $"1.1" [$"1.1"; $"1.0"])) in
  numbers k67_parse /\ readable k67_parse (mkPypi $"1.1" [$"1.1"; $"1.0"]) /\
  newest k67_parse (mkPypi $"1.1" [$"1.1"; $"1.0"]) v11 /\
  version_next k67_parse version_cmp answers (Ok v10) Current Release (mkPS None 0%nat)
    = (Ok (mkV 0 [1; 2]%N None None None None), mkPS (Some (mkPypi $"1.1" [$"1.1"; $"1.0"])) 1%nat) /\
  fst (bump k67_parse version_cmp answers (Ok v10) Dev Major (mkPS None 0%nat))
    = Ok (Fresh (mkV 0 [2; 0]%N None None (Some 0%N) None)) /\
  fst (bump k67_parse version_cmp answers (Ok (mkV 0 [1; 2]%N None None None None)) Current Release (mkPS None 0%nat))
    = Ok (AlreadyBumped (mkV 0 [1; 2]%N None None None None)).
Proof.
  cbn zeta. split; [|split; [|split; [|vm_compute; repeat split; reflexivity]]].
  - intros t v. unfold k67_parse. repeat (destruct (str_eqb t _); [intros [= <-]; discriminate|]). discriminate.
  - intros t [<-|[<-|[]]]; eexists; vm_compute; reflexivity.
  - intros r (t & [<-|[<-|[]]] & E) N1; vm_compute in E; injection E as <-; vm_compute in N1; discriminate.
Qed.
