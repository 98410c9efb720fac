(** * C82: the repository that is remembered is the one that is there *)
From Coq Require Import String NArith ZArith Bool List.
From Verif Require Import Model.Py Model.PurePath Model.Fs Model.PathOps Model.Repo
  Spec.FsSpec Spec.LoopSpec Spec.RepoSpec Spec.RepoCacheSpec Proofs.PyLemmas Proofs.GoodFs Proofs.RepoProofs Proofs.RepoCacheProofs
  Props.RepoProps.
Import ListNotations.

(** After any calls, whatever failed in them, [repo] gives an object for the nearest
    repository, and that repository has been there ever since the object was made: it is not
    one that was removed and made again.  Missing from the full statement: repositories that
    come to be at a remembered place in another way than by [init] or [clone_from] for its
    absolute path ([fair], [C82_refuted]). *)
Theorem C82_partial :
  forall home_of git_open git_init git_clone git_close p s w r s' w',
    quietly git_open -> quietly git_close ->
    went home_of git_open git_init git_clone git_close s w ->
    no_fault w -> good_fs (w_fs w) -> is_dir_at (w_fs w) (w_cwd w) -> plain p ->
    repo home_of git_open p s w = (r, s', w') ->
    unchanged w w' /\
    match r with
    | Ok h => exists wd, nearest (w_fs w) (w_cwd w) (absolute_of (w_cwd w) p) (Some wd) /\
                known wd s' = Some h /\ ever_since wd (h_born h) w'
    | Err _ => s' = s
    end.
Proof. intros home_of git_open git_init git_clone git_close p s w r s' w' A B. exact (repo_current _ _ _ _ _ A B p s w r s' w'). Qed.
Print Assumptions C82_partial.
(** [rmtree] of a path makes it forgotten, and no other, also when it fails or refuses. *)
Theorem C82_forgets :
  forall git_close ig dz p s w r s' w', repo_rmtree git_close ig dz p s w = (r, s', w') ->
    known p s' = None /\ forall k, k <> p -> known k s' = known k s.
Proof. exact rmtree_forgets. Qed.
Print Assumptions C82_forgets.
(** Otherwise it is the [rmtree] of every path. *)
Theorem C82_rmtree :
  forall git_close ig dz p s w, (forall h v, exists v', unchanged v v' /\ git_close h v = (Ok tt, v')) ->
    exists w0, unchanged w w0 /\
      fst (fst (repo_rmtree git_close ig dz p s w)) = fst (p_rmtree ig dz p w0) /\
      snd (repo_rmtree git_close ig dz p s w) = snd (p_rmtree ig dz p w0).
Proof. exact rmtree_as_usual. Qed.
Print Assumptions C82_rmtree.

Definition c82_close (h : handle) : M unit := ret tt.
Definition c82_start : world := start c40_fs [] (fun _ => None).
Definition c82_step := step c40_home c53_open c53_init c53_clone c82_close.
Definition c82_run (l : list call) : repos * world := run_calls c40_home c53_open c53_init c53_clone c82_close l [] c82_start.

(** /h/r is opened, /h is removed and made again, and then, from /h, the repository "r" is
    made.  What is remembered for /h/r is the object of the repository that was removed. *)
Definition c82_calls : list call :=
  [CRepo (pp_parse $"/h/r"); CRmtree false (ABool true) (pp_parse $"/h"); COther (sys_mkdir (pp_parse $"/h"));
   COther (sys_chdir (pp_parse $"/h")); CInit (pp_parse $"r") None].
Theorem C82_refuted :
  exists h s w, repo c40_home c53_open (pp_parse $"r") (fst (c82_run c82_calls)) (snd (c82_run c82_calls)) = (Ok h, s, w) /\
    repo_at (w_fs w) (pp_parse $"/h/r") /\
    exists gone, In gone (later (h_born h) w) /\ ~ repo_at gone (pp_parse $"/h/r").
Proof.
  eexists _, _, _. split; [vm_compute; reflexivity|]. split; [eexists _, _; vm_compute; reflexivity|].
  exists (Dir [] []). split; [vm_compute; tauto|]. intros (q & n & W). vm_compute in W. discriminate.
Qed.
Print Assumptions C82_refuted.

(** The same with absolute paths, another repository being remembered too. *)
Definition c82_good : list call :=
  [CRepo (pp_parse $"/h/r/s/t/f"); CRepo (pp_parse $"/h/r/s"); CRmtree false (ABool true) (pp_parse $"/h/r"); CInit (pp_parse $"/h/r") None].
Definition c82_1 := c82_step (CRepo (pp_parse $"/h/r/s/t/f")) [] c82_start.
Definition c82_2 := c82_step (CRepo (pp_parse $"/h/r/s")) (snd (fst c82_1)) (snd c82_1).
Definition c82_3 := c82_step (CRmtree false (ABool true) (pp_parse $"/h/r")) (snd (fst c82_2)) (snd c82_2).
Definition c82_4 := c82_step (CInit (pp_parse $"/h/r") None) (snd (fst c82_3)) (snd c82_3).
Example C82_case :
  quietly c53_open /\ quietly c82_close /\
  went c40_home c53_open c53_init c53_clone c82_close (fst (c82_run c82_good)) (snd (c82_run c82_good)) /\
  exists h s w, repo c40_home c53_open (pp_parse $"/h/r") (fst (c82_run c82_good)) (snd (c82_run c82_good)) = (Ok h, s, w) /\
    h_born h = length (w_hist w) /\ h_born h <> 1 /\ known (pp_parse $"/h/r/s/t") s = Some (mkH (pp_parse $"/h/r/s/t") 1).
Proof.
  split.
  { intros p w. unfold c53_open, bind. pose proof (exists_same (child (c53_norm p) $".git") w) as S.
    destruct (p_exists (child (c53_norm p) $".git") w) as [[[|]|e] w1]; exact S. }
  split; [intros h w; apply same_refl|].
  split.
  {
    replace (fst (c82_run c82_good)) with (snd (fst c82_4)) by (vm_compute; reflexivity).
    replace (snd (c82_run c82_good)) with (snd c82_4) by (vm_compute; reflexivity).
    assert (W0 : went c40_home c53_open c53_init c53_clone c82_close [] c82_start) by apply went_start.
    assert (W1 : went c40_home c53_open c53_init c53_clone c82_close (snd (fst c82_1)) (snd c82_1)).
    { eapply (went_call _ _ _ _ _ (CRepo (pp_parse $"/h/r/s/t/f")) _ _ (fst (fst c82_1))); [exact W0|vm_compute; reflexivity|now left]. }
    assert (W2 : went c40_home c53_open c53_init c53_clone c82_close (snd (fst c82_2)) (snd c82_2)).
    { eapply (went_call _ _ _ _ _ (CRepo (pp_parse $"/h/r/s")) _ _ (fst (fst c82_2))); [exact W1|vm_compute; reflexivity|now left]. }
    assert (W3 : went c40_home c53_open c53_init c53_clone c82_close (snd (fst c82_3)) (snd c82_3)).
    { eapply (went_call _ _ _ _ _ (CRmtree false (ABool true) (pp_parse $"/h/r")) _ _ (fst (fst c82_3))); [exact W2|vm_compute; reflexivity|exact Logic.I]. }
    eapply (went_call _ _ _ _ _ (CInit (pp_parse $"/h/r") None) _ _ (fst (fst c82_4))); [exact W3|vm_compute; reflexivity|].
    split; [now left|]. intros k h K A N.
    assert (S4 : snd (fst c82_4) = [(pp_parse $"/h/r", mkH (pp_parse $"/h/r") (length (w_hist (snd c82_4)))); (pp_parse $"/h/r/s/t", mkH (pp_parse $"/h/r/s/t") 1)])
      by (vm_compute; reflexivity).
    rewrite S4 in K. cbn [known] in K. destruct (pp_eqb (pp_parse $"/h/r") k) eqn:Q.
    { apply RmtreeProofs.pp_eqb_eq in Q. symmetry in Q. specialize (N Q). vm_compute in N. exact (False_ind _ (Bool.diff_true_false N)). }
    destruct (pp_eqb (pp_parse $"/h/r/s/t") k) eqn:Q2; [|exfalso; clear -K; discriminate]. apply RmtreeProofs.pp_eqb_eq in Q2. subst k.
    exists (firstn 2 (w_hist (snd c82_4))). split; [vm_compute; reflexivity|]. intros (q & n & W). vm_compute in W. discriminate. }
  eexists _, _, _. split; [vm_compute; reflexivity|]. split; [vm_compute; reflexivity|]. split; [vm_compute; discriminate|vm_compute; reflexivity].
Qed.
