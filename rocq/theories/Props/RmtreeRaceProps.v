(** C107: a tree that others change while it is removed. *)
From Coq Require Import String Strings.Byte NArith ZArith Bool List.
From Verif Require Import Model.Py Model.PurePath Model.Fs Model.PathOps Model.RmtreeRace Spec.FsSpec Spec.RmtreeRaceSpec
  Proofs.GoodFs Proofs.RmtreeRaceProofs.
Import ListNotations.

(** When others keep to the tree and make no links in it, nothing outside of it changes, at no moment.
    Missing from the full statement: others who make links. *)
Theorem C107_confined_partial :
  forall others fuel fs cwd fault dg R, good_fs fs -> honest fault -> Forall good_name R -> plain_above fs R ->
    keep_to R others -> make_no_links others ->
    forall ig r w', rmtree_race others fuel ig dg (path_of R) (start fs cwd fault) = (r, w') ->
    forall s q, In s (states w') -> ~ below R q -> look s q = look fs q.
Proof. exact race_confined. Qed.
Print Assumptions C107_confined_partial.

(** When it returns without ignoring errors nothing is left at the path, whatever was put there meanwhile. *)
Theorem C107_gone_partial :
  forall others fuel fs cwd fault dg R, good_fs fs -> honest fault -> Forall good_name R -> plain_above fs R ->
    keep_to R others -> make_no_links others ->
    forall w', rmtree_race others fuel false dg (path_of R) (start fs cwd fault) = (Ok tt, w') ->
    forall q, below R q -> look (w_fs w') q = None.
Proof. exact race_gone. Qed.
Print Assumptions C107_gone_partial.

(** With others who make links it is false: a directory replaced by a link after it was tested is gone through. *)
Theorem C107_outside_refuted :
  ~ (forall others fuel fs cwd fault ig dg R r w', good_fs fs -> honest fault -> Forall good_name R -> plain_above fs R ->
       keep_to R others -> rmtree_race others fuel ig dg (path_of R) (start fs cwd fault) = (r, w') ->
       forall s q, In s (states w') -> ~ below R q -> look s q = look fs q).
Proof. exact (race_outside (good_fs_b_ok r_start eq_refl)). Qed.
Print Assumptions C107_outside_refuted.

(** Where nobody does anything it is the rmtree of C19. *)
Theorem C107_alone :
  forall ig dg fuel p w, rmtree_race (fun _ fs => fs) fuel ig dg p w = rmtree fuel ig dg p w.
Proof. exact race_alone. Qed.
Print Assumptions C107_alone.

(** Somebody removes a file of the tree before its directory is listed: rmtree returns and the tree is gone.  Somebody
    removes it after: rmtree raises.  The rest stays. *)
Example C107_case :
  good_fs r_start /\ Forall good_name r_tree /\ plain_above r_start r_tree /\
  (forall n, keep_to r_tree (r_drop n (r_tree ++ [$"d"; $"f"])) /\ make_no_links (r_drop n (r_tree ++ [$"d"; $"f"]))) /\
  (let r := rmtree_race (r_drop 8 (r_tree ++ [$"d"; $"f"])) 5 false false (path_of r_tree) (start r_start [] (fun _ => None)) in
   fst r = Ok tt /\ look (w_fs (snd r)) r_tree = None /\ look (w_fs (snd r)) [$"srv"; $"keep"] = Some (AFile [] [])) /\
  (let r := rmtree_race (r_drop 9 (r_tree ++ [$"d"; $"f"])) 5 false false (path_of r_tree) (start r_start [] (fun _ => None)) in
   fst r = Err (OSErr ENOENT) /\ look (w_fs (snd r)) (r_tree ++ [$"d"]) = Some (ADir []) /\ look (w_fs (snd r)) [$"srv"; $"keep"] = Some (AFile [] [])).
Proof.
  split; [exact (good_fs_b_ok r_start eq_refl)|]. split; [repeat constructor; apply good_name_b_ok; reflexivity|]. split; [|split].
  - intros q r u E X. destruct q as [|a [|b q]]; [discriminate|injection E as <- _; discriminate|].
    destruct q; [destruct r; [congruence|discriminate]|discriminate].
  - intro n. split; [apply drop_keeps; now exists [$"d"; $"f"]|apply drop_links].
  - split; vm_compute; repeat split; reflexivity.
Qed.
