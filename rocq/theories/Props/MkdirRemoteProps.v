(** * C73: making a directory on both sides *)
From Coq Require Import String Strings.Byte NArith ZArith Bool List.
From Verif Require Import Model.Py Model.PurePath Model.Meta Model.MetaXattr Model.Fs Model.Cache Model.MkdirRemote
  Spec.FsSpec Spec.LoopSpec Spec.DataDirSpec Spec.RelPathSpec Spec.MetaSpec Spec.XattrSpec Spec.CacheSpec Spec.AnchorSpec Spec.MkdirRemoteSpec
  Proofs.GoodFs Proofs.MkdirRemoteProofs Proofs.MkdirRemoteLive Props.CacheProps Props.MkdirCacheProps.
Import ListNotations.

(** At every moment, whatever fails: what was made at the remote is only added to, and
    nothing here is different but that there are directories for what was made there, with
    attributes of the metadata of that.  What is returned is the last that was made. *)
Theorem C73_only_made :
  forall K configured anchored exists_far child_far self up l fs cwd fault r l' w',
    is_path self -> pp_parts self <> [] -> honest fault ->
    mkdir_remote K configured anchored exists_far child_far self up l (start fs cwd fault) = (r, (l', w')) ->
    exists new, l' = l ++ new /\ (forall s, In s (states w') -> only_made K self new cwd fs s) /\
      in_order K self fs cwd up new /\ (r = Ok None -> new = []) /\
      forall m, r = Ok (Some m) -> exists pre b, new = pre ++ [b] /\ b_meta b = m /\ b_name b = pp_name self.
Proof. exact mkdir_remote_safe. Qed.
Print Assumptions C73_only_made.

(** When nothing fails all that is missing below the nearest directory with an id is made,
    at the remote each in the one before, and here with the metadata of that.  Missing
    from the full statement: a path with files, links or metadata on the way, a class
    without an anchor, and calls that fail. *)
Theorem C73_makes_partial :
  forall K child_far A names exists_far up l i new fs cwd fault,
    prefix_ok (c_prefix K) -> good_fs fs -> (forall t, fault t = None) ->
    dir_id K fs A i -> Forall good_name names -> clear_way fs A names -> answers child_far l i names new ->
    (up = true \/ length names = 1%nat) -> names <> [] ->
    exists m w', mkdir_remote K true true exists_far child_far (path_of (A ++ names)) up l (start fs cwd fault) = (Ok (Some m), (l ++ new, w')) /\
      (exists pre b, new = pre ++ [b] /\ b_meta b = m) /\ placed K A new (w_fs w') /\ else_same A names fs (w_fs w').
Proof. exact (fun K child_far A names exists_far up l i new fs cwd fault Pf => mkdir_remote_live K Pf child_far A names exists_far up l i new fs cwd fault). Qed.
Print Assumptions C73_makes_partial.

(** What is at the remote already is not made again. *)
Theorem C73_exists :
  forall K anchored exists_far child_far self up i l fs cwd fault,
    (forall t, fault t = None) -> id_at K fs cwd self i -> i <> PNone -> exists_far l i = Ok true ->
    exists w', mkdir_remote K true anchored exists_far child_far self up l (start fs cwd fault) = (Err RemotePathExistsErr, (l, w')) /\ (forall s, In s (states w') -> s = fs).
Proof. exact remote_exists. Qed.
Print Assumptions C73_exists.
(** Nothing is made in a directory without metadata unless that was asked for. *)
Theorem C73_no_parents :
  forall K configured anchored exists_far child_far self l fs cwd fault,
    (forall t, fault t = None) -> none_at K fs cwd self -> none_at K fs cwd (pp_parent self) ->
    exists w', mkdir_remote K configured anchored exists_far child_far self false l (start fs cwd fault) = (Err (OSErr ENOENT), (l, w')) /\ (forall s, In s (states w') -> s = fs).
Proof. exact no_parents. Qed.
Print Assumptions C73_no_parents.

(** With no metadata on the way up nothing is made and nothing raised. *)
Theorem C73_silent_refuted :
  forall K configured anchored exists_far child_far self l fs cwd fault,
    (forall t, fault t = None) -> pp_parts self <> [] -> (forall p, on_way self p -> none_at K fs cwd p) ->
    exists w', mkdir_remote K configured anchored exists_far child_far self true l (start fs cwd fault) = (Ok None, (l, w')) /\ (forall s, In s (states w') -> s = fs).
Proof. exact (fun K configured anchored exists_far child_far self l fs cwd fault N Ne H => nothing_above K configured anchored exists_far child_far self l fs cwd fault N Ne H true). Qed.
Print Assumptions C73_silent_refuted.

(** ** The case: [/d] has an id, [/d/b] is there without metadata, [/d/f] is a file *)
Definition e_meta (i : str) : pathmeta := match meta_init (d_args i) with Ok m => m | Err _ => k_old end.
Definition e_attrs (i : str) : xattrs := match as_xattrs (c_dateparse k_sends) (e_meta i) (c_prefix k_sends) with
  | Ok l => map (fun kv => ($"user." ++ key_text (fst kv), snd kv)) l | Err _ => [] end.
Definition e_fs : node :=
  Dir [] [($"d", Dir (e_attrs $"N:1") [($"b", Dir [] []); ($"f", File [x20] []); ($"g", Dir (e_attrs $"N:9") [])]); ($"x", Dir [] [])].
(** The remote gives the ids N:10, N:11, ... and the directory N:9 is not there. *)
Definition e_child (l : list made) (i : pyval) (x : str) : res pathmeta := Ok (e_meta ($"N:1" ++ pad 1 (N.of_nat (length l)))).
Definition e_there (l : list made) (i : pyval) : res bool := Ok (negb (py_eq i (PStr $"N:9"))).
Definition e_run (p : place) (up : bool) := mkdir_remote k_sends true true e_there e_child (path_of p) up [] (start e_fs [] k_none_fails).

(** Where a file is in the way there is an error, but the directory at the remote is made;
    calling again makes another. *)
Theorem C73_file_refuted :
  exists K l1 w1 l2 w2, id_at K e_fs [] (path_of [$"d"]) (PStr $"N:1") /\
    mkdir_remote K true true e_there e_child (path_of [$"d"; $"f"]) true [] (start e_fs [] k_none_fails) = (Err (OSErr EEXIST), (l1, w1)) /\
    map b_name l1 = [$"f"] /\ w_fs w1 = e_fs /\
    mkdir_remote K true true e_there e_child (path_of [$"d"; $"f"]) true l1 (start e_fs [] k_none_fails) = (Err (OSErr EEXIST), (l2, w2)) /\
    map b_name l2 = [$"f"; $"f"].
Proof.
  exists k_sends. do 4 eexists. split; [eexists; vm_compute; reflexivity|]. split; [vm_compute; reflexivity|]. split; [reflexivity|]. split; [vm_compute; reflexivity|].
  split; [vm_compute; reflexivity|]. reflexivity.
Qed.
Print Assumptions C73_file_refuted.
(** A directory whose remote is gone gets a new remote, but keeps the old id. *)
Theorem C73_stale_refuted :
  exists K b w1, id_at K e_fs [] (path_of [$"d"; $"g"]) (PStr $"N:9") /\ e_there [] (PStr $"N:9") = Ok false /\
    mkdir_remote K true true e_there e_child (path_of [$"d"; $"g"]) true [] (start e_fs [] k_none_fails) = (Err CacheExistsErr, ([b], w1)) /\
    m_id (b_meta b) = PStr $"N:10" /\ id_at K (w_fs w1) [] (path_of [$"d"; $"g"]) (PStr $"N:9").
Proof.
  exists k_sends. do 2 eexists. split; [eexists; vm_compute; reflexivity|]. split; [vm_compute; reflexivity|]. split; [vm_compute; reflexivity|]. split; [vm_compute; reflexivity|].
  eexists; vm_compute; reflexivity.
Qed.
Print Assumptions C73_stale_refuted.
(** Without an anchor the directory is made here, but nothing is stored with it. *)
Theorem C73_no_anchor_refuted :
  exists K m b w1, id_at K e_fs [] (path_of [$"d"]) (PStr $"N:1") /\
    mkdir_remote K true false e_there e_child (path_of [$"d"; $"n"]) true [] (start e_fs [] k_none_fails) = (Ok (Some m), ([b], w1)) /\
    look (w_fs w1) [$"d"; $"n"] = Some (ADir []) /\ none_at K (w_fs w1) [] (path_of [$"d"; $"n"]).
Proof.
  exists k_sends. do 3 eexists. split; [eexists; vm_compute; reflexivity|]. split; [vm_compute; reflexivity|]. split; [vm_compute; reflexivity|].
  eexists; vm_compute; reflexivity.
Qed.
Print Assumptions C73_no_anchor_refuted.

Lemma e_told i : i <> [] -> forallb (fun c => (c <? 128)%N) i = true -> told (e_meta i) (d_args i).
Proof.
  intros Ni Ai. split; [reflexivity|]. split; [|split].
  - intro f. destruct f; cbn; auto; try (right; eexists; reflexivity). eexists. reflexivity.
  - intro f. destruct f; cbn; auto; try (intros e []). intros c I. rewrite forallb_forall in Ai. apply Ai, N.ltb_lt in I. left.
    apply (N.lt_trans _ 128); [assumption|reflexivity].
  - cbn. now destruct i.
Qed.
Definition e_new : list made := [mkMade (PStr $"N:1") $"b" (e_meta $"N:10"); mkMade (PStr $"N:10") $"c" (e_meta $"N:11"); mkMade (PStr $"N:11") $"e" (e_meta $"N:12")].
Example C73_case :
  prefix_ok (c_prefix k_sends) /\ good_fs e_fs /\ dir_id k_sends e_fs [$"d"] (PStr $"N:1") /\ Forall good_name [$"b"; $"c"; $"e"] /\
  clear_way e_fs [$"d"] [$"b"; $"c"; $"e"] /\ answers e_child [] (PStr $"N:1") [$"b"; $"c"; $"e"] e_new /\
  is_path (path_of [$"d"; $"b"; $"c"; $"e"]) /\
  (let r := e_run [$"d"; $"b"; $"c"; $"e"] true in
   fst r = Ok (Some (e_meta $"N:12")) /\ fst (snd r) = e_new /\
   d_id (w_fs (snd (snd r))) [$"d"; $"b"] = Ok (PStr $"N:10") /\ d_id (w_fs (snd (snd r))) [$"d"; $"b"; $"c"; $"e"] = Ok (PStr $"N:12")) /\
  id_at k_sends e_fs [] (path_of [$"d"]) (PStr $"N:1") /\ fst (e_run [$"d"] false) = Err RemotePathExistsErr /\
  none_at k_sends e_fs [] (path_of [$"d"; $"b"]) /\ fst (e_run [$"d"; $"b"; $"c"] false) = Err (OSErr ENOENT) /\
  (forall p, on_way (path_of [$"x"; $"y"]) p -> none_at k_sends e_fs [] p) /\ fst (e_run [$"x"; $"y"] true) = Ok None.
Proof.
  split; [intros c I; left; repeat (destruct I as [<-|I]; [reflexivity|]); destruct I|].
  split; [now apply good_fs_b_ok|]. split; [do 2 eexists; exists []; split; [vm_compute; reflexivity|]; split; [vm_compute; reflexivity|]; split; [reflexivity|discriminate]|].
  split; [repeat constructor; name_tac|]. split.
  { intros pre post E Np. destruct pre as [|a [|b [|c [|d pre]]]]; [contradiction| | | |]; injection E; intros; subst; try discriminate; [right|left|left]; vm_compute; reflexivity. }
  split.
  { apply (answers_next _ _ _ _ _ (d_args $"N:10")); [vm_compute; reflexivity|apply e_told; [discriminate|reflexivity]|].
    apply (answers_next _ _ _ _ _ (d_args $"N:11")); [vm_compute; reflexivity|apply e_told; [discriminate|reflexivity]|].
    apply (answers_next _ _ _ _ _ (d_args $"N:12")); [vm_compute; reflexivity|apply e_told; [discriminate|reflexivity]|]. apply answers_end. }
  split; [intros c I; repeat (destruct I as [<-|I]; [repeat split; try discriminate; cbn; intuition discriminate|]); destruct I|].
  split; [vm_compute; repeat split; reflexivity|]. split; [eexists; vm_compute; reflexivity|]. split; [vm_compute; reflexivity|]. split; [eexists; vm_compute; reflexivity|].
  split; [vm_compute; reflexivity|]. split; [|vm_compute; reflexivity].
  intros [ab l] [Ea (r & E)]. cbn in Ea, E. subst ab. destruct l as [|a [|b [|c l]]]; cbn in E; try (injection E; intros; subst; try discriminate); eexists; vm_compute; reflexivity.
Qed.
