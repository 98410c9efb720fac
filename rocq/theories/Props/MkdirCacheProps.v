(** * C63: the directories above a remote *)
From Coq Require Import String Strings.Byte NArith ZArith Bool List.
From Verif Require Import Model.Py Model.PurePath Model.Meta Model.MetaXattr Model.Fs Model.Cache Model.MkdirCache
  Spec.FsSpec Spec.LoopSpec Spec.DataDirSpec Spec.MetaSpec Spec.XattrSpec Spec.CacheSpec Spec.MkdirCacheSpec Proofs.GoodFs Proofs.MkdirCacheProofs Proofs.MkdirCacheLive Props.CacheProps.
Import ListNotations.

(** At every moment, whatever fails: what was there is as it was, and what is new are
    directories at the paths of the parents, with what the metadata of that parent says. *)
Theorem C63_only_parents :
  forall K anchor parents fs cwd fault r w',
    honest fault -> mkdir_cache K anchor parents (start fs cwd fault) = (r, w') ->
    forall s, In s (states w') -> only_parents K anchor parents cwd fs s.
Proof. exact (fun K anchor parents fs cwd fault r w' Ho H => proj1 (Forall_forall _ _) (mkdir_cache_safe K anchor parents fs cwd fault r w' Ho H)). Qed.
Print Assumptions C63_only_parents.

(** When nothing fails all of the directories are there afterwards, and each that is new
    has the metadata of its remote.  Missing from the full statement: the directories
    that were there, and calls that fail. *)
Theorem C63_makes_partial :
  forall K A names parents fs cwd fault,
    prefix_ok (c_prefix K) -> good_fs fs -> (forall t, fault t = None) -> is_dir_at fs A -> Forall good_name names ->
    map u_parts (rev parents) = tops [] names ->
    (forall u, In u parents -> free_or_dir fs (A ++ u_parts u)) -> (forall u, In u parents -> exists a, tells u a) ->
    exists w', mkdir_cache K (path_of A) parents (start fs cwd fault) = (Ok tt, w') /\
      (forall u, In u parents -> is_dir_at (w_fs w') (A ++ u_parts u)) /\
      (forall q, look (w_fs w') q = look fs q \/ look fs q = None /\ exists u, In u parents /\ q = A ++ u_parts u) /\
      forall u a name, In u parents -> look fs (A ++ u_parts u) = None -> tells u a ->
        exists m', recorded K name (look (w_fs w') (A ++ u_parts u)) = Ok (Some m') /\ carries m' (shown a).
Proof. exact (fun K A names parents fs cwd fault Pf => mkdir_cache_live K Pf A names parents fs cwd fault). Qed.
Print Assumptions C63_makes_partial.

(** ** The case: one directory is there, two are not *)
Definition d_args (i : str) : args := set_arg Fid (PStr i) (set_arg Fupdated (k_day 2) no_args).
Definition d_up (parts : list str) (i : str) : above :=
  mkAbove parts (match meta_init (d_args i) with Ok m => Ok (Some m) | Err e => Err e end).
Definition d_parents : list above := [d_up [$"b"; $"c"; $"e"] $"N:4"; d_up [$"b"; $"c"] $"N:3"; d_up [$"b"] $"N:2"; d_up [] $"N:1"].
Definition d_fs : node := Dir [] [($"d", Dir [] [($"b", Dir [] [])])].
Definition d_id (fs : node) (q : place) : res pyval := match recorded k_sends [] (look fs q) with Ok (Some m) => Ok (m_id m) | Ok None => Ok PNone | Err e => Err e end.

(** Interrupted between making a directory and storing the metadata, the directory stays
    without any, and calling again does not give it any. *)
Theorem C63_interrupted_refuted :
  exists K parents fs fault w1 w2, honest fault /\ good_fs fs /\ (forall u, In u parents -> exists a, tells u a) /\
    mkdir_cache K (path_of [$"d"]) parents (start fs [] fault) = (Err KeyboardInterrupt, w1) /\
    mkdir_cache K (path_of [$"d"]) parents (start (w_fs w1) [] k_none_fails) = (Ok tt, w2) /\
    exists u, In u parents /\ look fs ([$"d"] ++ u_parts u) = None /\ look (w_fs w2) ([$"d"] ++ u_parts u) = Some (ADir []) /\
      forall name, recorded K name (look (w_fs w2) ([$"d"] ++ u_parts u)) = Ok None.
Proof.
  exists k_sends, d_parents, d_fs, (k_fails KeyboardInterrupt 8). eexists _, _. split; [honest_tac|]. split; [now apply good_fs_b_ok|]. split.
  { assert (T : forall parts i, i <> [] -> forallb (fun c => (c <? 128)%N) i = true -> exists a, tells (d_up parts i) a).
    { intros parts i Ni Ai. exists (d_args i). eexists. split; [reflexivity|]. split; [reflexivity|]. split; [|split].
      - intro f. destruct f; cbn; auto; try (right; eexists; reflexivity). eexists. reflexivity.
      - intro f. destruct f; cbn; auto; try (intros e []). intros c I. rewrite forallb_forall in Ai. apply Ai, N.ltb_lt in I. left.
        apply (N.lt_trans _ 128); [assumption|reflexivity].
      - cbn. now destruct i. }
    intros u I. cbn [d_parents In] in I. destruct I as [<-|[<-|[<-|[<-|[]]]]]; apply T; [discriminate|reflexivity|discriminate|reflexivity|discriminate|reflexivity|discriminate|reflexivity]. }
  split; [vm_compute; reflexivity|]. split; [vm_compute; reflexivity|].
  exists (d_up [$"b"; $"c"] $"N:3"). split; [right; left; reflexivity|]. split; [reflexivity|]. split; [vm_compute; reflexivity|]. intro name. vm_compute. reflexivity.
Qed.
Print Assumptions C63_interrupted_refuted.

Example C63_case :
  prefix_ok (c_prefix k_sends) /\ good_fs d_fs /\ is_dir_at d_fs [$"d"] /\ map u_parts (rev d_parents) = tops [] [$"b"; $"c"; $"e"] /\
  Forall good_name [$"b"; $"c"; $"e"] /\ (forall u, In u d_parents -> free_or_dir d_fs ([$"d"] ++ u_parts u)) /\
  let r := mkdir_cache k_sends (path_of [$"d"]) d_parents (start d_fs [] k_none_fails) in
  fst r = Ok tt /\ d_id (w_fs (snd r)) [$"d"; $"b"; $"c"; $"e"] = Ok (PStr $"N:4") /\ d_id (w_fs (snd r)) [$"d"; $"b"; $"c"] = Ok (PStr $"N:3") /\
  look (w_fs (snd r)) [$"d"; $"b"] = Some (ADir []) /\ look (w_fs (snd r)) [$"d"] = Some (ADir []).
Proof.
  split; [intros c I; left; repeat (destruct I as [<-|I]; [reflexivity|]); destruct I|].
  split; [now apply good_fs_b_ok|]. split; [eexists; vm_compute; reflexivity|]. split; [reflexivity|].
  split; [repeat constructor; name_tac|]. split.
  { intros u I. cbn [d_parents In] in I. destruct I as [<-|[<-|[<-|[<-|[]]]]]; [left; vm_compute; reflexivity|left; vm_compute; reflexivity|right; eexists; vm_compute; reflexivity|right; eexists; vm_compute; reflexivity]. }
  vm_compute. repeat split; reflexivity.
Qed.
