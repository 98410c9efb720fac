(** * C90: the cache of a remote whose directories are not here *)
From Coq Require Import String Strings.Byte NArith ZArith Bool List Lia.
From Verif Require Import Model.Py Model.PurePath Model.Meta Model.Fs Model.Cache Model.CacheChildren Model.MkdirRemote Model.RemoteInit
  Spec.FsSpec Spec.LoopSpec Spec.MetaSpec Spec.XattrSpec Spec.CacheSpec Spec.MkdirCacheSpec Spec.MkdirRemoteSpec Spec.RemoteInitSpec
  Proofs.GoodFs Proofs.CacheLemmas Proofs.RemoteInitProofs Props.CacheProps Props.MkdirCacheProps Props.MkdirRemoteProps.
Import ListNotations.

(** When all but the last are here, the last is made, with its metadata, with [parents] and
    without.  Missing from the full statement: that it is done when more are missing, see below. *)
Theorem C90_last_partial :
  forall K A far ps k fs cwd parents,
    prefix_ok (c_prefix K) -> Forall good_name ps -> good_fs fs -> readable K fs (removelast A) -> first_there fs A ps k ->
    S k = length ps -> (exists a, far_dir (far ps) a) ->
    exists w', cache_init K (path_of A) far parents ps (start fs cwd (fun _ => None)) = (Ok (path_of (A ++ ps)), w') /\
      one_more K far A ps fs (w_fs w').
Proof. exact one_missing. Qed.
Print Assumptions C90_last_partial.

(** When two or more are missing, [parents=True] never does what it is for: the call makes the
    topmost one, with its metadata, and ends with CacheExistsError. *)
Theorem C90_parents_refuted :
  forall K A far ps k fs cwd,
    prefix_ok (c_prefix K) -> Forall good_name ps -> good_fs fs -> readable K fs (removelast A) -> first_there fs A ps k -> S k < length ps ->
    (forall n, 0 < n < length ps -> exists a, far_dir (far (firstn n ps)) a) ->
    (exists a, far_dir (far ps) a) \/ (far_file (far ps) /\ S (S k) < length ps) ->
    exists w', cache_init K (path_of A) far true ps (start fs cwd (fun _ => None)) = (Err CacheExistsErr, w') /\
      one_more K far A (firstn (S k) ps) fs (w_fs w').
Proof. exact parents_refused. Qed.
Print Assumptions C90_parents_refuted.

(** Asking again does it: one call for each that is missing, all but the last of which fail.
    Then all are here, each with its metadata, and nothing else is different. *)
Theorem C90_again_partial :
  forall K A far ps k fs cwd,
    prefix_ok (c_prefix K) -> Forall good_name ps -> good_fs fs -> readable K fs (removelast A) -> first_there fs A ps k ->
    (forall n, 0 < n <= length ps -> exists a, far_dir (far (firstn n ps)) a) ->
    exists v w', refused (cache_init K (path_of A) far true ps) (length ps - S k) (start fs cwd (fun _ => None)) v /\
      cache_init K (path_of A) far true ps v = (Ok (path_of (A ++ ps)), w') /\
      (forall n, k < n <= length ps -> exists xs, look (w_fs w') (A ++ firstn n ps) = Some (ADir xs) /\
         forall a, far_dir (far (firstn n ps)) a -> exists m, recorded K [] (Some (ADir xs)) = Ok (Some m) /\ carries m (shown a)) /\
      forall q, (forall n, k < n <= length ps -> q <> A ++ firstn n ps) -> look (w_fs w') q = look fs q.
Proof. exact one_each. Qed.
Print Assumptions C90_again_partial.

(** Without [parents], FileNotFoundError, and nothing was changed. *)
Theorem C90_plain :
  forall K A far ps k fs cwd,
    Forall good_name ps -> good_fs fs -> readable K fs (removelast A) -> first_there fs A ps k -> S k < length ps ->
    (exists a, far_dir (far ps) a) \/ (far_file (far ps) /\ S (S k) < length ps) ->
    exists w', cache_init K (path_of A) far false ps (start fs cwd (fun _ => None)) = (Err (OSErr ENOENT), w') /\ (forall s, In s (states w') -> s = fs).
Proof. exact plain_refused. Qed.
Print Assumptions C90_plain.

Definition i_far (ps : list str) : kid :=
  mkKid (last ps []) (Ok (Some (e_meta ($"N:2" ++ pad 1 (N.of_nat (length ps)))))) (pp_parse $"/objects")
    (if str_eqb (last ps []) $"f" then c_remote k_sends else c_remote k_dir) (fun _ => raise NotImplementedExn).
Definition i_fs : node := Dir [] [($"d", Dir (e_attrs $"N:20") [])].
Definition i_run (parents : bool) (ps : list str) := cache_init k_sends (path_of [$"d"]) i_far parents ps (start i_fs [] (fun _ => None)).
(** A file in a directory that is not here: the directory is made without metadata, no error
    tells of it, and its remote is not known. *)
Theorem C90_bare_refuted :
  fst (i_run true [$"a"; $"f"]) = Ok (path_of [$"d"; $"a"; $"f"]) /\
  look (w_fs (snd (i_run true [$"a"; $"f"]))) [$"d"; $"a"] = Some (ADir []) /\
  (exists t, look (w_fs (snd (i_run true [$"a"; $"f"]))) [$"d"; $"a"; $"f"] = Some (ALink t)) /\
  (exists a, far_dir (i_far [$"a"]) a).
Proof.
  split; [now vm_compute|]. split; [now vm_compute|]. split; [eexists; vm_compute; reflexivity|].
  exists (d_args $"N:21"). split; [reflexivity|]. eexists. split; [vm_compute; reflexivity|]. apply (e_told $"N:21"); [discriminate|reflexivity].
Qed.
Print Assumptions C90_bare_refuted.

Example C90_case :
  prefix_ok (c_prefix k_sends) /\ Forall good_name [$"a"; $"b"; $"c"] /\ good_fs i_fs /\ readable k_sends i_fs (removelast [$"d"]) /\
  first_there i_fs [$"d"] [$"a"; $"b"; $"c"] 0 /\ (forall n, 0 < n <= 3 -> exists a, far_dir (i_far (firstn n [$"a"; $"b"; $"c"])) a) /\
  far_file (i_far [$"a"; $"b"; $"f"]) /\
  fst (i_run true [$"a"; $"b"; $"c"]) = Err CacheExistsErr /\ fst (i_run true [$"a"; $"b"; $"f"]) = Err CacheExistsErr /\
  fst (i_run false [$"a"; $"b"; $"c"]) = Err (OSErr ENOENT) /\
  d_id (w_fs (snd (i_run true [$"a"; $"b"; $"c"]))) [$"d"; $"a"] = Ok (PStr $"N:21") /\
  look (w_fs (snd (i_run true [$"a"; $"b"; $"c"]))) [$"d"; $"a"; $"b"] = None /\
  fst (i_run true [$"a"]) = Ok (path_of [$"d"; $"a"]).
Proof.
  split; [intros c I; left; repeat (destruct I as [<-|I]; [reflexivity|]); destruct I|]. split; [repeat constructor; name_tac|]. split; [now apply good_fs_b_ok|].
  split; [exists [], None; split; reflexivity|]. split; [split; [cbn; lia|]; split; [eexists; reflexivity|reflexivity]|]. split.
  { intros n [H1 H2]. assert (E : n = 1 \/ n = 2 \/ n = 3) by lia. destruct E as [-> | [-> | ->]].
    - exists (d_args $"N:21"). split; [reflexivity|]. eexists. split; [vm_compute; reflexivity|]. apply (e_told $"N:21"); [discriminate|reflexivity].
    - exists (d_args $"N:22"). split; [reflexivity|]. eexists. split; [vm_compute; reflexivity|]. apply (e_told $"N:22"); [discriminate|reflexivity].
    - exists (d_args $"N:23"). split; [reflexivity|]. eexists. split; [vm_compute; reflexivity|]. apply (e_told $"N:23"); [discriminate|reflexivity]. }
  split; [split; [reflexivity|]; split; [reflexivity|]; eexists; exists (d_args $"N:23"); split; [vm_compute; reflexivity|]; apply (e_told $"N:23"); [discriminate|reflexivity]|].
  repeat (split; [now vm_compute|]). now vm_compute.
Qed.
