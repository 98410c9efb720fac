(** * C89: local paths, caches and remotes lead back to each other *)
From Coq Require Import String NArith Bool List.
From Verif Require Import Model.Py Model.PurePath Model.Triangle Spec.TriangleSpec Proofs.TriangleProofs Proofs.TriangleExact.
Import ListNotations.

Definition nowhere : list str -> option str := fun _ => None.
Definition at_a : ppath := mkPP true [$"a"].
Definition at_b : ppath := mkPP true [$"b"].
Definition near : ppath := mkPP false [$"a"].
Definition n1 : str := $"n:1".
Definition n2 : str := $"n:2".

(** The full statement has no [quiet], no [distinct] and nothing about the working directory.  After any calls that put no id in the
    place of another, the cache of a path has the id that is on disk, its remote, too, and the
    remote leads back to the path. *)
Theorem C89_back_partial : forall cwd anchored ks d l q i,
  let h := snd (run cwd anchored true true ks (empty_heap d)) in
  let step := step cwd anchored true true in
  quiet cwd anchored true true ks (empty_heap d) -> distinct (h_disk h) -> anchored = true \/ h_disk h cwd <> None ->
  local_at cwd h l q -> h_disk h q = Some i ->
  exists c h1 h2 r h3 c' l' h4 c'',
    step (LCache l) h = (Ok (ACache c), h1) /\ cache_at cwd h1 c q /\
    step (CId c) h1 = (Ok (AText i), h2) /\
    step (CRemote c) h2 = (Ok (ARemote r), h3) /\
    fst (step (RId r) h3) = Ok (AText i) /\
    fst (step (RCache r) h3) = Ok (ACache c') /\ cache_at cwd h3 c' q /\
    step (RLocal r) h3 = (Ok (ALocal l'), h4) /\ local_at cwd h4 l' q /\
    fst (step (LCache l') h4) = Ok (ACache c'') /\ cache_at cwd h4 c'' q.
Proof. exact back. Qed.
Print Assumptions C89_back_partial.

Definition busy : list call :=
  [NewLocal near; LInit 0 n1 true; LCache 0; CCopy 1; CHelper 1; CLocal 2; CRemote 3; RLocal 0;
   NewLocal at_b; Outside [$"b"] (Some n2); LRemote 3; RBind 0 0 NoUpdate; CId 0].
Example C89_busy :
  let h := snd (run [$"w"] true true true busy (empty_heap nowhere)) in
  quiet [$"w"] true true true busy (empty_heap nowhere) /\ local_at [$"w"] h 0 [$"w"; $"a"] /\
  h_disk h [$"w"; $"a"] = Some n1 /\ h_disk h [$"b"] = Some n2 /\ distinct (h_disk h) /\
  (exists o, nth_error (h_remotes h) 0 = Some o /\ r_cache o = Some 0).
Proof.
  cbv zeta. split; [|split; [|split; [|split; [|split]]]].
  - cbn [quiet busy]. repeat match goal with |- quiet_call _ (RBind _ _ _) _ => fail 1 | |- _ /\ _ => split end; try exact I.
    + vm_compute. discriminate.
    + split; [discriminate|].
      intros q o k (k' & K & P) O K'. vm_compute in O, K, K'. injection O as <-. injection K as <-. injection K' as <-.
      vm_compute in P. subst q. split; reflexivity.
  - eexists. split; reflexivity.
  - reflexivity.
  - reflexivity.
  - apply (two_places [$"b"] [$"w"; $"a"] n2 n1); [discriminate|]. intro q. reflexivity.
  - eexists. split; reflexivity.
Qed.

(** Where there is no metadata there is no cache *)
Theorem C89_none_partial : forall cwd anchored configured rc_anchor ks d l q,
  let h := snd (run cwd anchored configured rc_anchor ks (empty_heap d)) in
  quiet cwd anchored configured rc_anchor ks (empty_heap d) -> local_at cwd h l q -> h_disk h q = None ->
  step cwd anchored configured rc_anchor (LCache l) h = (Ok ANone, h).
Proof. exact back_none. Qed.
Print Assumptions C89_none_partial.
Example C89_none_nonvacuous :
  let h := snd (run [] true true true [NewLocal at_a; Outside [$"b"] (Some n1); LCache 0] (empty_heap nowhere)) in
  quiet [] true true true [NewLocal at_a; Outside [$"b"] (Some n1); LCache 0] (empty_heap nowhere) /\
  local_at [] h 0 [$"a"] /\ h_disk h [$"a"] = None.
Proof. cbv zeta. split; [|split; [eexists; split; reflexivity|reflexivity]]. cbn. repeat split. discriminate. Qed.

(** The cache of a remote has the id of the remote, and a remote with that id *)
Theorem C89_remote_partial : forall cwd anchored rc_anchor ks d r c i,
  let h := snd (run cwd anchored true rc_anchor ks (empty_heap d)) in
  let step := step cwd anchored true rc_anchor in
  quiet cwd anchored true rc_anchor ks (empty_heap d) -> anchored = true \/ h_disk h cwd <> None ->
  fst (step (RId r) h) = Ok (AText i) -> fst (step (RCache r) h) = Ok (ACache c) ->
  exists h1 h2 r', step (CId c) h = (Ok (AText i), h1) /\ step (CRemote c) h1 = (Ok (ARemote r'), h2) /\
    fst (step (RId r') h2) = Ok (AText i).
Proof. exact back_far. Qed.
Print Assumptions C89_remote_partial.
Example C89_remote_nonvacuous :
  let h := snd (run [$"w"] true true true busy (empty_heap nowhere)) in
  fst (step [$"w"] true true true (RId 0) h) = Ok (AText n1) /\ fst (step [$"w"] true true true (RCache 0) h) = Ok (ACache 0).
Proof. split; reflexivity. Qed.

(** Whatever happens, a local path has one cache *)
Theorem C89_kept : forall cwd anchored configured rc_anchor l c h h1 ks,
  step cwd anchored configured rc_anchor (LCache l) h = (Ok (ACache c), h1) ->
  fst (step cwd anchored configured rc_anchor (LCache l) (snd (run cwd anchored configured rc_anchor ks h1))) = Ok (ACache c).
Proof. exact kept. Qed.
Print Assumptions C89_kept.
Example C89_kept_nonvacuous :
  let h := snd (run [] true true true [NewLocal at_a; Outside [$"a"] (Some n1)] (empty_heap nowhere)) in
  fst (step [] true true true (LCache 0) h) = Ok (ACache 0).
Proof. reflexivity. Qed.

(** An id that is not on disk any more is the one that was read, or the one given for
    bootstrapping; that one is given once. *)
Theorem C89_once : forall cwd anchored configured rc_anchor c q h i,
  let step := step cwd anchored configured rc_anchor in
  cache_at cwd h c q -> h_disk h q = None -> forall h1,
  step (CId c) h = (Ok (AText i), h1) ->
  step (CId c) h1 = (Ok (AText i), h1) /\ (exists o, nth_error (h_caches h) c = Some o /\ c_id o = Some i) \/
  step (CId c) h1 = (Ok ANone, h1) /\ (exists o, nth_error (h_caches h) c = Some o /\ c_id o = None /\ c_boot o = Some i).
Proof. exact boot_once. Qed.
Print Assumptions C89_once.
Example C89_once_nonvacuous :
  fst (run [] true true true [Outside [$"a"] (Some n1); NewLocal at_a; LCache 0; CSet 0 n2 false; Outside [$"a"] None; CId 0; CId 0] (empty_heap nowhere))
  = [Ok ANone; Ok (ALocal 0); Ok (ACache 0); Ok ANone; Ok ANone; Ok (AText n2); Ok ANone].
Proof. reflexivity. Qed.

(** A cache that is refused has the remote nevertheless; the remote has not got the cache. *)
Theorem C89_refused_refuted : forall cwd anchored configured rc_anchor r c o k h u,
  let step := step cwd anchored configured rc_anchor in
  nth_error (h_remotes h) r = Some o -> nth_error (h_caches h) c = Some k -> c_primary k = false ->
  exists h1, step (RBind r c u) h = (Err AugPathlibErr, h1) /\ h_disk h1 = h_disk h /\
    step (CRemote c) h1 = (Ok (ARemote r), h1) /\ fst (step (RCache r) h1) = fst (step (RCache r) h).
Proof. exact refused. Qed.
Print Assumptions C89_refused_refuted.
Example C89_refused_nonvacuous :
  fst (run [] true true true [Outside [$"a"] (Some n1); NewLocal at_a; LCache 0; CHelper 0; NewRemote n2; RBind 0 1 Updates; CRemote 1; RCache 0] (empty_heap nowhere))
  = [Ok ANone; Ok (ALocal 0); Ok (ACache 0); Ok (ACache 1); Ok (ARemote 0); Err AugPathlibErr; Ok (ARemote 0); Ok ANone].
Proof. reflexivity. Qed.

(** [cache_init] where there is metadata leaves it; elsewhere it makes a new cache with the id. *)
Theorem C89_init_exists : forall cwd anchored configured rc_anchor l q i there h,
  local_at cwd h l q -> h_disk h q <> None ->
  exists h1, step cwd anchored configured rc_anchor (LInit l i there) h = (Err CacheExistsErr, h1) /\ h_disk h1 = h_disk h.
Proof. exact init_exists. Qed.
Print Assumptions C89_init_exists.
Theorem C89_init_new : forall cwd anchored configured rc_anchor l q i h,
  let step := step cwd anchored configured rc_anchor in
  local_at cwd h l q -> h_disk h q = None ->
  (exists h1, step (LInit l i false) h = (Err ValueError, h1) /\ h_disk h1 = h_disk h) /\
  exists c h1, step (LInit l i true) h = (Ok (ACache c), h1) /\ cache_at cwd h1 c q /\ nth_error (h_caches h) c = None /\
    h_disk h1 q = Some i /\ (forall q', q' <> q -> h_disk h1 q' = h_disk h q') /\
    fst (step (CId c) h1) = Ok (AText i).
Proof. exact init_new. Qed.
Print Assumptions C89_init_new.
Example C89_init_nonvacuous :
  fst (run [] true true true [NewLocal at_a; LInit 0 n1 false; LInit 0 n1 true; LInit 0 n2 true] (empty_heap nowhere))
  = [Ok (ALocal 0); Err ValueError; Ok (ACache 0); Err CacheExistsErr].
Proof. reflexivity. Qed.

Definition go (ks : list call) : list (res answer) := fst (run [] true true true ks (empty_heap nowhere)).

(** Two objects for one path: the id one has read is not read again *)
Theorem C89_stale_refuted :
  exists ks, go (ks ++ [CId 0; CId 1]) = go ks ++ [Ok (AText n1); Ok (AText n2)] /\
    let h := snd (run [] true true true ks (empty_heap nowhere)) in
    cache_at [] h 0 [$"a"] /\ cache_at [] h 1 [$"a"] /\ h_disk h [$"a"] = Some n2.
Proof.
  exists [Outside [$"a"] (Some n1); NewLocal at_a; NewLocal at_a; LCache 0; LCache 1; CId 0; CId 1; CSet 1 n2 true].
  split; [reflexivity|]. split; [|split]; [eexists; split; reflexivity|eexists; split; reflexivity|reflexivity].
Qed.
Print Assumptions C89_stale_refuted.

(** A cache that gets another id keeps its remote *)
Theorem C89_remote_refuted :
  exists ks, go (ks ++ [CId 0; CRemote 0; RId 0]) = go ks ++ [Ok (AText n2); Ok (ARemote 0); Ok (AText n1)].
Proof. exists [Outside [$"a"] (Some n1); NewLocal at_a; LRemote 0; CSet 0 n2 true]. reflexivity. Qed.
Print Assumptions C89_remote_refuted.

(** A local path keeps its cache and the id in it when the metadata is gone; a new one has none *)
Theorem C89_gone_refuted :
  exists ks, go (ks ++ [LCache 0; CId 0; NewLocal at_a; LCache 1])
           = go ks ++ [Ok (ACache 0); Ok (AText n1); Ok (ALocal 1); Ok ANone].
Proof. exists [Outside [$"a"] (Some n1); NewLocal at_a; LRemote 0; Outside [$"a"] None]. reflexivity. Qed.
Print Assumptions C89_gone_refuted.

(** When binding a remote fails, the cache leads to the remote, but the remote not to the cache *)
Theorem C89_failed_refuted :
  exists ks, go (ks ++ [CRemote 0; RCache 0; RLocal 0]) = go ks ++ [Ok (ARemote 0); Ok ANone; Err AttributeError] /\
    In (Err RemoteFail) (go ks) /\ quiet [] true true true (removelast ks) (empty_heap nowhere).
Proof.
  exists [Outside [$"a"] (Some n1); NewLocal at_a; LCache 0; NewRemote n1; RBind 0 0 Raises].
  split; [reflexivity|]. split; [do 4 right; left; reflexivity|]. cbn. repeat split. discriminate.
Qed.
Print Assumptions C89_failed_refuted.

(** With one id at two paths a remote leads to the one it was bound to last *)
Theorem C89_twins_refuted :
  exists ks, quiet [] true true true ks (empty_heap nowhere) /\
    let h := snd (run [] true true true ks (empty_heap nowhere)) in
    local_at [] h 0 [$"a"] /\
    go (ks ++ [LRemote 0; RLocal 0]) = go ks ++ [Ok (ARemote 0); Ok (ALocal 2)] /\
    local_at [] (snd (run [] true true true (ks ++ [LRemote 0; RLocal 0]) (empty_heap nowhere))) 2 [$"b"].
Proof.
  exists [Outside [$"a"] (Some n1); Outside [$"b"] (Some n1); NewLocal at_a; NewLocal at_b; LRemote 0; LCache 1; RBind 0 1 NoUpdate].
  split; [|split; [eexists; split; reflexivity|split; [reflexivity|eexists; split; reflexivity]]].
  cbn [quiet]. repeat match goal with |- quiet_call _ (RBind _ _ _) _ => fail 1 | |- _ /\ _ => split end; try exact I;
    try (vm_compute; discriminate).
  split; [discriminate|].
  intros q o k (k' & K & P) O K'. vm_compute in O, K, K'. injection O as <-. injection K as <-. injection K' as <-.
  vm_compute in P. subst q. split; reflexivity.
Qed.
Print Assumptions C89_twins_refuted.

(** Without an anchor of the remote class nothing leads back *)
Theorem C89_unanchored_refuted :
  exists ks, fst (run [] true true false (ks ++ [LRemote 0; RCache 0; RLocal 0]) (empty_heap nowhere))
           = fst (run [] true true false ks (empty_heap nowhere)) ++ [Ok (ARemote 0); Ok ANull; Err TypeError].
Proof. exists [Outside [$"a"] (Some n1); NewLocal at_a]. reflexivity. Qed.
Print Assumptions C89_unanchored_refuted.

(** Before the first anchor a relative path has another remote each time it is asked for, or none
    when the working directory has no metadata *)
Theorem C89_relative_refuted :
  exists ks, fst (run [$"w"] false true true (ks ++ [LRemote 0; LRemote 0]) (empty_heap nowhere))
           = fst (run [$"w"] false true true ks (empty_heap nowhere)) ++ [Ok (ARemote 0); Ok (ARemote 1)].
Proof. exists [Outside [$"w"] (Some n2); Outside [$"w"; $"a"] (Some n1); NewLocal near]. reflexivity. Qed.
Print Assumptions C89_relative_refuted.

Theorem C89_outside_refuted :
  exists ks, quiet [$"w"] false true true ks (empty_heap nowhere) /\
    fst (run [$"w"] false true true (ks ++ [LCache 0; CId 0; LRemote 0]) (empty_heap nowhere))
  = fst (run [$"w"] false true true ks (empty_heap nowhere)) ++ [Ok (ACache 0); Ok (AText n1); Err NoCachedMetadataError].
Proof.
  exists [Outside [$"w"; $"a"] (Some n1); NewLocal near]. split; [|reflexivity].
  split; [vm_compute; discriminate|]. split; exact I.
Qed.
Print Assumptions C89_outside_refuted.
