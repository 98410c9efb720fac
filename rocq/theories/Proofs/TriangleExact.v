(** * Ids given once, refused caches and cache_init where there is a cache *)
From Coq Require Import String NArith Bool List.
From Verif Require Import Model.Py Model.PurePath Model.Triangle Spec.TriangleSpec Proofs.TriangleProofs.
Import ListNotations.

Section Exact.
Variable cwd : list str.
Variables anchored configured rc_anchor : bool.
Let step := step cwd anchored configured rc_anchor.

Lemma boot_once c q h i : cache_at cwd h c q -> h_disk h q = None -> forall h1,
  step (CId c) h = (Ok (AText i), h1) ->
  step (CId c) h1 = (Ok (AText i), h1) /\ (exists o, nth_error (h_caches h) c = Some o /\ c_id o = Some i) \/
  step (CId c) h1 = (Ok ANone, h1) /\ (exists o, nth_error (h_caches h) c = Some o /\ c_id o = None /\ c_boot o = Some i).
Proof.
  intros (o & O & P) D h1 H. unfold step, Triangle.step in *. rewrite O in H. unfold cache_id in *. rewrite P, D in H.
  destruct (c_id o) as [j|] eqn:Ci.
  - injection H as -> <-. left. split; [|now exists o]. rewrite O, Ci. reflexivity.
  - destruct (c_boot o) as [j|] eqn:Cb; [|discriminate]. injection H as -> <-. right. split; [|now exists o].
    cbn [with_cache h_caches h_disk]. rewrite nth_upd, PeanoNat.Nat.eqb_refl, O. cbn. rewrite Ci, P, D. reflexivity.
Qed.

Lemma remote_known f c o r h : nth_error (h_caches h) c = Some o -> c_remote o = Some r ->
  cache_remote cwd anchored configured (S f) c h = (Ok (Some r), h).
Proof. intros O R. cbn [cache_remote]. now rewrite O, R. Qed.
Lemma refused r c o k h u : nth_error (h_remotes h) r = Some o -> nth_error (h_caches h) c = Some k -> c_primary k = false ->
  exists h1, step (RBind r c u) h = (Err AugPathlibErr, h1) /\ h_disk h1 = h_disk h /\
    step (CRemote c) h1 = (Ok (ARemote r), h1) /\ fst (step (RCache r) h1) = fst (step (RCache r) h).
Proof.
  intros R C P. eexists. unfold step, Triangle.step. rewrite R, C, P. cbn [negb].
  split; [reflexivity|]. split; [reflexivity|]. split.
  - unfold as_far, fuel_for. rewrite (remote_known _ c (set_c_remote r k) r); [reflexivity| |reflexivity].
    cbn [with_cache h_caches]. now rewrite nth_upd, PeanoNat.Nat.eqb_refl, C.
  - reflexivity.
Qed.

Lemma init_exists l q i there h : local_at cwd h l q -> h_disk h q <> None ->
  exists h1, step (LInit l i there) h = (Err CacheExistsErr, h1) /\ h_disk h1 = h_disk h.
Proof.
  intros (o & O & P) D. unfold step, Triangle.step, local_cache. rewrite O.
  destruct (l_cache o) as [c|].
  - rewrite P. destruct (h_disk h q) eqn:E; [|congruence]. eexists. split; [reflexivity|reflexivity].
  - rewrite P. destruct (h_disk h q) eqn:E; [|congruence]. cbn [new_cache]. unfold with_local, new_cache. cbn [h_disk].
    rewrite E. eexists. split; reflexivity.
Qed.

Lemma init_new l q i h : local_at cwd h l q -> h_disk h q = None ->
  (exists h1, step (LInit l i false) h = (Err ValueError, h1) /\ h_disk h1 = h_disk h) /\
  exists c h1, step (LInit l i true) h = (Ok (ACache c), h1) /\ cache_at cwd h1 c q /\ nth_error (h_caches h) c = None /\
    h_disk h1 q = Some i /\ (forall q', q' <> q -> h_disk h1 q' = h_disk h q') /\
    fst (step (CId c) h1) = Ok (AText i).
Proof.
  intros (o & O & P) D.
  assert (Q : forall q', list_eqb str_eqb q' q = true <-> q' = q).
  { intro q'. apply place_eqb. }
  assert (L : exists a, local_cache cwd l h = (Ok a, h)).
  { unfold local_cache. rewrite O. destruct (l_cache o) as [c|]; [now eexists|]. rewrite P, D. now eexists. }
  destruct L as (a & L).
  assert (I : forall there, step (LInit l i there) h = if negb there then (Err ValueError, h)
     else (Ok (ACache (length (h_caches h))), with_disk q (Some i) (snd (new_cache (mkC (l_path o) true None None None None) h)))).
  { intro there. unfold step, Triangle.step. rewrite O, L, P, D. destruct a; reflexivity. }
  split; [exists h; rewrite I; now split|].
  exists (length (h_caches h)). eexists. rewrite I. cbn [negb]. split; [reflexivity|].
  assert (N : nth_error (h_caches h ++ [mkC (l_path o) true None None None None]) (length (h_caches h)) = Some (mkC (l_path o) true None None None None)).
  { now rewrite nth_error_app2, PeanoNat.Nat.sub_diag by apply le_n. }
  split; [eexists; split; [exact N|exact P]|]. split; [now apply nth_error_None|].
  assert (E : list_eqb str_eqb q q = true) by now apply Q.
  split; [cbn; now rewrite E|]. split.
  - intros q' Nq. cbn. destruct (list_eqb str_eqb q' q) eqn:F; [|reflexivity]. apply Q in F. contradiction.
  - unfold step, Triangle.step. cbn [with_disk new_cache snd h_caches]. rewrite N. unfold cache_id. cbn [c_id c_path h_disk with_disk].
    rewrite P, E. reflexivity.
Qed.
End Exact.
