(** * C55, C56: the root of a cached tree, and what is ignored in it *)
From Coq Require Import String NArith Bool List.
From Verif Require Import Model.Py Model.PurePath Model.Fs Model.PathOps Model.Listing Model.CacheRoot Spec.CacheRootSpec
  Proofs.PyLemmas Proofs.CacheRootProofs.
Import ListNotations.

(** Whatever the cache class, the links and the order of the variants: an answer has a
    cache and is on the way to a variant. *)
Theorem C55_sound :
  forall cache broken variants fail p r, find_cache_root cache broken variants fail p = Ok (Some r) ->
    exists q v, at_or_above q p /\ broken q = false /\ In v (variants q) /\ at_or_above r v /\ cache r = Ok true /\ r <> slash.
Proof. exact find_sound. Qed.
Print Assumptions C55_sound.
(** Exactly: where the path is its only variant, the last with a cache on the way up,
    unless that is "/". *)
Theorem C55_exact :
  forall cache broken variants fail p r, broken p = false -> variants p = [p] ->
    (forall q, at_or_above q p -> exists b, cache q = Ok b) ->
    (find_cache_root cache broken variants fail p = Ok (Some r) <-> topmost (fun q => cache q = Ok true) p r /\ r <> slash).
Proof. exact find_exact. Qed.
Print Assumptions C55_exact.
(** The root of the tree the path is in, if all caches on the way are in one tree and
    "/" has none.  Missing from the full statement: trees in trees
    ([C55_refuted]), caches on "/" ([C55_slash_refuted]), links ([C55_order_refuted]). *)
Theorem C55_partial :
  forall cache broken variants fail p r, broken p = false -> variants p = [p] ->
    (forall q, at_or_above q p -> exists b, cache q = Ok b) ->
    one_tree (fun q => cache q = Ok true) p -> cache slash = Ok false ->
    (find_cache_root cache broken variants fail p = Ok (Some r) <-> root_of (fun q => cache q = Ok true) p r).
Proof. exact find_root_of. Qed.
Print Assumptions C55_partial.
(** Where nothing has a cache the answer is None, also when asked to fail. *)
Theorem C55_none :
  forall cache fail vs, (forall v q, In v vs -> at_or_above q v -> cache q = Ok false) -> over cache fail None vs = Ok None.
Proof. exact over_none. Qed.
Print Assumptions C55_none.
(** A broken link is in the tree of its directory. *)
Theorem C55_link :
  forall cache broken variants fail p, broken p = true -> pp_parts p <> [] ->
    find_cache_root cache broken variants fail p = find_cache_root cache broken variants fail (pp_parent p).
Proof. exact find_parent. Qed.
Print Assumptions C55_link.

Definition having (l : list ppath) (p : ppath) : res bool := Ok (existsb (pp_eqb p) l).
Definition abs_ (l : list str) : ppath := mkPP true l.
Definition sole (p : ppath) : list ppath := [p].
Definition no_link (p : ppath) : bool := false.
(** A tree in a directory of another tree: the answer is the root of the outer one. *)
Theorem C55_refuted :
  ~ forall cache broken variants fail p r, broken p = false -> variants p = [p] ->
      (forall q, at_or_above q p -> exists b, cache q = Ok b) -> cache slash = Ok false ->
      find_cache_root cache broken variants fail p = Ok (Some r) -> root_of (fun q => cache q = Ok true) p r.
Proof.
  intro H.
  specialize (H (having [abs_ [$"a"]; abs_ [$"a"; $"b"; $"c"]]) no_link sole false (abs_ [$"a"; $"b"; $"c"]) (abs_ [$"a"])
    eq_refl eq_refl (fun q _ => ex_intro _ _ eq_refl) eq_refl eq_refl).
  destruct H as (n & N1 & N2 & N3 & N4 & N5 & _).
  assert (E : n = abs_ [$"a"; $"b"; $"c"]) by (symmetry; apply N3; [apply above_refl|exact N1|reflexivity]). subst n.
  specialize (N5 (abs_ [$"a"; $"b"])).
  assert (X : having [abs_ [$"a"]; abs_ [$"a"; $"b"; $"c"]] (abs_ [$"a"; $"b"]) = Ok true).
  { apply N5; split; try reflexivity; [now exists [$"c"]|now exists [$"b"]]. }
  vm_compute in X. discriminate.
Qed.
Print Assumptions C55_refuted.
(** With a cache on "/" no root is found at all. *)
Theorem C55_slash_refuted :
  forall cache broken variants fail p, broken p = false -> variants p = [p] ->
    (forall q, at_or_above q p -> cache q = Ok true) -> pp_abs p = true ->
    find_cache_root cache broken variants fail p = Ok None.
Proof. exact find_slash. Qed.
Print Assumptions C55_slash_refuted.
(** With a link on the way the answer depends on the order of a set: the same path in
    the same state has two roots. *)
Theorem C55_order_refuted :
  exists cache broken p q a b, a <> b /\
    find_cache_root cache broken (fun _ => [p; q]) false p = Ok (Some a) /\
    find_cache_root cache broken (fun _ => [q; p]) false p = Ok (Some b).
Proof.
  exists (having [abs_ [$"a"]; abs_ [$"b"]; abs_ [$"b"; $"x"]]), no_link, (abs_ [$"a"; $"l"; $"x"]), (abs_ [$"b"; $"x"]), (abs_ [$"a"]), (abs_ [$"b"]).
  split; [discriminate|]. vm_compute. split; reflexivity.
Qed.
Print Assumptions C55_order_refuted.

Definition c55_cache : ppath -> res bool := having [abs_ [$"p"]; abs_ [$"p"; $"d"]].
Example C55_case :
  root_of (fun q => c55_cache q = Ok true) (abs_ [$"p"; $"d"; $".git"; $"x"]) (abs_ [$"p"]) /\
  find_cache_root c55_cache no_link sole false (abs_ [$"p"; $"d"; $".git"; $"x"]) = Ok (Some (abs_ [$"p"])) /\
  find_cache_root c55_cache (fun q => pp_eqb q (abs_ [$"p"; $"f"])) sole false (abs_ [$"p"; $"f"]) = Ok (Some (abs_ [$"p"])) /\
  find_cache_root c55_cache no_link sole true (abs_ [$"q"]) = Ok None /\
  find_cache_root (fun q => if pp_eqb q (abs_ [$"p"]) then Err NoCachedMetadataError else Ok (pp_eqb q (abs_ [$"p"; $"d"]))) no_link sole false (abs_ [$"p"; $"d"]) =
    Ok (Some (abs_ [$"p"; $"d"])).
Proof.
  split; [|vm_compute; repeat split; reflexivity].
  apply (find_root_of c55_cache no_link sole false); try reflexivity.
  - intros q _. eexists. reflexivity.
  - intros a b c A B C KA KC. apply in_chain in C. cbn in C.
    assert (L : In b (chain c)) by now apply in_chain. assert (M : In a (chain b)) by now apply in_chain.
    destruct C as [<-|[<-|[<-|[<-|[<-|[]]]]]]; try discriminate KC; cbn in L;
      repeat (destruct L as [<-|L]; [try reflexivity|]); try contradiction L; cbn in M;
      repeat (destruct M as [<-|M]; [discriminate KA|]); contradiction M.
Qed.

(** ** C56: skip_cache *)

(** What has no cache but whose directory has one: the name of the entry of the anchor it
    is in says.  Missing from the full statement: paths that have a cache
    ([C56_refuted]), paths outside every tree ([C56_outside_refuted]). *)
Theorem C56_partial :
  forall cache broken variants anchor a p x, cache p = Ok false -> cache (pp_parent p) = Ok true -> anchor = Ok a -> in_entry a p x ->
    (skip_cache cache broken variants anchor p = Ok true <-> In x cache_ignore) /\
    (skip_cache cache broken variants anchor p = Ok false <-> ~ In x cache_ignore).
Proof. exact skip_below_iff. Qed.
Print Assumptions C56_partial.
(** Further down it is the entry of the root that was found. *)
Theorem C56_deeper :
  forall cache broken variants anchor p q x, cache p = Ok false -> cache (pp_parent p) = Ok false ->
    find_cache_root cache broken variants true p = Ok (Some q) -> in_entry q p x ->
    (skip_cache cache broken variants anchor p = Ok true <-> In x cache_ignore) /\
    (skip_cache cache broken variants anchor p = Ok false <-> ~ In x cache_ignore).
Proof. exact skip_root_iff. Qed.
Print Assumptions C56_deeper.
(** A path with a cache is said to be one that should have none. *)
Theorem C56_refuted :
  forall cache broken variants anchor p, cache p = Ok true -> skip_cache cache broken variants anchor p = Ok true.
Proof. exact skip_cached. Qed.
Print Assumptions C56_refuted.
(** Outside every tree it is a TypeError, not an answer. *)
Theorem C56_outside_refuted :
  forall cache broken variants anchor p, broken p = false -> (forall v q, In v (variants p) -> at_or_above q v -> cache q = Ok false) ->
    In p (variants p) -> skip_cache cache broken variants anchor p = Err TypeError.
Proof. exact skip_outside. Qed.
Print Assumptions C56_outside_refuted.
(** [children] leaves out more than what is to be skipped: an entry of the anchor whose
    name only has the stem of an ignored one. *)
Theorem C56_children_refuted :
  exists cache broken variants anchor a x, anchor = Ok a /\ cache a = Ok true /\ cache (child a x) = Ok false /\
    existsb (str_eqb (stem x)) cache_ignore = true /\ skip_cache cache broken variants anchor (child a x) = Ok false.
Proof.
  exists (having [abs_ [$"p"]]), no_link, sole, (Ok (abs_ [$"p"])), (abs_ [$"p"]), $".git.bak". vm_compute. repeat split; reflexivity.
Qed.
Print Assumptions C56_children_refuted.

Example C56_case :
  in_entry (abs_ [$"p"]) (abs_ [$"p"; $".operations"; $"objects"; $"x"]) $".operations" /\
  skip_cache c55_cache no_link sole (Ok (abs_ [$"p"])) (abs_ [$"p"; $".operations"]) = Ok true /\
  skip_cache c55_cache no_link sole (Ok (abs_ [$"p"])) (abs_ [$"p"; $".operations"; $"objects"; $"x"]) = Ok true /\
  skip_cache c55_cache no_link sole (Ok (abs_ [$"p"])) (abs_ [$"p"; $"d"; $".git"]) = Ok false /\
  skip_cache c55_cache no_link sole (Ok (abs_ [$"p"])) (abs_ [$"p"; $"d"]) = Ok true /\
  skip_cache c55_cache no_link sole (Ok (abs_ [$"p"])) (abs_ [$"q"; $"d"]) = Err TypeError.
Proof. split; [split; [reflexivity|]; eexists; reflexivity|]. vm_compute. repeat split; reflexivity. Qed.
