(** * C48: bootstrapping with skip and only *)
From Coq Require Import String NArith Bool List.
From Verif Require Import Model.Py Model.Bootstrap Spec.BootstrapSpec Proofs.PyLemmas Proofs.BootstrapProofs.
Import ListNotations.

(** What is made or changed without recursion is for the id itself, which is that of
    the root or wanted.  Missing from the full statement: recursion, see
    [C48_refuted]. *)
Theorem C48_partial :
  forall h i fetch only skip sparse rchildren j,
    touched j (fst (bootstrap h (Some i) false fetch only skip sparse rchildren)) -> j = i /\ (b_root h = true \/ wanted only skip i).
Proof. exact bootstrap_one. Qed.
Print Assumptions C48_partial.
(** An unwanted id that is not the root's has no effect at all, with recursion or not. *)
Theorem C48_skipped :
  forall h i recursive fetch only skip sparse rchildren, b_root h = false -> ~ wanted only skip i ->
    bootstrap h (Some i) recursive fetch only skip sparse rchildren = ([], None).
Proof. exact bootstrap_unwanted. Qed.
Print Assumptions C48_skipped.
(** What is made below exists on the remote, had no cache, and was not there with the
    same data; in a sparse tree it is a directory, or a file wanted there. *)
Theorem C48_below :
  forall h i recursive fetch only skip sparse rchildren j, In (Made j) (fst (bootstrap h (Some i) recursive fetch only skip sparse rchildren)) ->
    exists s c, In c (rchildren s) /\ d_id c = j /\ (d_cached c = false /\ (d_file c = true -> d_local c <> Some true)) /\
      (sparse_true s = true -> d_dir c = true \/ d_file c = true /\ d_include c = true).
Proof. exact bootstrap_keeps. Qed.
Print Assumptions C48_below.
(** The root is never skipped: the lists make no difference, and a new directory is
    made for it. *)
Theorem C48_root :
  forall h i recursive fetch only skip sparse rchildren, b_root h = true ->
    bootstrap h (Some i) recursive fetch only skip sparse rchildren = bootstrap h (Some i) recursive fetch [] [] sparse rchildren.
Proof. exact bootstrap_root. Qed.
Print Assumptions C48_root.
Theorem C48_root_made :
  forall h i recursive fetch only skip rchildren, b_root h = true -> b_dir h = true -> b_meta h = None -> b_exists h = false ->
    In (MakeDir i) (fst (bootstrap h (Some i) recursive fetch only skip [] rchildren)) /\
    snd (bootstrap h (Some i) recursive fetch only skip [] rchildren) = None.
Proof. exact bootstrap_makes_root. Qed.
Print Assumptions C48_root_made.
(** With recursion everything new below is made, whatever the lists say of it. *)
Theorem C48_refuted :
  forall h i fetch only skip rchildren c, b_root h = true \/ wanted only skip i ->
    snd (bootstrap h (Some i) true fetch only skip [] rchildren) = None ->
    In c (rchildren (SparseIds [])) -> d_cached c = false /\ (d_file c = true -> d_local c <> Some true) ->
    In (Made (d_id c)) (fst (bootstrap h (Some i) true fetch only skip [] rchildren)).
Proof. exact bootstrap_all. Qed.
Print Assumptions C48_refuted.
(** Exactly what is made below: with recursion, and when the path is the root or wanted,
    what the remote says is below and has no entry; with ids for sparse trees only what
    belongs into them. *)
Theorem C48_exact :
  forall h i recursive fetch only skip sparse rchildren j,
    snd (bootstrap h (Some i) recursive fetch only skip sparse rchildren) = None ->
    (In (Made j) (fst (bootstrap h (Some i) recursive fetch only skip sparse rchildren)) <->
     recursive = true /\ (b_root h = true \/ wanted only skip i) /\
     exists s c, asked h i only skip sparse s /\ In c (rchildren s) /\ d_id c = j /\ lacking c /\ (sparsely sparse -> belongs c)).
Proof. exact bootstrap_made. Qed.
Print Assumptions C48_exact.
(** For a wanted id the lists make no difference. *)
Theorem C48_wanted :
  forall h i recursive fetch only skip sparse rchildren, b_root h = true \/ wanted only skip i ->
    bootstrap h (Some i) recursive fetch only skip sparse rchildren = bootstrap h (Some i) recursive fetch [] [] sparse rchildren.
Proof. exact bootstrap_wanted. Qed.
Print Assumptions C48_wanted.
(** What is done to the path itself: a small file is fetched when asked to, and if there
    are sparse trees only when it is wanted in them; a directory is made when there is
    none; it is updated when its metadata has the id. *)
Theorem C48_own :
  forall h i recursive fetch only skip sparse rchildren j,
    let e := fst (bootstrap h (Some i) recursive fetch only skip sparse rchildren) in
    (In (Touch j) e -> j = i /\ fetch = true /\ b_file h = true /\ (sparsely sparse -> b_include h = true) /\ exists k, b_meta h = Some (k, true)) /\
    (In (MakeDir j) e -> j = i /\ b_dir h = true /\ b_exists h = false /\ sparse = []) /\
    (In (Update j) e -> j = i /\ b_exists h = true /\ exists small, b_meta h = Some (i, small)).
Proof. exact bootstrap_own. Qed.
Print Assumptions C48_own.
Theorem C48_updates :
  forall h i fetch only skip sparse rchildren small recursive, b_root h = true \/ wanted only skip i ->
    b_exists h = true -> b_meta h = Some (i, small) -> recursive = true ->
    In (Update i) (fst (bootstrap h (Some i) recursive fetch only skip sparse rchildren)) /\
    snd (bootstrap h (Some i) recursive fetch only skip sparse rchildren) = None.
Proof. exact bootstrap_updates. Qed.
Print Assumptions C48_updates.
(** The root of a sparse tree, and nothing else, is marked. *)
Theorem C48_marked :
  forall h i recursive fetch only skip sparse rchildren j,
    In (MarkSparse j) (fst (bootstrap h (Some i) recursive fetch only skip sparse rchildren)) <-> j = i /\ sparse_here h i only skip sparse.
Proof. exact bootstrap_mark. Qed.
Print Assumptions C48_marked.
(** What has a shorter path is made first. *)
Theorem C48_order :
  forall h i fetch only skip rchildren c d, b_root h = true \/ wanted only skip i ->
    snd (bootstrap h (Some i) true fetch only skip [] rchildren) = None ->
    In c (rchildren (SparseIds [])) -> In d (rchildren (SparseIds [])) -> lacking c -> lacking d -> (d_len c < d_len d)%N ->
    exists a b e, fst (bootstrap h (Some i) true fetch only skip [] rchildren) = a ++ Made (d_id c) :: b ++ Made (d_id d) :: e.
Proof. exact bootstrap_order. Qed.
Print Assumptions C48_order.

Definition c48_tree (s : sparsity) : list below_it :=
  [mkBelow $"f:2" false true true 7 false None; mkBelow $"d:1" true false false 3 false None;
   mkBelow $"f:3" false true false 8 false (Some true); mkBelow $"f:4" false true false 8 false (Some false)].
Definition c48_new (root : bool) : here := mkHere None false root true false false true.
Example C48_case :
  wanted [$"s:1"; $"s:2"] [$"d:1"] $"s:1" /\ ~ wanted [] [$"d:1"] $"d:1" /\
  bootstrap (c48_new true) (Some $"o:1") true false [$"f:3"] [$"o:1"; $"d:1"; $"f:2"] [] c48_tree =
    ([MakeDir $"o:1"; Made $"d:1"; Handed $"d:1"; Made $"f:2"; Handed $"f:2"; Kept $"f:3"; Made $"f:4"; Handed $"f:4"; Handed $"o:1"], None) /\
  bootstrap (c48_new false) (Some $"s:1") true false [] [$"s:1"] [] c48_tree = ([], None) /\
  bootstrap (c48_new false) (Some $"s:1") true false [] [] [$"s:1"] c48_tree =
    ([Made $"f:2"; Handed $"f:2"; Made $"d:1"; Handed $"d:1"; Handed $"s:1"; MarkSparse $"s:1"], None) /\
  bootstrap (mkHere (Some ($"s:0", true)) true false false false false true) (Some $"s:1") true false [] [] [] c48_tree = ([], Some BaseExn) /\
  bootstrap (mkHere (Some ($"s:1", true)) true false true false false true) (Some $"s:1") false false [] [] [$"s:1"] c48_tree = ([MarkSparse $"s:1"], Some BootstrappingErr).
Proof.
  split; [split; [intros [A|[]]; discriminate A|right; now left]|].
  split; [intros [A _]; apply A; now left|].
  vm_compute. repeat split; reflexivity.
Qed.
