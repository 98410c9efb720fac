(** * What bootstrapping made *)
From Coq Require Import List.
From Verif Require Import Model.Py Model.Bootstrap.
Import ListNotations.

(** There is something new, or changed, on the disk for [i]. *)
Definition touched (i : str) (l : list event) : Prop :=
  In (MakeDir i) l \/ In (Touch i) l \/ In (Update i) l \/ In (Made i) l \/ In (MarkSparse i) l.

(** [i] is wanted. *)
Definition wanted (only skip : list str) (i : str) : Prop :=
  ~ In i skip /\ (only = [] \/ In i only).

(** The root of a sparse tree. *)
Definition sparse_here (h : here) (i : str) (only skip sparse : list str) : Prop :=
  b_root h = false /\ wanted only skip i /\ In i sparse.
(** How what is below is asked for. *)
Definition asked (h : here) (i : str) (only skip sparse : list str) (s : sparsity) : Prop :=
  (s = SparseAll /\ sparse_here h i only skip sparse) \/ (s = SparseIds sparse /\ ~ sparse_here h i only skip sparse).
(** Is in a sparse tree, or may be: there are ids for sparse trees. *)
Definition sparsely (sparse : list str) : Prop := sparse <> [].
(** There is no entry for it yet. *)
Definition lacking (c : below_it) : Prop := d_cached c = false /\ (d_file c = true -> d_local c <> Some true).
(** It belongs into a sparse tree. *)
Definition belongs (c : below_it) : Prop := d_dir c = true \/ d_file c = true /\ d_include c = true.
