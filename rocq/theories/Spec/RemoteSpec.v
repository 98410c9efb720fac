(** * The way from an anchor down to a remote *)
From Coq Require Import NArith List.
From Verif Require Import Model.Py Model.RemoteTree.
Import ListNotations.

(** The names on the way from [a] down to [x]. *)
Inductive leads (H : hierarchy) (a : str) : list str -> str -> Prop :=
| leads_here : leads H a [] a
| leads_down ns p x : leads H a ns p -> x <> a -> h_parent H x = Some p -> leads H a (ns ++ [h_name H x]) x.

(** No two remotes in the same place have the same name. *)
Definition names_differ (H : hierarchy) : Prop :=
  forall x y p, h_parent H x = Some p -> h_parent H y = Some p -> h_name H x = h_name H y -> x = y.
