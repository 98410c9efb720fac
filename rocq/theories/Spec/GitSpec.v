(** * Nothing lost in a git repository *)
From Coq Require Import List.
From Verif Require Import Model.Py Model.Git.
Import ListNotations.

Definition same_tree (a b : tree) : Prop := forall k, tget a k = tget b k.

(** Something that git knows of was changed, in the index or in the working tree. *)
Definition changes (g : git) (h : tree) : Prop :=
  exists k, tget (g_index g) k <> tget h k \/
    (tget h k <> None \/ tget (g_index g) k <> None) /\ tget (g_work g) k <> tget h k.

(** Something is not as in the commit, known to git or not. *)
Definition changes_all (g : git) (h : tree) : Prop :=
  exists k, tget (g_index g) k <> tget h k \/ tget (g_work g) k <> tget h k.

(** The stash entry has all of the working tree and the index. *)
Definition keeps (e : stashed) (g : git) : Prop :=
  same_tree (s_index e) (g_index g) /\
  forall k, tget (s_work e) k = tget (g_work g) k \/ (tget (s_work e) k = None /\ tget (s_rest e) k = tget (g_work g) k).

(** What is done inside of a context leaves the stash and the branch it will return to
    alone, and stays on it if that is the one of the context. *)
Definition careful (self b : str) (body : git -> option exn * git) : Prop :=
  forall g x g', g_head g = On self -> commits g <> [] -> body g = (x, g') ->
    g_stash g' = g_stash g /\ find_ref b (g_refs g') = find_ref b (g_refs g) /\ commits g' <> [] /\
    (self = b -> g_head g' = On b).

(** git knows of the path. *)
Definition known (g : git) (h : tree) (k : str) : Prop := tget h k <> None \/ tget (g_index g) k <> None.

(** The commit [t] on top of [h]: what was asked for, is known and there, is taken from
    the working tree; everything else stays. *)
Definition only (sel : str -> bool) (g : git) (h t : tree) : Prop :=
  forall k, (sel k = true -> known g h k -> tget (g_work g) k <> None -> tget t k = tget (g_work g) k) /\
    (sel k = false \/ ~ known g h k \/ tget (g_work g) k = None -> tget t k = tget h k).

(** The index after a stash was made and taken back: the commit's, and files added. *)
Definition index_of (g : git) (h t i : tree) : Prop :=
  forall k, (tget t k <> None -> tget i k = tget t k) /\
    (tget t k = None -> known g h k -> tget i k = tget (g_work g) k) /\
    (tget t k = None -> ~ known g h k -> tget i k = None).
