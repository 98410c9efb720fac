(** * What is to be said about a path of a repository *)
From Coq Require Import String NArith List Strings.Byte.
From Verif Require Import Model.Py Model.Git Model.GitQuery.
Import ListNotations.

(** The path itself, or something in it. *)
Definition at_path (p k : str) : Prop := p = $"." \/ k = p \/ exists r, k = p ++ $"/" ++ r.
(** A text that git does not take for a pattern. *)
Definition literal (p : str) : Prop :=
  (forall c, In c p -> ~ In c $"*?[\") /\ (forall r, p <> $":" ++ r).

(** The content of a path on a side. *)
Definition content_at (g : git) (s : side) (k : str) : option bytes :=
  match s with
  | Work => tget (g_work g) k
  | Index => tget (g_index g) k
  | Commit t => tget t k
  end.
(** git has it in the index. *)
Definition staged (g : git) (k : str) : Prop := tget (g_index g) k <> None.

(** From [before] to [after], of all that is at [p] and [seen]: nothing differs, or what
    is told does and no path before it. *)
Definition told (before after : str -> option bytes) (p : str) (seen : str -> Prop) (r : option change) : Prop :=
  match r with
  | None => forall k, at_path p k -> seen k -> before k = after k
  | Some c => at_path p (c_path c) /\ seen (c_path c) /\ c_before c = before (c_path c) /\ c_after c = after (c_path c) /\
      c_before c <> c_after c /\
      forall k, at_path p k -> seen k -> before k <> after k -> str_ltb k (c_path c) = false
  end.

(** Something of it is in the working tree. *)
Definition present (g : git) (p : str) : Prop := p = $"." \/ exists k, at_path p k /\ tget (g_work g) k <> None.

(** A file: nothing is beneath it on any side. *)
Definition alone (p : str) (t : tree) : Prop := forall r, tget t (p ++ $"/" ++ r) = None.

(** [c :: r] is [l] from some commit on. *)
Definition suffix_of (c l : list tree) : Prop := exists a, l = a ++ c.
Definition changed_in (p : str) (c : list tree) : Prop :=
  match c with
  | [] => False
  | t :: r => exists k, at_path p k /\ tget t k <> tget (top r) k
  end.
Definition same_at (p : str) (t u : tree) : Prop := forall k, at_path p k -> tget t k = tget u k.

(** What a reference given to [diff] stands for: nothing is the working tree, the empty
    text the index, anything else a commit. *)
Definition means (rev : git -> str -> option tree) (g : git) (ref : option str) (s : side) : Prop :=
  match ref, s with
  | None, Work => True
  | Some [], Index => True
  | Some (c :: r), Commit t => rev g (c :: r) = Some t
  | _, _ => False
  end.
(** All of the commit at the path is still in the index. *)
Definition still_in (g : git) (p : str) (s : side) : Prop :=
  match s with Commit t => forall k, at_path p k -> tget t k <> None -> staged g k | _ => True end.
(** The working tree has files that git does not know. *)
Definition seen_on (g : git) (s : side) (k : str) : Prop := match s with Work => staged g k | _ => True end.
(** The history asked for. *)
Definition line_of (history : git -> str -> option (list tree)) (r : option str) (g : git) (l : list tree) : Prop :=
  match r with
  | None => l = commits g /\ l <> []
  | Some x => history g x = Some l
  end.
(** [*] stands for any text in a pattern. *)
Definition star (wild : str -> str -> bool) : Prop := forall a b c, wild (a ++ $"*" ++ c) (a ++ b ++ c) = true.
