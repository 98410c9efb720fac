(** * The innermost repository of a path *)
From Coq Require Import String NArith ZArith Bool List.
From Verif Require Import Model.Py Model.PurePath Model.Fs Model.Repo Spec.FsSpec Spec.ZipSpec.
Import ListNotations.

(** There is something called .git in it, a link that leads nowhere not counting. *)
Definition has_git (fs : node) (cwd : place) (p : ppath) : Prop :=
  exists q n, walk fs cwd true (mkPP (pp_abs p) (pp_parts p ++ [$".git"])) = Found q n.

(** Of [p] and the directories above it, as its text has them, [r] is the nearest with
    a repository. *)
Definition nearest (fs : node) (cwd : place) (p : ppath) (r : option ppath) : Prop :=
  match r with
  | Some q => at_or_below q p /\ has_git fs cwd q /\ forall q', deep_below q q' -> at_or_below q' p -> ~ has_git fs cwd q'
  | None => forall q, at_or_below q p -> ~ has_git fs cwd q
  end.

(** Not relative to a home. *)
Definition plain (p : ppath) : Prop :=
  pp_abs p = true \/ forall x r, pp_parts p = x :: r -> startswith x $"~" = false.
Definition absolute_of (cwd : place) (p : ppath) : ppath :=
  if pp_abs p then p else mkPP true (cwd ++ pp_parts p).

(** Files, their history and the current directory are as before. *)
Definition unchanged (w w' : world) : Prop :=
  w_fs w' = w_fs w /\ w_cwd w' = w_cwd w /\ w_hist w' = w_hist w /\ w_fault w' = w_fault w.
(** There is nothing in the text of the path that GitPython would take out or replace. *)
Definition normal (p : ppath) : Prop := forall x, In x (pp_parts p) -> x <> $".." /\ ~ In (chr "$") x.
(** GitPython finds the repository, calls it by its path, and changes nothing. *)
Definition opens (git_open : ppath -> M ppath) : Prop :=
  forall p w, (forall t, w_fault w t = None) -> normal p -> has_git (w_fs w) (w_cwd w) p ->
    exists w', unchanged w w' /\ git_open p w = (Ok p, w').
(** The path leads somewhere. *)
Definition there_b (fs : node) (cwd : place) (p : ppath) : bool :=
  match walk fs cwd true p with Found _ _ => true | _ => false end.
(** The objects that are remembered say the path they are remembered for; or at least a
    directory that is there. *)
Definition told (s : repos) : Prop := forall k h, known k s = Some h -> h_dir h = k.
Definition told_there (fs : node) (cwd : place) (s : repos) : Prop :=
  forall k h, known k s = Some h -> there_b fs cwd (h_dir h) = true.
