(** * Histories of calls on repositories *)
From Coq Require Import String NArith ZArith Bool List.
From Verif Require Import Model.Py Model.PurePath Model.Fs Model.PathOps Model.RemoteUri Model.Repo
  Spec.FsSpec Spec.RepoSpec.
Import ListNotations.

(** Something called .git is at the absolute path. *)
Definition repo_at (fs : node) (k : ppath) : Prop := has_git fs [] k.

(** The states the file system has had after the first [n]. *)
Definition later (n : nat) (w : world) : list node := firstn (length (w_hist w) - n) (w_hist w).
(** The repository is there, and there was no moment since then when it was not. *)
Definition ever_since (k : ppath) (n : nat) (w : world) : Prop :=
  repo_at (w_fs w) k /\ forall s, In s (later n w) -> repo_at s k.

(** No repository comes to be at [k] between [w] and [w']: if there is one in the end, it was
    there all the time. *)
Definition not_remade (k : ppath) (w w' : world) : Prop :=
  exists l, w_hist w' = l ++ w_hist w /\
    (repo_at (w_fs w') k -> repo_at (w_fs w) k /\ forall s, In s l -> repo_at s k).

Inductive call : Type :=
| CRepo (p : ppath)
| CInit (p : ppath) (remote : option str)
| CClone (p : ppath) (remote : str)
| CRmtree (ig : bool) (dz : pyarg) (p : ppath)
| COther (m : M unit).       (* anything else, by this program or another *)

Definition good_end {A} (r : res A) : bool := match r with Ok _ => true | Err _ => false end.

Section Calls.
Variable home_of : str -> res ppath.
Variable git_open : ppath -> M ppath.
Variable git_init : ppath -> M ppath.
Variable git_clone : str -> ppath -> M ppath.
Variable git_close : handle -> M unit.

Definition step (c : call) (s : repos) (w : world) : bool * repos * world :=
  match c with
  | CRepo p => let '(r, s1, w1) := repo home_of git_open p s w in (good_end r, s1, w1)
  | CInit p remote => let '(r, s1, w1) := init home_of git_open git_init git_clone p remote s w in (good_end r, s1, w1)
  | CClone p remote => let '(r, s1, w1) := clone_from home_of git_open git_init git_clone p remote s w in (good_end r, s1, w1)
  | CRmtree ig dz p => let '(r, s1, w1) := repo_rmtree git_close ig dz p s w in (good_end r, s1, w1)
  | COther m => let (r, w1) := m w in (good_end r, s, w1)
  end.

(** The path is absolute, or relative to a directory that is there and not to a home. *)
Definition sane (p : ppath) (w : world) : Prop :=
  pp_abs p = true \/ plain p /\ good_fs (w_fs w) /\ is_dir_at (w_fs w) (w_cwd w).

(** A repository comes to be at a remembered place only by a call of [init] or [clone_from]
    for it, by its absolute path. *)
Definition only_at (p : ppath) (ok : bool) (s' : repos) (w w' : world) : Prop :=
  forall k h, known k s' = Some h -> pp_abs k = true -> (k = p -> ok = false) -> not_remade k w w'.
Definition fair (c : call) (s' : repos) (w : world) (ok : bool) (w' : world) : Prop :=
  match c with
  | CRepo p => sane p w
  | CInit p _ => sane p w /\ only_at p ok s' w w'
  | CClone p r => sane (clone_path p r) w /\ only_at (clone_path p r) ok s' w w'
  | CRmtree _ _ _ => True
  | COther _ => forall k h, known k s' = Some h -> pp_abs k = true -> not_remade k w w'
  end.

(** What can come of such calls, from a start where nothing is remembered. *)
Inductive went : repos -> world -> Prop :=
| went_start fs cwd fault : went [] (start fs cwd fault)
| went_call c s w ok s' w' : went s w -> step c s w = (ok, s', w') -> fair c s' w ok w' -> went s' w'.

Fixpoint run_calls (l : list call) (s : repos) (w : world) : repos * world :=
  match l with
  | [] => (s, w)
  | c :: l => let '(_, s1, w1) := step c s w in run_calls l s1 w1
  end.
End Calls.

(** Opening and closing change nothing. *)
Definition quietly {A B} (f : A -> M B) : Prop := forall a w, unchanged w (snd (f a w)).
