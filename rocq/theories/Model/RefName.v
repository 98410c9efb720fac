(** * The name of what is checked out: /repo/augpathlib/repo_patch.py:7-41

    GitPython's [refs] are those of the branches, the remotes and the tags, in this order
    (by their paths), each with a [name] without the directory it is in.  [name_rev] is a
    line of "git name-rev". *)
From Coq Require Import String NArith ZArith Bool List.
From Verif Require Import Model.Py.
Import ListNotations.

Inductive kind : Set := Head | Remote | Tag.
(** An annotated tag is an object of its own that leads to the commit. *)
Record ref : Type := mkRef { r_kind : kind; r_name : str; r_commit : N; r_annotated : bool }.

(** getRef, 7-13 *)
Definition get_ref (refs : list ref) (name : str) : res ref :=
  match find (fun r => str_eqb (r_name r) name) refs with
  | Some r => Ok r
  | None => Err ValueError
  end.

(** [s.split()] *)
Fixpoint words_from (s : str) : str * list str :=
  match s with
  | [] => ([], [])
  | c :: r =>
      let (w, l) := words_from r in
      if is_space c then ([], match w with [] => l | _ => w :: l end) else (c :: w, l)
  end.
Definition words (s : str) : list str :=
  let (w, l) := words_from s in match w with [] => l | _ => w :: l end.

(** [s.split(c, 1)] where [c] is in [s] *)
Fixpoint cut (c : N) (s : str) : str * str :=
  match s with
  | [] => ([], [])
  | x :: r => if N.eqb x c then ([], r) else let (a, b) := cut c r in (x :: a, b)
  end.

(** currentRefName, 15-41: None where the head is not attached and there is no name for
    it.  [branch] is [active_branch.name]. *)
Definition current_ref_name (detached : bool) (name_rev branch : str) : res (option str) :=
  if detached then
    match words name_rev with
    | [] => Err ValueError
    | _ :: [] => Ok None
    | _ :: ref_name :: _ =>
        if has (chr "/") ref_name then
          let (tags, tag_name) := cut (chr "/") ref_name in
          if str_eqb tags $"tags" then Ok (Some tag_name)
          else if has (chr "~") tag_name then Ok None
          else Ok (Some ref_name)
        else Ok None
    end
  else Ok (Some branch).
