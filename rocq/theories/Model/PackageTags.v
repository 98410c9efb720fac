(** * The tags of a package: /repo/augpathlib/package.py:265-284, 304-331, 379-393

    [tag_prefix] (298-302) and [arg_packagename] (448-453) are arguments; the name has none
    of the characters [*?[\] of a pattern.  The history is a line of commits, newest
    first. *)
From Coq Require Import String NArith ZArith Bool List.
From Verif Require Import Model.Py Model.Version.
Import ListNotations.

Definition nl : N := 10%N.

(** [a in b] for texts *)
Fixpoint contains (a b : str) : bool :=
  (startswith b a || match b with [] => false | _ :: r => contains a r end)%bool.

(** What [git log] shows of a commit in the format of line 388, its tags, and whether it
    changed one of the files of the release *)
Record commit : Type := mkCommit { c_line : str; c_tags : list str; c_touches : bool }.

Section Tags.
Variable parse_version : str -> res version.
Variable name : str.
Variable tag_prefix : bool.

(** [t[0] in '0123456789'], 279 *)
Definition digit_first (t : str) : res bool :=
  match t with [] => Err IndexError | c :: _ => Ok (is_digit c) end.

Fixpoint rfilter {A} (f : A -> res bool) (l : list A) : res (list A) :=
  match l with
  | [] => Ok []
  | x :: r => do b <- f x ; do q <- rfilter f r ; Ok (if b then x :: q else q)
  end.

(** tag_latest_github, 273-284; the names of the tags in the answer of GitHub, None where
    there is no answer *)
Definition tag_latest_github (gj : option (list str)) : res (option str) :=
  match gj with
  | None | Some [] => Ok None
  | Some l =>
      do these <- rfilter (fun t => if tag_prefix then Ok (contains name t) else digit_first t) l ;
      Ok (match these with [] => None | t :: _ => Some t end)
  end.

Definition lpn : nat := if tag_prefix then length name + 1 else 0.

Definition version_of (t : option str) : res (option version) :=
  match t with
  | None | Some [] => Ok None
  | Some t => do v <- parse_version (skipn lpn t) ; Ok (Some v)
  end.

(** version_latest_github, 265-271 *)
Definition version_latest_github (gj : option (list str)) : res (option version) :=
  do t <- tag_latest_github gj ; version_of t.

(** The pattern of 317-320 *)
Definition matches (t : str) : bool :=
  if tag_prefix then startswith t (name ++ $"-")
  else match t with c :: _ => is_digit c | [] => false end.

(** tag, 304-324: [git describe --abbrev=0 --tags --match=...] from the newest commit *)
Definition tag (h : list commit) : option str := find matches (flat_map c_tags h).

(** version_tag, 326-331 *)
Definition version_tag (h : list commit) : res (option version) := version_of (tag h).

(** [git log from..HEAD -- files]; without [from] both ends are HEAD *)
Fixpoint until (t : str) (h : list commit) : list commit :=
  match h with
  | [] => []
  | c :: r => if existsb (str_eqb t) (c_tags c) then [] else c :: until t r
  end.
Definition git_log (from : str) (h : list commit) : str :=
  join [nl] (map (fun c => $"'" ++ c_line c ++ $"'")
       (filter c_touches (match from with [] => [] | t => until t h end))).

(** [e[1:-1]] *)
Definition inner (e : str) : str := removelast (tl e).

(** commits_since_last_release, 379-393 *)
Definition commits_since_last_release (h : list commit) : list str :=
  filter (fun e => match e with [] => false | _ => true end)
    (map inner (split nl (git_log (match tag h with Some t => t | None => [] end) h))).
End Tags.
