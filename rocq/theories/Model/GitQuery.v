(** * Asking git about a path: /repo/augpathlib/repo.py:202-288, 334-374

    The state is that of Model/Git.v.  A path is given by [p], its [repo_relative_path]
    as text, "." for the working directory.  GitPython 3 runs `git diff`, `git
    diff-tree`, `git rev-list` and `git show` with [p] as a pathspec.  Simplified: no
    modes, no detection of renames (there is none with the path of a file),
    histories are lines, directories are there when something is in them, no textconv
    attributes; what [rev_parse] does not find raises GitCommandError here. *)
From Coq Require Import String NArith Bool List Strings.Byte.
From Verif Require Import Model.Py Model.Git.
Import ListNotations.

(** ** Pathspecs: a text names a path and what is beneath it; with one of [*?[\] it is
    also a pattern ([wild], git's wildmatch); after a colon it is something else ([magic]) *)
Definition special (c : N) : bool := existsb (N.eqb c) $"*?[\".
Definition beneath (p k : str) : bool := startswith k (p ++ $"/").
Definition names (p k : str) : bool := str_eqb p $"." || str_eqb k p || beneath p k.

(** ** The sides of a diff, and its entries (git.Diff) *)
Inductive side : Type := Work | Index | Commit (t : tree).
Record change : Type := mkChange { c_path : str; c_before : option bytes; c_after : option bytes }.

(** The order of paths, by their bytes as by their code points *)
Fixpoint str_ltb (a b : str) : bool :=
  match a, b with
  | _, [] => false
  | [], _ :: _ => true
  | x :: a', y :: b' => N.ltb x y || N.eqb x y && str_ltb a' b'
  end.
(** [list_[0]] of the entries, which git gives in the order of paths *)
Fixpoint least (l : list change) : option change :=
  match l with
  | [] => None
  | c :: r => match least r with
              | Some d => if str_ltb (c_path d) (c_path c) then Some d else Some c
              | None => Some c
              end
  end.
Definition entries (sel : str -> bool) (ks : list str) (before after : str -> option bytes) : list change :=
  flat_map (fun k => if sel k && negb (blob_eqb (before k) (after k)) then [mkChange k (before k) (after k)] else []) ks.

(** [this.diff(other=other, paths=...)]: git/diff.py Diffable.diff and
    git/index/base.py IndexFile.diff.  An index object is not the constant
    [Diffable.Index]: an index refuses it, a commit makes it an argument of diff-tree. *)
Definition git_diff (sel : str -> bool) (this other : side) (g : git) : res (list change) :=
  let index := tget (g_index g) in
  let work := tget (g_work g) in
  match this, other with
  | Work, _ => Err AttributeError                                        (* None has no diff *)
  | Index, Work => Ok (entries sel (keys (g_index g)) index work)
  | Index, Index => Err ValueError
  | Index, Commit t => Ok (entries sel (keys (g_index g) ++ keys t) index (tget t))
  | Commit t, Work =>
      Ok (entries sel (keys t ++ keys (g_index g)) (tget t) (fun k => if is_some (index k) then work k else None))
  | Commit _, Index => Err GitCommandErr
  | Commit t, Commit u => Ok (entries sel (keys t ++ keys u) (tget t) (tget u))
  end.

(** [self.exists()] *)
Definition there (g : git) (p : str) : bool :=
  str_eqb p $"." || existsb (fun k => is_some (tget (g_work g) k) && names p k) (keys (g_work g)).

Section Query.
Variable wild : str -> str -> bool.
Variable magic : str -> str -> bool.
(** [repo.commit(ref)], and `git rev-list` of it *)
Variable rev : git -> str -> option tree.
Variable history : git -> str -> option (list tree).
(** What `git show` writes for a directory *)
Variable listing : tree -> str -> bytes.

(** A relative text as a pathspec *)
Definition pathspec (p k : str) : bool :=
  if startswith p $":" then magic p k else names p k || existsb special p && wild p k.

(** _do_diff, 235-242 *)
Definition do_diff (this other : side) (p : str) (g : git) : res (option change) :=
  if there g p then                                                      (* 237 *)
    do l <- git_diff (pathspec p) this other g ;                         (* 240 *)
    Ok (least l)                                                         (* 241-242 *)
  else Err (OSErr ENOENT).

(** [self.repo.head.commit] *)
Definition head_commit (g : git) : res tree :=
  match commits g with [] => Err ValueError | t :: _ => Ok t end.

(** modified 220-223, indexed 225-228, has_uncommitted_changes 230-233 *)
Definition modified (p : str) (g : git) : res (option change) := do_diff Index Work p g.
Definition indexed (p : str) (g : git) : res (option change) :=
  do t <- head_commit g ; do_diff (Commit t) Index p g.
Definition has_uncommitted_changes (p : str) (g : git) : res (option change) :=
  do t <- head_commit g ; do_diff (Commit t) Work p g.

(** diff, 244-276 *)
Definition ref_to_object (ref : option str) (g : git) : res side :=      (* 256-262 *)
  match ref with
  | None => Ok Work
  | Some [] => Ok Index
  | Some r => match rev g r with Some t => Ok (Commit t) | None => Err GitCommandErr end
  end.
Definition diff (ref ref_orig : option str) (p : str) (g : git) : res (option change) :=
  do this <- ref_to_object ref_orig g ;
  do other <- ref_to_object ref g ;
  match this, other with
  | Work, Work => Ok None                                                (* 268-269 *)
  | Work, _ => do_diff other this p g                                    (* 271 *)
  | _, _ => do_diff this other p g
  end.

(** add_index, 280-288; a file, or all that is in a directory; GitPython follows the
    file system here, not pathspecs.  (For the working directory itself what it does
    with `.git` is not modelled.) *)
Definition add_index (p : str) (g : git) : res unit * git :=
  if there g p then
    (Ok tt,
     mkGit (g_refs g) (g_head g)
       (tab (keys (g_index g) ++ keys (g_work g))
          (fun k => if names p k && is_some (tget (g_work g) k) then tget (g_work g) k else tget (g_index g) k))
       (g_work g) (g_stash g))
  else (Err (OSErr ENOENT), g).
(** commit_from_working_tree, 334-340.  [commit] names the path by its own text; [sel]
    is what that matches. *)
Definition commit_from_working_tree (merge : option bytes -> option bytes -> option bytes -> option (option bytes))
    (sel : str -> bool) (fails : option exn) (p : str) (g : git) : res tree * git :=
  match add_index p g with
  | (Err e, g1) => (Err e, g1)
  | (Ok _, g1) => commit_path merge sel fails g1
  end.

(** ** show, 343-374 *)
(** [b.decode('utf-8', 'surrogateescape')]: a character, or a byte that is none *)
Definition utf8_step (a : N) (r : list N) : option (N * list N) :=
  if N.ltb a 128 then Some (a, r)
  else if (N.leb 194 a && N.leb a 223)%bool then
    match r with
    | b :: r1 => if cont b then Some (((a - 192) * 64 + (b - 128))%N, r1) else None
    | _ => None
    end
  else if (N.leb 224 a && N.leb a 239)%bool then
    match r with
    | b :: c :: r2 =>
        let v := ((a - 224) * 4096 + (b - 128) * 64 + (c - 128))%N in
        if (cont b && cont c && N.leb 2048 v && scalar v)%bool then Some (v, r2) else None
    | _ => None
    end
  else if (N.leb 240 a && N.leb a 244)%bool then
    match r with
    | b :: c :: d :: r3 =>
        let v := ((a - 240) * 262144 + (b - 128) * 4096 + (c - 128) * 64 + (d - 128))%N in
        if (cont b && cont c && cont d && N.leb 65536 v && scalar v)%bool then Some (v, r3) else None
    | _ => None
    end
  else None.
Fixpoint escape_dec (fuel : nat) (s : list N) : str :=
  match fuel, s with
  | S n, a :: r => match utf8_step a r with
                   | Some (v, r') => v :: escape_dec n r'
                   | None => (56320 + a)%N :: escape_dec n r
                   end
  | _, _ => []
  end.
Definition decode_escaped (b : bytes) : str := escape_dec (length b) (map Byte.to_N b).
(** [s.encode('utf-8', 'surrogateescape')] *)
Definition escape_enc1 (c : N) : option (list N) :=
  if surrogate c then if (N.leb 56448 c && N.leb c 56575)%bool then Some [(c - 56320)%N] else None
  else Some (utf8_enc1 c).
Fixpoint encode_escaped (s : str) : res bytes :=
  match s with
  | [] => Ok []
  | c :: r => match escape_enc1 c with
              | Some l => do b <- encode_escaped r ; Ok (map byte_of l ++ b)
              | None => Err UnicodeError
              end
  end.
(** What GitPython returns of the output of a command: one newline at the end is dropped *)
Definition strip_newline (b : bytes) : bytes :=
  match rev' b with
  | x0a :: r => rev' r
  | _ => b
  end.

(** `git show ref:path`.  Nothing before the colon is the index, and then `n:path` is
    the path at stage [n] of a merge. *)
Definition stage (p : str) : option (N * str) :=
  match p with
  | c :: 58%N :: r => if (N.leb 48 c && N.leb c 51)%bool then Some ((c - 48)%N, r) else None
  | _ => None
  end.
Definition object (t : tree) (p : str) : res bytes :=
  match tget t p with
  | Some b => Ok b
  | None => if existsb (fun k => is_some (tget t k) && beneath p k) (keys t) then Ok (listing t p) else Err GitCommandErr
  end.
Definition git_show (ref p : str) (g : git) : res bytes :=
  match ref with
  | [] =>
      let at_index q := match tget (g_index g) q with Some b => Ok b | None => Err GitCommandErr end in
      match stage p with
      | Some (0%N, q) => at_index q
      | Some _ => Err GitCommandErr                                      (* no merge is going on *)
      | None => at_index p
      end
  | _ => match rev g ref with Some t => object t p | None => Err GitCommandErr end
  end.
Definition show (ref : option str) (p : str) (g : git) : res bytes :=
  match ref with
  | None =>                                                              (* 346-348 *)
      match tget (g_work g) p with
      | Some b => Ok b
      | None => Err (OSErr (if there g p then EISDIR else ENOENT))
      end
  | Some r =>
      do out <- git_show r p g ;
      encode_escaped (decode_escaped (strip_newline out))                (* 350-351 *)
  end.

(** ** commits 211-216, latest_commit 202-209 *)
(** `git rev-list -- path`: the commits that differ from the one before in what is
    selected.  A commit is given with those before it. *)
Definition touches (sel : str -> bool) (l : list tree) : bool :=
  match l with
  | [] => false
  | t :: r => existsb (fun k => sel k && negb (blob_eqb (tget t k) (tget (top r) k))) (keys t ++ keys (top r))
  end.
Fixpoint rev_list (sel : str -> bool) (l : list tree) : list (list tree) :=
  match l with
  | [] => []
  | _ :: r => (if touches sel l then [l] else []) ++ rev_list sel r
  end.
(** The absolute path after [expanduser().resolve()], [q] its part in the repository;
    [None] when it leads out of it *)
Definition pathspec_abs (q k : str) : bool := names q k || existsb special q && wild q k.
Definition iter_commits (r : option str) (q : option str) (max_count : option nat) (g : git) : res (list (list tree)) :=
  do l <- match r with
          | None => do _ <- head_commit g ; Ok (commits g)
          | Some x => match history g x with Some l => Ok l | None => Err GitCommandErr end
          end ;
  match q with
  | None => Err GitCommandErr
  | Some q =>
      let all := rev_list (pathspec_abs q) l in
      Ok (match max_count with Some n => firstn n all | None => all end)
  end.
Definition path_commits := iter_commits.
Definition latest_commit (r : option str) (q : option str) (g : git) : res (list tree) :=
  do l <- iter_commits r q (Some 1%nat) g ;
  match l with c :: _ => Ok c | [] => Err NoCommitsErr end.
End Query.
