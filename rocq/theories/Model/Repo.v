(** * Repositories and paths in them: /repo/augpathlib/repo.py:12, 32-142, 376-388

    A [Repo] object of GitPython is its [working_dir] and the moment when it was made.
    Simplified: log messages and texts of exceptions are not built. *)
From Coq Require Import String NArith ZArith Bool List.
From Verif Require Import Model.Py Model.PurePath Model.RelPath Model.Fs Model.PathOps Model.RemoteUri.
Import ListNotations.

Section Repo.
(** [os.path.expanduser] of "~" or "~name", as a path; RuntimeError where there is no
    such home. *)
Variable home_of : str -> res ppath.
(** [git.Repo(path)], [git.Repo.init(path)] and [git.Repo.clone_from(remote, path)]: the
    [working_dir] of the object they give.  The first and the last take ".." out of the text
    of the path, [init] resolves it. *)
Variable git_open : ppath -> M ppath.
Variable git_init : ppath -> M ppath.
Variable git_clone : str -> ppath -> M ppath.

(** [Path.expanduser] of python 3.11 *)
Definition expanduser (p : ppath) : res ppath :=
  match pp_abs p, pp_parts p with
  | false, x :: r => if startswith x $"~" then do h <- home_of x ; Ok (mkPP (pp_abs h) (pp_parts h ++ r)) else Ok p
  | _, _ => Ok p
  end.
(** [Path.absolute] of python 3.11 *)
Definition absolute (p : ppath) : M ppath :=
  if pp_abs p then ret p else let! c <- sys_getcwd ; ret (pp_join c p).
Definition expanded (p : ppath) : M ppath := let! q <- lift (expanduser p) ; absolute q.

(** working_dir, 110-130, for absolute paths; the parts from the last *)
Fixpoint working_dir_abs (parts : list str) : M (option ppath) :=
  let self := mkPP true (rev parts) in
  let! git <- p_exists (child self $".git") ;
  if git then ret (Some self)
  else match parts with
       | [] => ret None                                                   (* 123-124 *)
       | _ :: r => working_dir_abs r
       end.
Definition working_dir (p : ppath) : M (option ppath) :=
  if pp_abs p then working_dir_abs (rev (pp_parts p))
  else let! git <- p_exists (child p $".git") ;
       let! a <- expanded p ;                                             (* 119, 128; [str(self)] is never "" *)
       if git then ret (Some a) else working_dir_abs (rev (pp_parts (pp_parent a))).

(** An object: its directory, and how many states the file system had had when it was made *)
Record handle : Type := mkH { h_dir : ppath; h_born : nat }.
Definition made (q : ppath) (w : world) : handle := mkH q (length (w_hist w)).

(** [git.Repo.close] *)
Variable git_close : handle -> M unit.

(** [_repos], 12 *)
Definition repos : Type := list (ppath * handle).
Fixpoint known (p : ppath) (s : repos) : option handle :=
  match s with
  | [] => None
  | (k, h) :: r => if pp_eqb k p then Some h else known p r
  end.
Definition forget (p : ppath) (s : repos) : repos := filter (fun e => negb (pp_eqb (fst e) p)) s.
Definition remember (p : ppath) (h : handle) (s : repos) : repos := (p, h) :: forget p s.

(** repo, 98-108 *)
Definition repo (p : ppath) (s : repos) (w : world) : res handle * repos * world :=
  match working_dir p w with
  | (Err e, w1) => (Err e, s, w1)
  | (Ok None, w1) => (Err NotInRepoErr, s, w1)
  | (Ok (Some wd), w1) =>
      match known wd s with
      | Some h => (Ok h, s, w1)
      | None => match git_open wd w1 with
                | (Err e, w2) => (Err e, s, w2)
                | (Ok q, w2) => (Ok (made q w2), remember wd (made q w2) s, w2)
                end
      end
  end.

(** repo_relative_path, 132-142 *)
Definition repo_relative_path (p : ppath) (s : repos) (w : world) : res ppath * repos * world :=
  match repo p s w with
  | (Err e, s1, w1) => (Err e, s1, w1)
  | (Ok h, s1, w1) =>
      match (if pp_abs p then ret p else expanded p) w1 with
      | (Err e, w2) => (Err e, s1, w2)
      | (Ok path, w2) => (relative_to path (h_dir h), s1, w2)
      end
  end.

(** init, 60-96 *)
Definition init (p : ppath) (remote : option str) (s : repos) (w : world) : res handle * repos * world :=
  let make (s : repos) (w : world) : res handle * repos * world :=       (* 87-96 *)
    match (match remote with Some r => git_clone r p | None => git_init p end) w with
    | (Err e, w1) => (Err e, s, w1)
    | (Ok q, w1) => (Ok (made q w1), remember p (made q w1) s, w1)
    end in
  match repo p s w with
  | (Err NotInRepoErr, s1, w1) => make s1 w1
  | (Err e, s1, w1) => (Err e, s1, w1)
  | (Ok h, s1, w1) =>
      match p_exists p w1 with
      | (Err e, w2) => (Err e, s1, w2)
      | (Ok true, w2) => (Err RepoExistsErr, s1, w2)
      | (Ok false, w2) =>
          if negb (pp_eqb (h_dir h) p) then (Err AssertionError, s1, w2)  (* 82 *)
          else match known p s1 with
               | Some _ => make (forget p s1) w2
               | None => (Err KeyError, s1, w2)
               end
      end
  end.

(** clone_from, 40-58; the path is returned *)
Definition clone_from (p : ppath) (remote : str) (s : repos) (w : world) : res ppath * repos * world :=
  let q := clone_path p remote in
  match init q (Some remote) s w with
  | (Err e, s1, w1) => (Err e, s1, w1)
  | (Ok _, s1, w1) => (Ok q, s1, w1)
  end.

(** RepoPath.rmtree, 377-388 *)
Definition repo_rmtree (ig : bool) (dz : pyarg) (p : ppath) (s : repos) (w : world) : res unit * repos * world :=
  match known p s with
  | None => let (r, w1) := p_rmtree ig dz p w in (r, s, w1)
  | Some h =>
      let s1 := forget p s in
      match git_close h w with
      | (Err e, w1) => (Err e, s1, w1)
      | (Ok _, w1) => let (r, w2) := p_rmtree ig dz p w1 in (r, s1, w2)
      end
  end.
End Repo.
