(** * Git state, and what augpathlib does to it:
    /repo/augpathlib/repo.py:289-332, /repo/augpathlib/repo_patch.py:48-87

    The git commands are those of git 2.x as far as the code below runs them; a command
    that fails raises [GitCommandError] and leaves the state as it was.  Simplified:
    no modes, links or submodules, no hooks but for [commit_fails]; a stash that does
    not apply cleanly leaves nothing behind. *)
From Coq Require Import String NArith Bool List.
From Verif Require Import Model.Py.
Import ListNotations.

(** Contents by path. *)
Definition tree : Type := list (str * bytes).
Fixpoint tget (t : tree) (k : str) : option bytes :=
  match t with
  | [] => None
  | (x, v) :: r => if str_eqb x k then Some v else tget r k
  end.
Definition blob_eqb (a b : option bytes) : bool :=
  match a, b with
  | None, None => true
  | Some x, Some y => bytes_eqb x y
  | _, _ => false
  end.
Definition is_some {A} (o : option A) : bool := match o with Some _ => true | None => false end.
Definition tab (ks : list str) (f : str -> option bytes) : tree :=
  flat_map (fun k => match f k with Some v => [(k, v)] | None => [] end) ks.
Definition keys (t : tree) : list str := map fst t.

(** An entry of the stash: HEAD, the index, what is tracked of the working tree, and
    with --all the rest of it *)
Record stashed : Type := mkStashed { s_base : tree; s_index : tree; s_work : tree; s_rest : tree }.
(** A reference: whether it is a branch, and its commits, the newest first *)
Record ref : Type := mkRef { r_branch : bool; r_commits : list tree }.
Inductive head : Type := On (branch : str) | Detached (commits : list tree).
Record git : Type := mkGit {
  g_refs : list (str * ref);
  g_head : head;
  g_index : tree;
  g_work : tree;
  g_stash : list stashed }.

Fixpoint find_ref (n : str) (l : list (str * ref)) : option ref :=
  match l with
  | [] => None
  | (x, r) :: m => if str_eqb x n then Some r else find_ref n m
  end.
Definition commits (g : git) : list tree :=
  match g_head g with
  | On b => match find_ref b (g_refs g) with Some r => r_commits r | None => [] end
  | Detached l => l
  end.
Definition top (l : list tree) : tree := match l with t :: _ => t | [] => [] end.
Definition all_keys (g : git) : list str := keys (top (commits g)) ++ keys (g_index g) ++ keys (g_work g).
Definition tracked (g : git) (k : str) : bool := is_some (tget (top (commits g)) k) || is_some (tget (g_index g) k).

(** [git stash push], and [git stash --all]; [false] is "No local changes to save" *)
Definition dirty (all : bool) (g : git) : bool :=
  existsb (fun k => negb (blob_eqb (tget (g_index g) k) (tget (top (commits g)) k))
                    || tracked g k && negb (blob_eqb (tget (g_work g) k) (tget (top (commits g)) k))
                    || all && negb (tracked g k) && is_some (tget (g_work g) k)) (all_keys g).
Definition stash_push (all : bool) (g : git) : res bool * git :=
  match commits g with
  | [] => (Err GitCommandErr, g)
  | h :: _ =>
      if dirty all g then
        (Ok true,
         mkGit (g_refs g) (g_head g) h
           (tab (all_keys g) (fun k => if tracked g k then tget h k else if all then None else tget (g_work g) k))
           (mkStashed h (g_index g)
              (tab (all_keys g) (fun k => if tracked g k then tget (g_work g) k else None))
              (tab (all_keys g) (fun k => if tracked g k || negb all then None else tget (g_work g) k)) :: g_stash g))
      else (Ok false, g)
  end.

(** [git checkout stash@{0} -- path], where [sel] says what the path matches *)
Definition checkout_paths (sel : str -> bool) (g : git) : res unit * git :=
  match g_stash g with
  | [] => (Err GitCommandErr, g)
  | e :: _ =>
      if existsb sel (filter (fun k => is_some (tget (s_work e) k)) (keys (s_work e))) then
        let over t := tab (keys t ++ keys (s_work e)) (fun k => if sel k && is_some (tget (s_work e) k) then tget (s_work e) k else tget t k) in
        (Ok tt, mkGit (g_refs g) (g_head g) (over (g_index g)) (over (g_work g)) (g_stash g))
      else (Err GitCommandErr, g)
  end.

(** [git stash pop stash@{n}] without --index.  [merge] merges contents. *)
Section Merge.
Variable merge : option bytes -> option bytes -> option bytes -> option (option bytes).
Definition merge3 (b o t : option bytes) : option (option bytes) :=
  if blob_eqb o t then Some o else if blob_eqb b o then Some t else if blob_eqb b t then Some o else merge b o t.
Definition stash_pop (n : nat) (g : git) : res unit * git :=
  match nth_error (g_stash g) n with
  | None => (Err GitCommandErr, g)
  | Some e =>
      let ks := keys (s_base e) ++ keys (g_index g) ++ keys (s_work e) in
      let new k := merge3 (tget (s_base e) k) (tget (g_index g) k) (tget (s_work e) k) in
      let value k := match new k with Some v => v | None => None end in
      let moves k := negb (blob_eqb (value k) (tget (g_index g) k)) in
      if forallb (fun k => is_some (new k) && (negb (moves k) || blob_eqb (tget (g_work g) k) (tget (g_index g) k))) ks
         && forallb (fun k => negb (is_some (tget (s_rest e) k)) || negb (is_some (tget (g_work g) k))) (keys (s_rest e))
      then
        (Ok tt,
         mkGit (g_refs g) (g_head g)
           (tab ks (fun k => if negb (is_some (tget (g_index g) k)) then value k else tget (g_index g) k))
           (tab (ks ++ keys (g_work g) ++ keys (s_rest e))
              (fun k => if is_some (tget (s_rest e) k) then tget (s_rest e) k else if moves k then value k else tget (g_work g) k))
           (firstn n (g_stash g) ++ skipn (S n) (g_stash g)))
      else (Err GitCommandErr, g)
  end.

(** [repo.index.commit(message)] *)
Definition set_ref (n : str) (r : ref) (l : list (str * ref)) : list (str * ref) := (n, r) :: l.
Definition index_commit (fails : option exn) (g : git) : res tree * git :=
  match fails with
  | Some e => (Err e, g)
  | None =>
      let l := g_index g :: commits g in
      (Ok (g_index g),
       match g_head g with
       | On b => mkGit (set_ref b (mkRef true l) (g_refs g)) (On b) (g_index g) (g_work g) (g_stash g)
       | Detached _ => mkGit (g_refs g) (Detached l) (g_index g) (g_work g) (g_stash g)
       end)
  end.

(** [git checkout branch], on a working tree without changes *)
Definition checkout (b : str) (g : git) : res unit * git :=
  match find_ref b (g_refs g) with
  | Some (mkRef true (t :: _)) => (Ok tt, mkGit (g_refs g) (On b) t t (g_stash g))
  | _ => (Err GitCommandErr, g)
  end.

(** ** RepoHelper.commit, repo.py:289-332 *)
Definition ignore_git {A} (x : res A * git) : res unit * git :=
  match x with
  | (Err GitCommandErr, g) => (Ok tt, g)
  | (Err e, g) => (Err e, g)
  | (Ok _, g) => (Ok tt, g)
  end.
Definition commit_path (sel : str -> bool) (fails : option exn) (g : git) : res tree * git :=
  match g_head g with
  | Detached _ => (Err TypeError, g)                                     (* 306: active_branch *)
  | On _ =>
      match commits g with
      | [] => index_commit fails g                                       (* 324-332 *)
      | _ :: _ =>
          match stash_push false g with                                  (* 308 *)
          | (Err e, g1) => (Err e, g1)
          | (Ok _, g1) =>
              let '(r, g3) :=
                match ignore_git (checkout_paths sel g1) with            (* 311-314 *)
                | (Err e, g2) => (Err e, g2)
                | (Ok _, g2) => index_commit fails g2                    (* 316 *)
                end in
              match ignore_git (stash_pop 0 g3) with                     (* 320-323 *)
              | (Err e, g4) => (Err e, g4)
              | (Ok _, g4) => (r, g4)
              end
          end
      end
  end.

(** ** Reference.__enter__ and __exit__, repo_patch.py:51-87.  [held] is what the reference
    keeps in [__original_branch] and [__stash]; it is not entered again inside. *)
Record held : Type := mkHeld { h_branch : str; h_stash : bool }.
Definition enter (self : str) (g : git) : res held * git :=
  match find_ref self (g_refs g) with
  | None => (Err NameError, g)                                           (* 60: [exc] is not imported *)
  | Some r =>
      match r_commits r with
      | [] => (Err NameError, g)
      | _ :: _ =>
          match g_head g with
          | Detached _ => (Err TypeError, g)                             (* 62 *)
          | On b =>
              match stash_push true g with                               (* 63 *)
              | (Err e, g1) => (Err e, g1)
              | (Ok s, g1) =>
                  if r_branch r && str_eqb self b then (Ok (mkHeld b s), g1)   (* 67-68 *)
                  else if r_branch r then
                    match checkout self g1 with
                    | (Err e, g2) => (Err e, g2)
                    | (Ok _, g2) => (Ok (mkHeld b s), g2)
                    end
                  else (Err AttributeError, g1)                          (* only branches have [checkout] *)
              end
          end
      end
  end.
Definition leave (self : str) (h : held) (g : git) : res unit * git :=
  match stash_push true g with                                           (* 74 *)
  | (Err e, g1) => (Err e, g1)
  | (Ok s, g1) =>
      let n := if s then 1 else 0 in
      match (if str_eqb (h_branch h) self then (Ok tt, g1) else checkout (h_branch h) g1) with   (* 80-81 *)
      | (Err e, g2) => (Err e, g2)
      | (Ok _, g2) => if h_stash h then stash_pop n g2 else (Ok tt, g2)  (* 84-85 *)
      end
  end.
(** [with ref: body]; what the body raises is raised after leaving *)
Definition within (self : str) (body : git -> option exn * git) (g : git) : res unit * git :=
  match enter self g with
  | (Err e, g1) => (Err e, g1)
  | (Ok h, g1) =>
      let '(x, g2) := body g1 in
      match leave self h g2 with
      | (Err e, g3) => (Err e, g3)
      | (Ok _, g3) => (match x with Some e => Err e | None => Ok tt end, g3)
      end
  end.
End Merge.
