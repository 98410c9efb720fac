(** * Making local entries for a remote tree, /repo/augpathlib/caches.py:350-374, 401-570

    The output is what is done and handed back, in order, and the exception that ends
    it, if any.  The remote and the local tree do not change meanwhile: what they say is
    given by the records below.  Simplified: log messages are not built; the loop that
    refreshes folders no longer on the remote (475-493) is in BootstrapOld.v; making an entry
    always works; looking for [_meta_is_root] and [_sparse_include] gives an answer. *)
From Coq Require Import NArith Bool List.
From Verif Require Import Model.Py.
Import ListNotations.

(** What is on the remote below the path, 468: its id, what it is, whether it is wanted
    in sparse trees (582), the length of its path (504), whether it has a cache (513),
    and whether a local file has its id (516) with the same data (520). *)
Record below_it : Type := mkBelow {
  d_id : str; d_dir : bool; d_file : bool; d_include : bool; d_len : N; d_cached : bool;
  d_local : option bool }.

(** The path itself: its metadata by id and whether the size is known and below the
    limit (557-559), whether it exists, whether [_meta_is_root] holds, and what the
    remote is. *)
Record here : Type := mkHere {
  b_meta : option (str * bool); b_exists : bool; b_root : bool; b_dir : bool; b_file : bool;
  b_include : bool; b_parent : bool }.

Inductive event : Type :=
| Parent                       (* the parent directory is made, 555 *)
| MakeDir (i : str)            (* 545 *)
| Touch (i : str)              (* 562 *)
| Update (i : str)             (* 442 *)
| Made (i : str)               (* 530 *)
| Kept (i : str)               (* 513, 524: one that was there is handed back *)
| Handed (i : str)             (* 461, 533: handed back *)
| MarkSparse (i : str).        (* 373 *)

(** The argument [sparse]: ids, or [True], 430. *)
Inductive sparsity : Type := SparseIds (l : list str) | SparseAll.
Definition sparse_true (s : sparsity) : bool :=
  match s with SparseIds [] => false | _ => true end.

Definition one_of (i : str) (l : list str) : bool := existsb (str_eqb i) l.
Definition given (l : list str) : bool := match l with [] => false | _ => true end.

(** 415-435: [None] where it returns; otherwise what [sparse] is afterwards, and
    whether the path is marked. *)
Definition filtered (h : here) (i : str) (only skip sparse : list str) : option (sparsity * bool) :=
  if given only || given skip || given sparse then
    if b_root h then Some (SparseIds sparse, false)
    else if one_of i skip then None
    else if given only && negb (one_of i only) then None
    else if given sparse && one_of i sparse then Some (SparseAll, true)
    else Some (SparseIds sparse, false)
  else Some (SparseIds sparse, false).

(** _bootstrap_prepare_filesystem, 535-570 *)
Definition prepare (h : here) (i : str) (fetch_data : bool) (s : sparsity) : list event * option exn :=
  if b_dir h then (if negb (sparse_true s) && negb (b_exists h) then [MakeDir i] else [], None)
  else if b_file h then
    if sparse_true s && negb (b_include h) then ([], None)
    else
      let p := if b_parent h then [] else [Parent] in
      if fetch_data then
        match b_meta h with
        | None => (p, Some AttributeError)                                (* 558 *)
        | Some (_, small) => (p ++ (if small then [Touch i] else []), None)
        end
      else (p, None)
  else ([], Some BaseExn).

(** [sorted] with a key, which is stable, 504 *)
Fixpoint insert_len (x : below_it) (l : list below_it) : list below_it :=
  match l with
  | [] => [x]
  | y :: r => if N.leb (d_len x) (d_len y) then x :: l else y :: insert_len x r
  end.
Definition by_len (l : list below_it) : list below_it := fold_right insert_len [] l.

(** The loop, 506-533 *)
Definition child (c : below_it) : list event :=
  if d_cached c then [Kept (d_id c)]
  else match (if d_file c then d_local c else None) with
       | Some true => [Kept (d_id c)]
       | _ => [Made (d_id c); Handed (d_id c)]
       end.

(** _bootstrap_recursive, 463-533; [only] and [skip] are not used there *)
Definition bootstrap_recursive (rchildren : sparsity -> list below_it) (only skip : list str) (s : sparsity) : list event :=
  flat_map child
    (if sparse_true s then filter (fun c => d_dir c || d_file c && d_include c) (rchildren s)
     else by_len (rchildren s)).

(** _bootstrap, 401-461, for [meta.id], [None] where there is none; the flag is whether
    [_is_sparse_root] is set *)
Definition bootstrap_ (h : here) (meta_id : option str) (recursive fetch_data : bool) (only skip sparse : list str)
    (rchildren : sparsity -> list below_it) : list event * option exn * bool :=
  match meta_id with
  | None => ([], Some BootstrappingErr, false)
  | Some i =>
      match filtered h i only skip sparse with
      | None => ([], None, false)
      | Some (s, mark) =>
          if (match b_meta h with Some _ => true | None => false end) && negb recursive then ([], Some BootstrappingErr, mark)
          else
            let '(e, x) :=
              if b_exists h && (match b_meta h with Some (j, _) => str_eqb j i | None => false end) then ([Update i], None)
              else prepare h i fetch_data s in
            match x with
            | Some x => (e, Some x, mark)
            | None => (e ++ (if recursive then bootstrap_recursive rchildren only skip s else []) ++ [Handed i], None, mark)
            end
      end
  end.

(** bootstrap, 350-374 *)
Definition bootstrap (h : here) (meta_id : option str) (recursive fetch_data : bool) (only skip sparse : list str)
    (rchildren : sparsity -> list below_it) : list event * option exn :=
  match bootstrap_ h meta_id recursive fetch_data only skip sparse rchildren with
  | (e, x, mark) => (e ++ (if mark then match meta_id with Some i => [MarkSparse i] | None => [] end else []), x)
  end.
