(** * Where a remote is below its anchor, /repo/augpathlib/remotes.py:258-289, 465-535,
    565-572, 726-792

    A remote is its id: two are equal when their ids are (565-569).  Simplified: the
    parts an object remembers (511-517) are computed again; log messages are not
    built. *)
From Coq Require Import String NArith Bool List.
From Verif Require Import Model.Py Model.PurePath Model.RelPath Model.PathOps.
Import ListNotations.

(** What the subclass says: name, and [parent], 521-524.  The parent of what is at the
    top is [None], or itself. *)
Record hierarchy : Type := mkHierarchy { h_parent : str -> option str; h_name : str -> str }.

(** What [cache] gives, 266-289: something that is not a cache where the class has no
    anchor, nothing, or a cache, here by the id of its parent and the names of that
    one's parents. *)
Inductive cached : Type :=
| NotAnchored
| NoCache
| CacheIn (parent_id : option str) (names : list str).

Section Tree.
Variable H : hierarchy.

(** The loop over [parents], 486-491, with [parents] as in 526-535: [next] is what the
    generator yields now.  [true] is being found. *)
Fixpoint climb (fuel : nat) (remote : str) (next : option str) (names : list str) : res (list str * bool) :=
  match fuel with
  | O => Err OutOfFuel
  | S n =>
      match next with
      | None => Ok (names, false)                                        (* 493-497 *)
      | Some q =>
          if str_eqb q remote then Ok (names, true)
          else climb n remote
                 (match h_parent H q with                                (* 531-535 *)
                  | Some r => if str_eqb r q then None else Some r
                  | None => None
                  end) (names ++ [h_name H q])
      end
  end.
(** The loop over the parents of the cache, 475-482 *)
Fixpoint climb_cache (remote_name : str) (l : list str) (names : list str) : list str :=
  match l with
  | [] => names
  | c :: r => if str_eqb c remote_name then names ++ [c] else climb_cache remote_name r (names ++ [c])
  end.

(** _parts_relative_to, 465-504; the flag is whether [file-deleted] is not noted. *)
Definition parts_relative_to (fuel : nat) (self remote : str) (cache_parent : option (option str * list str)) : res (list str * bool) :=
  match h_parent H self with
  | None => Err AttributeError                                           (* 471: no name *)
  | Some parent =>
      if negb (str_eqb parent remote) then
        let names := [h_name H parent] in
        do r <- match cache_parent with
                | Some (Some i, l) =>
                    if str_eqb parent i then Ok (climb_cache (h_name H remote) l names, true)
                    else climb fuel remote (h_parent H parent) names
                | _ => climb fuel remote (h_parent H parent) names
                end ;
        Ok (rev (fst r) ++ [h_name H self], snd r)
      else if str_eqb self parent then Ok ([[]], true)                   (* 499-500 *)
      else Ok ([h_name H self], true)
  end.

(** parts, 506-519 *)
Definition remote_parts (fuel : nat) (self anchor : str) (c : cached) : res (list str * bool) :=
  if str_eqb self anchor then Ok ([], true)
  else match c with
       | NotAnchored => Err AttributeError                               (* 512-513: NullCache *)
       | NoCache => parts_relative_to fuel self anchor None
       | CacheIn i l => parts_relative_to fuel self anchor (Some (i, l))
       end.
End Tree.

(** ** SshRemote, for python before 3.12 *)

(** id, 744-746, for one host: the path below the anchor, 754-779 *)
Definition ssh_rpath (anchor self : ppath) : ppath := pp_join anchor self.
(** parts: the list of the parts of a path is kept by pathlib under the name
    [_parts], which 511 takes for the value it remembers. *)
Definition ssh_parts (anchor self : ppath) : list str :=
  if pp_eqb (ssh_rpath anchor self) (ssh_rpath anchor anchor) then []
  else (if pp_abs self then [$"/"] else []) ++ pp_parts self.
(** _parts_relative_to the anchor, 782-792 *)
Definition ssh_parts_relative (anchor self : ppath) : res (list str) :=
  do r <- relative_to self anchor ; Ok (ssh_parts anchor r).
