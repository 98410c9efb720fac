(** * Listing what is in a directory: /repo/augpathlib/core.py:1439-1473 *)
From Coq Require Import String NArith ZArith Bool List.
From Verif Require Import Model.Py Model.PurePath Model.Fs Model.PathOps Model.Rmdirtree.
Import ListNotations.

(** [PurePath.stem] of a name (python 3.11), core.py:1453 *)
Definition stem (name : str) : str :=
  match rsplit1 (chr ".") name with
  | Some (a, b) => match a, b with [], _ | _, [] => name | _, _ => a end
  | None => name
  end.

(** cache_ignore, caches.py:28-30, utils.py:27-28 *)
Definition cache_ignore : list str := [$".operations"; $".sparse"; $".git"].

(** [except PermissionError] *)
Definition or_denied {A} (m : M A) (d : A) : M A :=
  catch m (fun e => match e with OSErr EACCES | OSErr EPERM => ret d | _ => raise e end).

(** [for x in l: yield from f x] *)
Fixpoint each_cat {A B} (f : A -> M (list B)) (l : list A) : M (list B) :=
  match l with
  | [] => ret []
  | x :: r => let! a <- f x ; let! b <- each_cat f r ; ret (a ++ b)
  end.

Definition subdirs (l : list (str * dtype)) : list str :=
  map fst (filter (fun e => match snd e with DT_DIR => true | _ => false end) l).

(** The selectors of [rglob('*')] (pathlib of python 3.11, core.py:1473): each
    directory is read once by [_WildcardSelector] for what is in it and once by
    [_RecursiveWildcardSelector] for the directories to go into; links are not gone
    into; a directory that may not be read is passed over in silence.  Generators are
    read to the end. *)
Fixpoint glob (fuel : nat) (p : ppath) : M (list ppath) :=
  let! here <- or_denied (let! l <- sys_scandir p ; ret (map (fun e => child p (fst e)) l)) [] ;
  let! into <- or_denied (let! l <- sys_scandir p ; ret (subdirs l)) [] ;
  let! deeper <- each_cat (fun x => match fuel with
                                    | O => raise OutOfFuel
                                    | S f => glob f (child p x)
                                    end) into ;
  ret (here ++ deeper).

(** [if p not in yielded: yield p; yielded.add(p)] *)
Fixpoint uniq (seen l : list ppath) : list ppath :=
  match l with
  | [] => []
  | q :: r => if in_set q seen then uniq seen r else q :: uniq (q :: seen) r
  end.

Definition p_rglob (p : ppath) : M (list ppath) :=
  fun w => (let! d <- p_is_dir p ;
            if d then let! l <- glob (depth (w_fs w)) p ; ret (uniq [] l) else ret []) w.

(** [iterdir] *)
Definition p_iterdir (p : ppath) : M (list ppath) :=
  let! l <- sys_listdir p ; ret (map (child p) l).

Section Anchored.
(** [has_cache p]: [p.cache is not None]; [anchor]: the local path of the anchor of
    the cache class, if it is anchored *)
Variable has_cache : ppath -> bool.
Variable anchor : option ppath.

(** the test of 1441-1446 and 1462-1466 *)
Definition at_anchor (p : ppath) : bool :=
  (has_cache p && match anchor with Some a => pp_eqb p a | None => false end)%bool.

(** children, 1439-1458; the name of a path is its last part *)
Definition p_children (p : ppath) : M (list ppath) :=
  let! d <- p_is_dir p ;
  if d then
    if at_anchor p then
      let! l <- p_iterdir p ;
      ret (filter (fun q => negb (existsb (str_eqb (stem (last (pp_parts q) []))) cache_ignore)) l)
    else p_iterdir p
  else ret [].

(** rchildren, 1460-1473; [fuel] for [path.rchildren] of 1469 *)
Fixpoint rchildren (fuel : nat) (p : ppath) : M (list ppath) :=
  let! d <- p_is_dir p ;
  if (d && at_anchor p)%bool then
    let! l <- p_children p ;
    each_cat (fun q => let! r <- match fuel with O => raise OutOfFuel | S f => rchildren f q end ; ret (q :: r)) l
  else p_rglob p.
(** what is in the anchor is not the anchor *)
Definition p_rchildren (p : ppath) : M (list ppath) := rchildren 1 p.
End Anchored.
