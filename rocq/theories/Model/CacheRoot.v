(** * The root of a cached tree and ignored paths: /repo/augpathlib/core.py:1127-1170

    The state does not change during a call.  Simplified: NotInProjectError, which is
    handled like NoCachedMetadataError in 1140, is not told from it. *)
From Coq Require Import String NArith ZArith Bool List.
From Verif Require Import Model.Py Model.PurePath Model.RelPath Model.Fs Model.PathOps Model.Listing.
Import ListNotations.

(** [chain((p,), p.parents)], 1137; the parts from the last *)
Fixpoint ups (abs : bool) (rparts : list str) : list ppath :=
  mkPP abs (rev rparts) :: match rparts with [] => [] | _ :: r => ups abs r end.
Definition chain (p : ppath) : list ppath := ups (pp_abs p) (rev (pp_parts p)).

(** [self.__class__('/')], 1135 *)
Definition slash : ppath := mkPP true [].

Section Root.
(** Whether [p.cache] is something, or what is raised (1007-1030, any cache class) *)
Variable cache : ppath -> res bool.
(** [p.is_broken_symlink()] *)
Variable broken : ppath -> bool.
(** [set((p, p.absolute(), p.resolve()))] in the order it is gone through, 1136 *)
Variable variants : ppath -> list ppath.

Definition lost (e : exn) : bool := match e with NoCachedMetadataError => true | _ => false end.

(** [found_cache is not None and found_cache != root] *)
Definition usable (found : option ppath) : option ppath :=
  match found with Some q => if pp_eqb q slash then None else Some q | None => None end.

(** The inner loop, 1137-1149: [inl] where it returns, [inr] where it ends. *)
Fixpoint climb (fail : bool) (found : option ppath) (l : list ppath) : res (ppath + option ppath) :=
  match l with
  | [] => Ok (inr found)
  | q :: r =>
      match cache q with
      | Ok true => climb fail (Some q) r
      | Ok false => climb fail found r
      | Err e =>
          if lost e then
            if fail then Err e
            else match usable found with Some f => Ok (inl f) | None => climb fail found r end
          else Err e
      end
  end.

(** The outer loop, 1136-1153 *)
Fixpoint over (fail : bool) (found : option ppath) (vs : list ppath) : res (option ppath) :=
  match vs with
  | [] => Ok None
  | v :: r =>
      do x <- climb fail found (chain v) ;
      match x with
      | inl f => Ok (Some f)
      | inr found => match usable found with Some f => Ok (Some f) | None => over fail found r end
      end
  end.

(** find_cache_root, 1127-1153; the parts from the last *)
Fixpoint find_root (fail : bool) (abs : bool) (rparts : list str) : res (option ppath) :=
  let p := mkPP abs (rev rparts) in
  if broken p then match rparts with [] => Err OutOfFuel | _ :: r => find_root fail abs r end
  else over fail None (variants p).
Definition find_cache_root (fail : bool) (p : ppath) : res (option ppath) :=
  find_root fail (pp_abs p) (rev (pp_parts p)).

(** [parent_cache.anchor] *)
Variable anchor : res ppath.

(** skip_cache, 1155-1173 *)
Definition skip_cache (p : ppath) : res bool :=
  do c <- cache p ;
  if c then Ok true                                                      (* 1171-1173 *)
  else
    do pc <- cache (pp_parent p) ;
    do rel <- (if pc then do a <- anchor ; relative_to p a
               else do r <- find_cache_root true p ;
                    match r with Some q => relative_to p q | None => Err TypeError end) ;
    match parts rel with
    | [] => Err IndexError
    | x :: _ => Ok (existsb (str_eqb x) cache_ignore)
    end.
End Root.
