(** * Making a directory at the remote and here: /repo/augpathlib/core.py:1042-1062, 1084-1125

    Simplified: a cache that was found is asked again each time; [remote.meta] is what
    [_mkdir_child] knew.  [_mkdir_child] belongs to the subclass of the remote
    (remotes.py:991-992 is NotImplementedError) and is not modelled. *)
From Coq Require Import String NArith Bool List.
From Verif Require Import Model.Py Model.PurePath Model.RelPath Model.Meta Model.Fs Model.PathOps Model.Cache Model.DataDir.
Import ListNotations.

(** A directory made at the remote: the id of the one it is in, its name, its metadata *)
Record made : Type := mkMade { b_in : pyval; b_name : str; b_meta : pathmeta }.

(** Steps on both sides; on the other one there is what was made, in order. *)
Definition both (A : Type) : Type := list made -> world -> res A * (list made * world).
Definition bret {A} (a : A) : both A := fun l w => (Ok a, (l, w)).
Definition braise {A} (e : exn) : both A := fun l w => (Err e, (l, w)).
Definition bbind {A B} (m : both A) (f : A -> both B) : both B :=
  fun l w => match m l w with
             | (Ok a, (l1, w1)) => f a l1 w1
             | (Err e, lw) => (Err e, lw)
             end.
Definition near {A} (m : M A) : both A := fun l w => let (r, w1) := m w in (r, (l, w1)).

Notation "'let+' x <- a ; b" := (bbind a (fun x => b)) (at level 200, x pattern, a at level 100, b at level 200, right associativity).

(** [p.parents], the nearest first *)
Definition above_path (p : ppath) : list ppath :=
  map (fun k => mkPP (pp_abs p) (firstn k (pp_parts p))) (rev (seq 0 (length (pp_parts p)))).

Section MkdirRemote.
Variable K : conf.
Variable configured : bool.                               (* there is a remote class, caches.py:652-655 *)
Variable anchored : bool.                                 (* and it has an anchor *)
Variable exists_far : list made -> pyval -> res bool.     (* [exists()] of the remote with that id *)
Variable child_far : list made -> pyval -> str -> res pathmeta.   (* [_mkdir_child(name)] of it, and [meta] of what it gives *)

(** cache_init with metadata, core.py:1042-1062; the cache is made by CachePath.__init__,
    caches.py:1033-1046 *)
Definition cache_init_meta (p : ppath) (n : pathmeta) : M unit :=
  let! m <- cache_meta K p ;
  if meta_true m then raise CacheExistsErr
  else
    let! e <- p_exists p ;
    if negb e then raise ValueError
    else if meta_bool n then let! _ <- meta_updater K p (Some n) true ; ret tt
    else match m with None => raise NoCachedMetadataError | Some _ => ret tt end.

(** [cache.remote], caches.py:632-675, of a path with a cache *)
Definition remote_of (p : ppath) : M (option pyval) :=
  let! i <- cache_id K p ;
  ret (if is_none i then None else if configured then Some i else None).

(** [remote._mkdir_child(x)]; None has none *)
Definition make_far (i : option pyval) (x : str) : both pathmeta :=
  match i with
  | None => braise AttributeError
  | Some i => fun l w => match child_far l i x with
                         | Ok m => (Ok m, (l ++ [mkMade i x m], w))
                         | Err e => (Err e, (l, w))
                         end
  end.

(** [remote._cache = p.cache], remotes.py:315-326: NotACacheClassError for None *)
Definition attach (p : ppath) : M unit :=
  let! m <- cache_meta K p ;
  match m with Some _ => ret tt | None => raise AugPathlibErr end.

(** The loop over the parts, 1110-1118 *)
Fixpoint downward (p : ppath) (parts : list str) (last : option (ppath * pathmeta)) : both (option (ppath * pathmeta)) :=
  match parts with
  | [] => bret last
  | x :: rest =>
      let+ c <- near (cache_meta K p) ;
      match c with
      | None => braise AttributeError
      | Some _ =>
          let+ i <- near (remote_of p) ;
          let+ m <- make_far i x ;
          let local := child p x in
          let+ _ <- near (p_mkdir true local) ;
          let+ _ <- near (cache_init_meta local m) ;
          downward local rest (Some (local, m))
      end
  end.

(** The loop over the parents, 1105-1123; it may end without a return. *)
Fixpoint upward (self : ppath) (l : list ppath) : both (option pathmeta) :=
  match l with
  | [] => bret None
  | p :: rest =>
      let+ c <- near (cache_meta K p) ;
      match c with
      | None => upward self rest
      | Some _ =>
          let+ r <- near (lift (relative_path_from self p)) ;
          let+ o <- downward p (parts r) None ;
          match o with
          | None => braise UnboundLocalError
          | Some (local, m) => let+ _ <- near (attach local) ; bret (Some m)
          end
      end
  end.

(** mkdir_remote, core.py:1084-1125.  [remote.cache] of a remote that was just made is
    None where the class has an anchor, remotes.py:266-269 and 306-313, and something that
    is not None where it has not, 270-289. *)
Definition mkdir_remote (self : ppath) (up : bool) : both (option pathmeta) :=
  let+ c <- near (cache_meta K self) ;
  let+ there <- match c with
                | None => bret false
                | Some _ => let+ i <- near (remote_of self) ;
                            match i with None => bret false | Some i => fun l w => (exists_far l i, (l, w)) end
                end ;
  if there then braise RemotePathExistsErr
  else
    let+ pc <- near (cache_meta K (pp_parent self)) ;
    match pc with
    | Some _ =>
        let+ i <- near (remote_of (pp_parent self)) ;
        let+ m <- make_far i (pp_name self) ;
        let+ _ <- near (p_mkdir true self) ;
        let+ _ <- (if anchored then let+ _ <- near (cache_init_meta self m) ; near (attach self) else bret tt) ;
        bret (Some m)
    | None => if up then upward self (above_path self) else braise (OSErr ENOENT)
    end.
End MkdirRemote.
