(** * Updating a cache from its remote, and refreshing:
    /repo/augpathlib/remotes.py:349-405, 421-432, 803-805; caches.py:849-865

    Simplified: the remote class has an anchor (without one [cache] is a NullCache,
    remotes.py:266-289); breakpoints are passed over. *)
From Coq Require Import String NArith ZArith Bool List.
From Verif Require Import Model.Py Model.PurePath Model.Meta Model.Fs Model.PathOps Model.Cache.
Import ListNotations.

Section UpdateCache.
Variable K : conf.

(** What is asked of the remote: its name, [parent_id], [meta], and where
    [self.anchor / remote] leads (caches.py:943), which is of the class of the cache
    and in a directory that exists *)
Record asked : Type := mkAsked { a_name : str; a_parent : pyval; a_meta : res (option pathmeta); a_target : ppath }.

(** _parent_changed, 349-350 *)
Definition parent_changed (R : asked) (c : ppath) : M bool :=
  let! i <- cache_id K (pp_parent c) ; ret (negb (py_eq (a_parent R) i)).

(** update_cache, 356-405; [mine] is the cache the remote has, [given] the argument.
    _on_cache_move_error, 352-354, raises the error again. *)
Definition update_cache (R : asked) (mine given : option ppath) (fetch_ : bool) : M bool :=
  match mine, given with
  | Some _, Some _ => raise TypeError                                    (* 365-367 *)
  | None, None => raise AttributeError                                   (* None has no parent *)
  | Some c, None =>
      let! ch <- parent_changed R c ;
      let! m <- lift (a_meta R) ;
      let! different <- meta_updater K c m fetch_ ;
      let! _ <- when (negb (str_eqb (pp_name c) (a_name R)) || ch)
                     (let! _ <- move K c (a_target R) true ; ret tt) ;
      ret different
  | None, Some c =>
      let! ch <- parent_changed R c ;
      if negb (str_eqb (pp_name c) (a_name R)) then raise ValueError     (* 375-379 *)
      else if ch then raise ValueError                                   (* 381-385 *)
      else let! m <- lift (a_meta R) ; meta_updater K c m fetch_
  end.

(** refresh, caches.py:849-865; [remote] is what the refresh of the remote does:
    whether it gives something.  The limit made of the size is not used. *)
Definition refresh (remote : M bool) (p : ppath) : M unit :=
  let! m <- cache_meta K p ;
  match m with
  | None => raise AttributeError
  | Some m =>
      let! _ <- cache_meta K p ;
      let! _ <- (if truthy (m_size m) then let! _ <- cache_meta K p ; let! _ <- cache_meta K p ; ret tt else ret tt) ;
      let! f <- p_is_file p ;
      let! _ <- (if f then p_exists p else ret false) ;
      let! new <- remote ;
      if new then ret tt else let! _ <- crumple K p ; ret tt
  end.
(** The remotes of the package take no arguments there, remotes.py:421, 803. *)
Definition no_refresh : M bool := raise TypeError.
End UpdateCache.
