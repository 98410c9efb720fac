(** * All that is below a cache: PrimaryCache.rchildren, /repo/augpathlib/caches.py:1447-1459,
    with _make_child, caches.py:322-333, and _cache_setter, remotes.py:328-341

    To the end of the generator, over what [self.remote.rchildren] lists.  Simplified as in
    Model/RemoteInit.v: a remote is where it is below that of the cache. *)
From Coq Require Import String NArith ZArith Bool List.
From Verif Require Import Model.Py Model.PurePath Model.Meta Model.Fs Model.Cache Model.CacheChildren Model.RemoteInit.
Import ListNotations.

Section Rchildren.
Variable K : conf.
Variable self : ppath.
Variable far : list str -> kid.          (* the remote at those names below that of the cache *)

Fixpoint cache_rchildren (l : list (list str)) : M (list ppath) :=
  match l with
  | [] => ret []
  | ps :: r =>
      let! m <- lift (k_metadata (far ps)) ;                             (* remotes.py:337 *)
      let! _ <- meta_updater (conf_for K (far ps)) (here self ps) m true ;
      let! qs <- cache_rchildren r ;
      ret (here self ps :: qs)
  end.
End Rchildren.
