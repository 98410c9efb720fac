(** * The children of a cache, /repo/augpathlib/caches.py:233-256, 322-333, 1435-1446,
    remotes.py:328-341

    [cache / remote] and [cache.children], python 3.10 to 3.11.  A child that the remote
    lists is at its name below the cache (_parts_relative_to of the parent itself).
    Simplified: what the two objects remember of each other is not modelled, so neither is
    the unsetting of it after an error (remotes.py:338-341); the remote answers each
    question the same way during a call. *)
From Coq Require Import String NArith ZArith Bool List.
From Verif Require Import Model.Py Model.PurePath Model.Meta Model.Fs Model.Cache.
Import ListNotations.

(** A child of the remote: its name, its metadata, where its object is stored, its data,
    and how it refreshes. *)
Record kid : Type := mkKid {
  k_name : str; k_metadata : res (option pathmeta); k_object : ppath; k_remote : remote; k_refresh : ppath -> M unit }.

(** The same class of caches, for that child *)
Definition conf_for (K : conf) (c : kid) : conf :=
  mkConf (c_dateparse K) (c_legacy K) (c_prefix K) (c_trash K) (k_object c) (c_cypher K) (c_known K) (c_digest K) (k_remote c) (k_refresh c).

(** __truediv__ of a remote, caches.py:233-256, _make_child, caches.py:322-333, and
    _cache_setter, remotes.py:328-341 *)
Definition cache_div (K : conf) (self : ppath) (c : kid) : M ppath :=
  let! _ <- cache_meta K (pp_parent self) ;                              (* 239 *)
  catch (let child := pp_join self (pp_parse (k_name c)) in              (* 305-308 *)
         let! m <- lift (k_metadata c) ;                                 (* remotes.py:337 *)
         let! _ <- meta_updater (conf_for K c) child m true ;
         ret child)
        (fun e => match e with AttributeError => raise AugPathlibErr | _ => raise e end).   (* 251-252 *)

(** children, caches.py:1435-1446, to the end of the generator: the kids that
    [self.remote.children] lists *)
Fixpoint cache_children (K : conf) (self : ppath) (l : list kid) : M (list ppath) :=
  match l with
  | [] => ret []
  | c :: r => let! p <- cache_div K self c ;
              let! ps <- cache_children K self r ;
              ret (p :: ps)
  end.
