(** * cache_init of a remote, /repo/augpathlib/remotes.py:291-304

    Simplified: a remote is where it is below the remote of the anchor (the names that
    _parts_relative_to gives); what the objects remember of each other is not modelled
    (that is Model/Triangle.v); the remote answers each question the same way during a call. *)
From Coq Require Import String NArith ZArith Bool List.
From Verif Require Import Model.Py Model.PurePath Model.Meta Model.Fs Model.Cache Model.CacheChildren Model.MkdirRemote.
Import ListNotations.

Section Init.
Variable K : conf.
Variable anchor : ppath.                 (* [_cache_anchor] *)
Variable far : list str -> kid.          (* the remote at those names below that of the anchor *)

(** [self._cache_anchor / self], remotes.py:293: __truediv__ of a remote, caches.py:233-256,
    _make_child, caches.py:322-333, and _cache_setter, remotes.py:328-341 *)
Definition here (ps : list str) : ppath := mkPP (pp_abs anchor) (pp_parts anchor ++ ps).
Definition attempt (ps : list str) : M ppath :=
  let! _ <- cache_meta K (pp_parent anchor) ;                            (* 239 *)
  catch (let! m <- lift (k_metadata (far ps)) ;
         let! _ <- meta_updater (conf_for K (far ps)) (here ps) m true ;
         ret (here ps))
        (fun e => match e with AttributeError => raise AugPathlibErr | _ => raise e end).

(** [parent_cache.local.cache_init(parent.meta)], remotes.py:300; cache_init, core.py:1042-1062.
    Metadata that is None is made the id of new metadata (1057-1058), which then says nothing. *)
Definition init_above (ps : list str) : M unit :=
  let! m <- lift (k_metadata (far ps)) ;
  let! x <- match m with Some x => ret x | None => lift (meta_init no_args) end ;
  cache_init_meta (conf_for K (far ps)) (here ps) x.

(** The first [n] names of [ps]: the parent of a remote has one name less.  That of the anchor
    is not below it (313-326, TypeError or ValueError of _parts_relative_to; RuntimeErr stands for that). *)
Fixpoint far_init (parents : bool) (ps : list str) (n : nat) : M ppath :=
  catch (attempt (firstn n ps))
    (fun e => match e with
              | OSErr ENOENT =>                                          (* 294 *)
                  if parents then
                    match n with
                    | O => raise RuntimeErr
                    | S k => let! _ <- far_init parents ps k ;           (* 299 *)
                             let! _ <- init_above (firstn k ps) ;        (* 300 *)
                             attempt (firstn n ps)                       (* 302: parents=False *)
                    end
                  else raise e                                           (* 304 *)
              | _ => raise e
              end).
Definition cache_init (parents : bool) (ps : list str) : M ppath := far_init parents ps (length ps).
End Init.
