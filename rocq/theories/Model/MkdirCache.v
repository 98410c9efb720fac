(** * Making the local directories above a remote: /repo/augpathlib/core.py:1064-1082

    Simplified: what the remote above says does not change between two questions. *)
From Coq Require Import String NArith Bool List.
From Verif Require Import Model.Py Model.PurePath Model.Meta Model.Fs Model.PathOps Model.Cache Model.DataDir.
Import ListNotations.

(** A remote that is a parent: the parts of [as_path()], remotes.py:461-463, and [meta] *)
Record above : Type := mkAbove { u_parts : list str; u_meta : res (option pathmeta) }.

Section Mkdir.
Variable K : conf.

(** [cc.anchor.local / parent.as_path()], 1079 *)
Definition up_local (anchor : ppath) (u : above) : ppath := mkPP (pp_abs anchor) (pp_parts anchor ++ u_parts u).

(** 1080-1082: the cache is made with a remote, CachePath.__init__, caches.py:1033-1040;
    [parent.meta] is the argument and asked for again there. *)
Definition mkdir_up (anchor : ppath) (u : above) : M unit :=
  let! e <- p_exists (up_local anchor u) ;
  if e then ret tt
  else let! _ <- p_mkdir false (up_local anchor u) ;
       let! _ <- lift (u_meta u) ;
       let! m <- lift (u_meta u) ;
       cache_set K (up_local anchor u) m.

(** mkdir_cache, 1064-1082; [parents] as the remote gives them, the nearest first *)
Definition mkdir_cache (anchor : ppath) (parents : list above) : M unit :=
  each (mkdir_up anchor) (rev parents).
End Mkdir.
