(** * Copying a file with its metadata: /repo/augpathlib/core.py:1376-1402, 1418-1437

    Simplified: a cache that was found is asked again each time; the log message of
    1429, which reads the metadata once more, is not built. *)
From Coq Require Import String NArith ZArith Bool List.
From Verif Require Import Model.Py Model.PurePath Model.Meta Model.Fs Model.PathOps Model.Copy Model.Cache Model.MkdirRemote.
Import ListNotations.

Section CopyMeta.
Variable K : conf.

(** The setter of [data], core.py:1376-1402.  [self.cache] is None where there is no
    metadata (1020-1022), it is asked for again in 1381. *)
Definition data_set (p : ppath) (g : feed) : M unit :=
  let! m <- cache_meta K p ;
  match m with
  | Some _ => cache_set_data K p g
  | None => let! m <- cache_meta K p ;
            match m with None => write_chunks p g | Some _ => raise AssertionError end
  end.

(** LocalPath.copy_to, core.py:1418-1430 *)
Definition copy_to (fuel chunksize : nat) (self target : ppath) (force copy_cache_meta : bool) : M unit :=
  let! e <- p_exists target ;
  let! go <- (if e then ret force
              else let! l <- p_is_symlink target ; ret (if l then force else true)) ;
  let! _ <- (if go then data_set target (data_feed fuel chunksize self) else raise PathExistsErr) ;
  if copy_cache_meta then
    let! m <- cache_meta K self ;
    match m with
    | None => raise AttributeError                                       (* None has no meta, 1429 *)
    | Some m => cache_init_meta K target m
    end
  else ret tt.

(** LocalPath.copy_from, core.py:1432-1437 *)
Definition copy_from (fuel chunksize : nat) (self source : ppath) (force copy_cache_meta : bool) : M unit :=
  copy_to fuel chunksize source self force copy_cache_meta.
End CopyMeta.
