(** * The data directory of a cache *)
From Coq Require Import String NArith Bool List.
From Verif Require Import Model.Py Model.PurePath Model.Fs Model.PathOps Model.Cache.
Import ListNotations.

(** _CachePath.local_data_dir and local_objects_dir, caches.py:171-178, with
    LOCAL_DATA_DIR of utils.py:27; [anchor] is [self.anchor.local] *)
Definition local_data_dir (anchor : ppath) : ppath := child anchor $".operations".
Definition local_objects_dir (anchor : ppath) : ppath := child (local_data_dir anchor) $"objects".

Section DataDir.
(** What resolve answers where more than the last name is missing; not modelled. *)
Variable far : node -> place -> ppath -> res ppath.

(** AugmentedPath.resolve, core.py:474-481: pathlib's [resolve(strict=False)], where a
    loop of links is a RuntimeError. *)
Definition p_resolve (p : ppath) : M ppath :=
  ask (fun fs cwd => match walk fs cwd true p with
                     | Found q _ => Ok (mkPP true q)
                     | Missing d x => Ok (mkPP true (d ++ [x]))
                     | Fail ELOOP => Err RuntimeErr
                     | Fail _ => far fs cwd p
                     end).

(** [mkdir(exist_ok=...)] of pathlib *)
Definition p_mkdir (exist_ok : bool) (p : ppath) : M unit := mkdir_parents 0 exist_ok p.

(** local_data_dir_init, caches.py:186-227.  [trash] is None where the class has no
    trash (132-135: NotImplementedError).  Messages and the log are left out; readlink
    is called for a message. *)
Definition local_data_dir_init (anchor : ppath) (trash : option ppath) (exist_ok : bool) (symlink_objects_to : option ppath) : M unit :=
  let! _ <- p_mkdir exist_ok (local_data_dir anchor) ;
  let lod := local_objects_dir anchor in
  let trashes := match trash with Some t => p_mkdir exist_ok t | None => ret tt end in
  match symlink_objects_to with
  | Some target =>
      let! l <- p_is_symlink lod ;
      if l then
        let! _ <- sys_readlink lod ;
        let! a <- p_resolve lod ;
        let! b <- p_resolve target ;
        if pp_eqb a b then ret tt else raise (OSErr ENOTDIR)
      else
        let! e <- p_exists lod ;
        let! _ <- when e (sys_rmdir lod) ;
        let! _ <- sys_symlink (pp_str target) lod ;
        trashes
  | None =>
      let! _ <- p_mkdir exist_ok lod ;
      trashes
  end.
End DataDir.
