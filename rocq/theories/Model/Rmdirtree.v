(** * Removal of empty directories: /repo/augpathlib/core.py:591-648 *)
From Coq Require Import String NArith ZArith Bool List.
From Verif Require Import Model.Py Model.PurePath Model.Fs Model.PathOps.
Import ListNotations.

(** what a directory entry says about the type *)
Inductive dtype : Set := DT_REG | DT_DIR | DT_LNK.
Definition dtype_of (n : node) : dtype :=
  match n with File _ _ => DT_REG | Dir _ _ => DT_DIR | Link _ => DT_LNK end.

(** [os.scandir], read to the end (one call in the model) *)
Definition sys_scandir (p : ppath) : M (list (str * dtype)) :=
  ask (fun fs cwd => do r <- lookup true p fs cwd ;
                     match snd r with
                     | Dir _ es => Ok (map (fun e => (fst e, dtype_of (snd e))) es)
                     | _ => fail ENOTDIR
                     end).

(** [except OSError: d] *)
Definition or_else {A} (m : M A) (d : A) : M A :=
  catch m (fun e => match e with OSErr _ => ret d | _ => raise e end).

(** The loop of [os.walk] (python 3.11, what [os.walk] of core.py:631 does): dirs,
    nondirs, and the directories to walk into; links are not walked into but count
    as directories when they lead to one.  [new]: the loop of [pathlib.Path.walk]
    (3.12, core.py:601), where links never count as directories. *)
Fixpoint classify (new : bool) (p : ppath) (l : list (str * dtype)) : M (list str * list str * list str) :=
  match l with
  | [] => ret ([], [], [])
  | (x, k) :: r =>
      let! d <- match k with
                | DT_DIR => ret true
                | DT_REG => ret false
                | DT_LNK => if new then ret false
                            else or_else (let! n <- sys_stat true (child p x) ;
                                          ret (match n with Dir _ _ => true | _ => false end)) false
                end ;
      let! (ds, fs, into) <- classify new p r ;
      ret (if d : bool then (x :: ds, fs, match k with DT_DIR => x :: into | _ => into end)
           else (ds, x :: fs, into))
  end.

(** [None]: the directory cannot be listed, it is passed over in silence *)
Definition scan (new : bool) (p : ppath) : M (option (list str * list str * list str)) :=
  let! l <- or_else (let! l <- sys_scandir p ; ret (Some l)) None ;
  match l with
  | None => ret None
  | Some l => let! r <- classify new p l ; ret (Some r)
  end.

Definition in_set (p : ppath) (s : list ppath) : bool := existsb (pp_eqb p) s.

(** 602-610, 632-640: [(has_subs, sps)] *)
Fixpoint check_subs (p : ppath) (subs : list str) (deleted sps : list ppath) : bool * list ppath :=
  match subs with
  | [] => (false, sps)
  | x :: r => if in_set (child p x) deleted then check_subs p r deleted (child p x :: sps) else (true, sps)
  end.

(** 612-618, 642-648 *)
Definition visit (p : ppath) (subs files : list str) (deleted : list ppath) : M (list ppath) :=
  let (has_subs, sps) := check_subs p subs deleted [] in
  match files, has_subs with
  | [], false =>
      let! _ <- sys_rmdir p ;
      ret (filter (fun q => negb (in_set q sps)) (p :: deleted))
  | _, _ => ret deleted
  end.

Fixpoint each_del (f : str -> list ppath -> M (list ppath)) (l : list str) (deleted : list ppath) : M (list ppath) :=
  match l with
  | [] => ret deleted
  | x :: r => let! d <- f x deleted ; each_del f r d
  end.

(** The walk from the bottom up, with what is done at each step; the set
    [deleted] is shared.  The paths are kept as paths and not as texts. *)
Fixpoint walk_up (fuel : nat) (new : bool) (p : ppath) (deleted : list ppath) : M (list ppath) :=
  let! s <- scan new p ;
  match s with
  | None => ret deleted
  | Some (subs, files, into) =>
      let! d <- each_del (fun x d => match fuel with
                                     | O => raise OutOfFuel
                                     | S f => walk_up f new (child p x) d
                                     end) into deleted ;
      visit p subs files d
  end.

(** rmdirtree, 591-618 ([new]) and 621-648 *)
Definition p_rmdirtree (new : bool) (p : ppath) : M unit :=
  fun w =>
    (let! l <- p_is_symlink p ;
     if l then raise (OSErr ENOTDIR)                   (* 597-598, 627-628 NotADirectoryError *)
     else let! _ <- walk_up (depth (w_fs w)) new p [] ; ret tt) w.
