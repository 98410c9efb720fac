(** * Exchange of two paths: /repo/augpathlib/core.py:534-588, swap.py *)
From Coq Require Import String NArith ZArith Bool List.
From Verif Require Import Model.Py Model.PurePath Model.Fs Model.PathOps.
Import ListNotations.

(** renameat2(2) with RENAME_EXCHANGE: a relative path starts at the place of the
    file descriptor given with it. *)
Definition sys_exchange (fa : place) (a : ppath) (fb : place) (b : ppath) : M unit :=
  sys (fun fs _ =>
    if (dot_end a || dot_end b)%bool then fail EBUSY else
    do ra <- lookup false a fs fa ;
    do rb <- lookup false b fs fb ;
    let (pa, na) := ra in
    let (pb, nb) := rb in
    match pa, pb with
    | [], _ | _, [] => fail EBUSY
    | _, _ =>
        if list_eqb str_eqb pa pb then Ok (tt, fs)
        else if (is_prefix pa pb || is_prefix pb pa)%bool then fail EINVAL
        else Ok (tt, put (put fs pa nb) pb na)
    end).

(** [os.open(p, 0)]: the descriptor is the place it leads to.  Closing it (swap.py:
    38-39) cannot fail here. *)
Definition sys_open (p : ppath) : M place :=
  ask (fun fs cwd => do r <- lookup true p fs cwd ; Ok (fst r)).

(** [os.fspath(p).encode()], swap.py:32-33: strict, so it raises for a name that is not
    UTF-8 (read as a string with surrogates). *)
Definition spelled (p : ppath) : M unit :=
  lift (match utf8_enc (pp_str p) with Some _ => Ok tt | None => Err UnicodeError end).

(** swap_linux, swap.py:28-41.  The error of 40-41 has the number -1, for which EIO stands. *)
Definition swap_linux (self target : ppath) : M unit :=
  let! old_fd <- sys_open self ;
  let! new_fd <- sys_open target ;
  let! _ <- spelled self ;
  let! _ <- spelled target ;
  catch (sys_exchange old_fd self new_fd target)
        (fun e => raise (match e with OSErr _ => OSErr EIO | _ => e end)).

(** swap, core.py:565-588.  There is one device, so 582-586 never raise by
    themselves; the two [stat] are made. *)
Definition p_swap (self target : ppath) : M unit :=
  let! se <- p_exists self ;
  let! te <- p_exists target ;
  if negb se then raise (OSErr ENOENT)
  else if negb te then raise (OSErr ENOENT)
  else let! _ <- sys_stat true self ;
       let! _ <- sys_stat true target ;
       swap_linux self target.

(** [tempfile.mkdtemp(dir=dir)] (python 3.11) with the names it tries, in order *)
Fixpoint mkdtemp (dir : ppath) (names : list str) : M ppath :=
  match names with
  | [] => raise (OSErr EEXIST)
  | x :: r =>
      catch (let! _ <- sys_mkdir (child dir x) ; ret (child dir x))
            (fun e => match e with OSErr EEXIST => mkdtemp dir r | _ => raise e end)
  end.

(** core.py:549-558 *)
Definition swap_fallback (names : list str) (self target : ppath) : M unit :=
  let! temp_dir <- mkdtemp (pp_parent target) names ;
  let temp := child temp_dir (pp_name target) in
  let! _ <- sys_rename target temp ;
  let! _ <- sys_rename self target ;
  let! _ <- sys_rename temp self ;
  sys_rmdir temp_dir.

(** swap_carefree, core.py:537-558.  Without a name [temp_dir / target.name] is
    [temp_dir] itself; [target] is then the root, which cannot be renamed. *)
Definition p_swap_carefree (names : list str) (self target : ppath) : M unit :=
  catch (p_swap self target)
        (fun e => match e with
                  | KeyboardInterrupt => raise e
                  | _ => swap_fallback names self target
                  end).
