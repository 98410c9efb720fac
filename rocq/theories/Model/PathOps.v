(** * File operations of paths: /repo/augpathlib/core.py:425-469, 534-746 *)
From Coq Require Import String NArith ZArith Bool List.
From Verif Require Import Model.Py Model.PurePath Model.Fs.
Import ListNotations.

(** [_ignore_error], core.py:46-47 with [_IGNORED_ERROS] of 34 *)
Definition ignored (e : exn) : bool :=
  match e with OSErr ENOENT | OSErr ENOTDIR | OSErr ELOOP => true | _ => false end.

(** The tests of pathlib (3.11) ignore the same errors: core.py:66-75.  A
    ValueError for a NUL byte in the path cannot occur here. *)
Definition test (m : M node) (f : node -> bool) : M bool :=
  catch (let! n <- m ; ret (f n)) (fun e => if ignored e then ret false else raise e).

(** exists, core.py:425-436 *)
Definition p_exists (p : ppath) : M bool := test (sys_stat true p) (fun _ => true).
(** is_file, core.py:438-445 *)
Definition p_is_file (p : ppath) : M bool :=
  test (sys_stat true p) (fun n => match n with File _ _ => true | _ => false end).
(** is_dir, core.py:447-454 *)
Definition p_is_dir (p : ppath) : M bool :=
  test (sys_stat true p) (fun n => match n with Dir _ _ => true | _ => false end).
(** is_symlink, core.py:456-463 *)
Definition p_is_symlink (p : ppath) : M bool :=
  test (sys_stat false p) (fun n => match n with Link _ => true | _ => false end).
(** is_broken_symlink, core.py:465-469 *)
Definition p_is_broken_symlink (p : ppath) : M bool :=
  let! l <- p_is_symlink p ;
  if l then let! e <- p_exists p ; ret (negb e) else ret false.

(** [p / name] for a name that was listed *)
Definition child (p : ppath) (x : str) : ppath := mkPP (pp_abs p) (pp_parts p ++ [x]).

Definition pp_eqb (a b : ppath) : bool :=
  (Bool.eqb (pp_abs a) (pp_abs b) && list_eqb str_eqb (pp_parts a) (pp_parts b))%bool.

(** ** rmtree, core.py:650-706
    For paths that are not caches (674 [hasattr(self, 'local')]) and without an
    [onerror] callback (RmtreeOn has that).  [fuel] bounds the nesting. *)
Definition rmtree_guard (p : ppath) (danger : bool) : M unit :=
  if negb (pp_abs p) then raise WillNotRemovePathError                    (* 654-655 *)
  else if danger then ret tt
  else let lenparts := length (parts p) in
       if Nat.leb lenparts 2 then raise WillNotRemovePathError            (* 660-661 *)
       else if (Nat.leb lenparts 3 && existsb (str_eqb $"home") (parts p))%bool
       then raise WillNotRemovePathError                                  (* 662-663 *)
       else let! c <- sys_getcwd ;
            if pp_eqb p c then raise WillNotRemovePathError else ret tt.  (* 664-665 *)

Fixpoint rmtree (fuel : nat) (ignore_errors danger : bool) (p : ppath) : M unit :=
  let! _ <- rmtree_guard p danger ;
  catch
    (let! d <- p_is_dir p ;
     if d then
       let! l <- p_is_symlink p ;
       if l then raise (OSErr EPERM)                                      (* 669-672, no errno *)
       else
         let! names <- sys_listdir p ;                                    (* 680 *)
         let! _ <- each (fun x =>
             let q := child p x in
             let! l <- p_is_symlink q ;
             if l then sys_unlink q                                       (* 681-684 *)
             else match fuel with
                  | O => raise OutOfFuel
                  | S f => rmtree f ignore_errors danger q                (* 686-688 *)
                  end) names ;
         sys_rmdir p                                                      (* 691 *)
     else sys_unlink p)                                                   (* 694 *)
    (fun e => match e with
              | WillNotRemovePathError => raise e                         (* 696-697 *)
              | OutOfFuel => raise e                                      (* not an exception of Python *)
              | _ => if ignore_errors then ret tt else raise e            (* 699-706 *)
              end).

(** Directories are at most that deep. *)
Fixpoint depth (n : node) : nat :=
  match n with
  | Dir _ es => S (fold_right (fun e m => Nat.max (depth (snd e)) m) 0%nat es)
  | _ => 0%nat
  end.
(** An argument: a bool, or something else. *)
Inductive pyarg : Set := ABool (b : bool) | AOther (v : pyval).
(** [v is True], core.py:657 *)
Definition is_True (v : pyarg) : bool := match v with ABool true => true | _ => false end.
(** [p.rmtree(ignore_errors=ig, DANGERZONE=dz)] *)
Definition p_rmtree (ig : bool) (dz : pyarg) (p : ppath) : M unit :=
  fun w => rmtree (depth (w_fs w)) ig (is_True dz) p w.
