(** * rmtree while somebody else changes the tree: /repo/augpathlib/core.py:650-706

    [rmtree] of [PathOps], with what others do to the file system before each of its system calls.  Simplified as
    there; [fuel] is the number of levels it goes down, any number, since others may make the tree deeper. *)
From Coq Require Import String NArith ZArith Bool List.
From Verif Require Import Model.Py Model.PurePath Model.Fs Model.PathOps.
Import ListNotations.

Section Race.
(** What others do to the file system before the call of that number *)
Variable others : nat -> node -> node.

Definition meanwhile (w : world) : world :=
  mkWorld (others (w_tick w) (w_fs w)) (w_cwd w) (w_hist w) (w_tick w) (w_fault w).
(** One system call, with what others did before it *)
Definition then_ {A} (call : M A) : M A := fun w => call (meanwhile w).

(** core.py:654-665 *)
Definition race_guard (p : ppath) (danger : bool) : M unit :=
  if negb (pp_abs p) then raise WillNotRemovePathError                    (* 654-655 *)
  else if danger then ret tt
  else let lenparts := length (parts p) in
       if Nat.leb lenparts 2 then raise WillNotRemovePathError            (* 660-661 *)
       else if (Nat.leb lenparts 3 && existsb (str_eqb $"home") (parts p))%bool
       then raise WillNotRemovePathError                                  (* 662-663 *)
       else let! c <- then_ sys_getcwd ;
            if pp_eqb p c then raise WillNotRemovePathError else ret tt.  (* 664-665 *)

(** core.py:667-706 *)
Fixpoint rmtree_race (fuel : nat) (ignore_errors danger : bool) (p : ppath) : M unit :=
  let! _ <- race_guard p danger ;
  catch
    (let! d <- then_ (p_is_dir p) ;                                       (* 668 *)
     if d then
       let! l <- then_ (p_is_symlink p) ;                                 (* 669 *)
       if l then raise (OSErr EPERM)                                      (* 672, no errno *)
       else
         let! names <- then_ (sys_listdir p) ;                            (* 680 *)
         let! _ <- each (fun x =>
             let q := child p x in
             let! l <- then_ (p_is_symlink q) ;                           (* 681 *)
             if l then then_ (sys_unlink q)                               (* 684 *)
             else match fuel with
                  | O => raise OutOfFuel
                  | S f => rmtree_race f ignore_errors danger q           (* 686-688 *)
                  end) names ;
         then_ (sys_rmdir p)                                              (* 691 *)
     else then_ (sys_unlink p))                                           (* 694 *)
    (fun e => match e with
              | WillNotRemovePathError => raise e                         (* 696-697 *)
              | OutOfFuel => raise e                                      (* not an exception of Python *)
              | _ => if ignore_errors then ret tt else raise e            (* 699-706 *)
              end).
End Race.
