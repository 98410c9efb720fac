(** * Extended attributes and sparse marks: /repo/augpathlib/core.py:281-321, 929-965 *)
From Coq Require Import String NArith ZArith Bool List.
From Coq Require Import Init.Byte.
From Verif Require Import Model.Py Model.PurePath Model.Fs Model.PathOps.
Import ListNotations.

(** [namespace='user'], core.py:45, 52 *)
Definition xkey (k : str) : str := $"user." ++ k.
(** SPARSE_KEY, core.py:32 and utils.py:29 *)
Definition sparse_key : str := $"augpathlib.sparse".

(** delxattr, core.py:286-291 *)
Definition p_delxattr (p : ppath) (k : str) (fail : bool) : M unit :=
  catch (sys_removexattr p (xkey k))
        (fun e => match e with
                  | OSErr ENODATA => if fail then raise e else ret tt
                  | _ => raise e
                  end).
(** setxattr, core.py:293-300, for a value that is bytes *)
Definition p_setxattr (p : ppath) (k : str) (v : bytes) : M unit := sys_setxattr p (xkey k) v.
(** getxattr, core.py:306-314.  The module [errno] of Python has no [ENOATTR] on
    Linux, so every other OSError ends in an AttributeError in line 311. *)
Definition p_getxattr (p : ppath) (k : str) : M bytes :=
  catch (sys_getxattr p (xkey k))
        (fun e => match e with
                  | OSErr ENODATA => raise NoStreamErr
                  | OSErr _ => raise AttributeError
                  | _ => raise e
                  end).

(** EatPath._sparse_root, core.py:943-956.  For a cache [self.local] is the same
    path, so both branches of 944-950 come to this. *)
Fixpoint sparse_root (fuel : nat) (p : ppath) : M (option bool) :=
  let parent := pp_parent p in
  if pp_eqb p parent then ret None                                       (* 952 *)
  else catch (let! v <- p_getxattr p sparse_key ; ret (Some (bytes_eqb v [x31])))
             (fun e => match e with
                       | NoStreamErr => match fuel with O => raise OutOfFuel | S f => sparse_root f parent end
                       | _ => raise e
                       end).
(** is_sparse, core.py:958-959 *)
Definition p_is_sparse (p : ppath) : M bool :=
  let! r <- sparse_root (length (pp_parts p)) p ;
  ret (match r with None => false | Some _ => true end).
(** _clear_sparse, _mark_sparse, core.py:961-965 *)
Definition p_clear_sparse (p : ppath) : M unit := p_delxattr p sparse_key false.
Definition p_mark_sparse (p : ppath) : M unit := p_setxattr p sparse_key [x31].

(** CachePath._sparse_root and is_sparse, caches.py:376-380, for caches that do not
    keep their attributes in extended attributes.  [marker]: what [(self /
    self._sparse_marker).exists()] gives. *)
Definition c_sparse_root (is_root : bool) (marker : M bool) : M (option bool) :=
  if is_root then ret (Some false) else let! b <- marker ; ret (Some b).
Definition c_is_sparse (is_root : bool) (marker : M bool) : M bool :=
  let! r <- c_sparse_root is_root marker ; ret (match r with None => false | Some _ => true end).
