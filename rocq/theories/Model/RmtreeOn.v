(** * rmtree with [onerror]: /repo/augpathlib/core.py:650-706, without [ignore_errors]

    For paths that are not caches (674), as in Model/PathOps.v. *)
From Coq Require Import String NArith ZArith Bool List.
From Verif Require Import Model.Py Model.PurePath Model.Fs Model.PathOps.
Import ListNotations.

(** [getattr(path, ftype)] of 701-702 *)
Inductive func : Set := Rmdir | Unlink.
(** What [onerror] was called with: the function, its path and the exception. *)
Definition report : Type := func * ppath * exn.

Section On.
Variable onerror : func -> ppath -> exn -> M unit.

(** The try block, 668-694: what it gives, the variable [path] ([None]: it has no value),
    the reports of the calls in it and the world.  [rec] is 686-688. *)
Definition state : Type := res unit * option ppath * list report * world.
Fixpoint loop_on (rec : ppath -> world -> res unit * list report * world) (p : ppath) (names : list str) (v : option ppath) (l : list report) (w : world) : state :=
  match names with
  | [] => (Ok tt, v, l, w)
  | x :: r =>
      let q := child p x in
      match p_is_symlink q w with
      | (Err e, w1) => (Err e, Some q, l, w1)
      | (Ok true, w1) =>
          match sys_unlink q w1 with                                     (* 684 *)
          | (Err e, w2) => (Err e, Some q, l, w2)
          | (Ok _, w2) => loop_on rec p r (Some q) l w2
          end
      | (Ok false, w1) =>
          match rec q w1 with
          | (Err e, l2, w2) => (Err e, Some q, l ++ l2, w2)
          | (Ok _, l2, w2) => loop_on rec p r (Some q) (l ++ l2) w2
          end
      end
  end.
Definition body_on (rec : ppath -> world -> res unit * list report * world) (p : ppath) (w : world) : state :=
  match p_is_dir p w with
  | (Err e, w1) => (Err e, None, [], w1)
  | (Ok false, w1) => let (r, w2) := sys_unlink p w1 in (r, Some p, [], w2)   (* 693-694 *)
  | (Ok true, w1) =>
      match p_is_symlink p w1 with
      | (Err e, w2) => (Err e, None, [], w2)
      | (Ok true, w2) => (Err (OSErr EPERM), None, [], w2)               (* 672, no errno *)
      | (Ok false, w2) =>
          match sys_listdir p w2 with                                    (* 680 *)
          | (Err e, w3) => (Err e, None, [], w3)
          | (Ok names, w3) =>
              match loop_on rec p names None [] w3 with
              | (Ok _, _, l, w4) => let (r, w5) := sys_rmdir p w4 in (r, Some p, l, w5)   (* 690-691 *)
              | s => s
              end
          end
      end
  end.
(** 696-706 *)
Definition handle_on (s : state) : res unit * list report * world :=
  let '(r, v, l, w) := s in
  match r with
  | Ok _ => (Ok tt, l, w)
  | Err WillNotRemovePathError => (r, l, w)
  | Err OutOfFuel => (r, l, w)                                           (* not an exception of Python *)
  | Err e =>
      match v with
      | None => (Err UnboundLocalError, l, w)                            (* 701 *)
      | Some path =>
          match p_is_dir path w with
          | (Err e', w1) => (Err e', l, w1)
          | (Ok d, w1) =>
              let f := if d then Rmdir else Unlink in
              let (r, w2) := onerror f path e w1 in (r, l ++ [(f, path, e)], w2)
          end
      end
  end.
Fixpoint rmtree_on (fuel : nat) (danger : bool) (p : ppath) (w : world) : res unit * list report * world :=
  match rmtree_guard p danger w with
  | (Err e, w1) => (Err e, [], w1)
  | (Ok _, w1) =>
      handle_on (body_on (fun q w => match fuel with
                                     | O => (Err OutOfFuel, [], w)
                                     | S f => rmtree_on f danger q w
                                     end) p w1)
  end.
(** [p.rmtree(onerror=onerror, DANGERZONE=dz)] *)
Definition p_rmtree_on (dz : pyarg) (p : ppath) (w : world) : res unit * list report * world :=
  rmtree_on (depth (w_fs w)) (is_True dz) p w.
End On.
