(** * The current directory: /repo/augpathlib/core.py:708-746,
    caches.py:38-44 *)
From Coq Require Import String NArith ZArith Bool List.
From Verif Require Import Model.Py Model.PurePath Model.Fs Model.PathOps.
Import ListNotations.

(** chdir, core.py:708-709 *)
Definition p_chdir (p : ppath) : M unit := sys_chdir p.

(** ** The directory stack
    [AugmentedPath._stack] is an attribute of the class: one list for all paths.
    A step gives its result, the stack and the world afterwards. *)
Definition S_ (A : Type) : Type := list ppath -> world -> res A * list ppath * world.

(** pushd, core.py:711-717; the texts that are printed are left out, the calls made
    to print them are not *)
Definition pushd (p : ppath) : S_ unit :=
  fun stack w =>
    match p_is_dir p w with
    | (Err e, w1) => (Err e, stack, w1)
    | (Ok false, w1) => (Err (OSErr ENOTDIR), stack, w1)                 (* 717 *)
    | (Ok true, w1) =>
        match sys_getcwd w1 with
        | (Err e, w2) => (Err e, stack, w2)
        | (Ok c, w2) =>
            let stack := stack ++ [c] in                                 (* 713 *)
            match p_chdir p w2 with
            | (Err e, w3) => (Err e, stack, w3)
            | (Ok _, w3) =>
                match sys_getcwd w3 with                                 (* 715 *)
                | (Err e, w4) => (Err e, stack, w4)
                | (Ok _, w4) => (Ok tt, stack, w4)
                end
            end
        end
    end.

(** [l.pop(i)] *)
Definition py_pop {A} (l : list A) (i : Z) : res (A * list A) :=
  let j := if (i <? 0)%Z then (i + Z.of_nat (length l))%Z else i in
  if (j <? 0)%Z then Err IndexError
  else match skipn (Z.to_nat j) l with
       | [] => Err IndexError
       | x :: r => Ok (x, firstn (Z.to_nat j) l ++ r)
       end.

(** popd, core.py:719-731; [n] is not used there *)
Definition popd (N : Z) : S_ (option ppath) :=
  fun stack w =>
    match stack with
    | [] => (Ok None, stack, w)                                          (* 731 *)
    | _ =>
        match py_pop stack (- (N + 1)) with                              (* 724-726 *)
        | Err e => (Err e, stack, w)
        | Ok (path, stack) =>
            match p_chdir path w with
            | (Err e, w1) => (Err e, stack, w1)
            | (Ok _, w1) =>
                match sys_getcwd w1 with                                 (* 728 *)
                | (Err e, w2) => (Err e, stack, w2)
                | (Ok _, w2) => (Ok (Some path), stack, w2)
                end
            end
        end
    end.

(** ** [with path:]
    Path objects are numbered, [path_at] gives their paths; the attribute
    [_entered_from] of each is kept in [objs]. *)
Definition objs : Type := nat -> option ppath.
Definition set_obj (o : nat) (p : ppath) (s : objs) : objs := fun x => if Nat.eqb x o then Some p else s x.

(** Programs with such blocks; [Act] is whatever else is done. *)
Inductive prog : Type :=
| Act (m : M unit)
| Seq (a b : prog)
| With (o : nat) (body : prog)
| WithCache (o : nat) (body : prog).         (* the object is a cache path *)

Section Run.
Variable path_at : nat -> ppath.

(** __enter__, core.py:733-739; that of pathlib does nothing *)
Definition enter (o : nat) (s : objs) (w : world) : res unit * objs * world :=
  match p_is_dir (path_at o) w with
  | (Err e, w1) => (Err e, s, w1)
  | (Ok false, w1) => (Ok tt, s, w1)
  | (Ok true, w1) =>
      match sys_getcwd w1 with
      | (Err e, w2) => (Err e, s, w2)
      | (Ok c, w2) =>
          let s := set_obj o c s in                                      (* 735 *)
          let (r, w3) := p_chdir (path_at o) w2 in (r, s, w3)
      end
  end.

(** __enter__ of a cache path, caches.py:38-44: what is no directory is handed on with
    one argument too many *)
Definition cache_enter (o : nat) (s : objs) (w : world) : res unit * objs * world :=
  match p_is_dir (path_at o) w with
  | (Err e, w1) => (Err e, s, w1)
  | (Ok false, w1) => (Err TypeError, s, w1)                             (* 44 *)
  | (Ok true, w1) =>
      match sys_getcwd w1 with                                           (* 40: [self.local.cwd()] *)
      | (Err e, w2) => (Err e, s, w2)
      | (Ok c, w2) =>
          let s := set_obj o c s in
          let (r, w3) := p_chdir (path_at o) w2 in (r, s, w3)
      end
  end.

(** __exit__, core.py:741-746, also of caches; that of pathlib does nothing *)
Definition exit_ (o : nat) (s : objs) (w : world) : res unit * world :=
  match s o with
  | Some c => p_chdir c w
  | None => (Ok tt, w)
  end.

Fixpoint run (p : prog) (s : objs) (w : world) : res unit * objs * world :=
  match p with
  | Act m => let (r, w) := m w in (r, s, w)
  | Seq a b => match run a s w with
               | (Ok _, s, w) => run b s w
               | (Err e, s, w) => (Err e, s, w)
               end
  | With o body =>
      match enter o s w with
      | (Err e, s, w) => (Err e, s, w)
      | (Ok _, s, w) =>
          let '(r, s, w) := run body s w in
          match exit_ o s w with
          | (Err e, w) => (Err e, s, w)
          | (Ok _, w) => (r, s, w)
          end
      end
  | WithCache o body =>
      match cache_enter o s w with
      | (Err e, s, w) => (Err e, s, w)
      | (Ok _, s, w) =>
          let '(r, s, w) := run body s w in
          match exit_ o s w with
          | (Err e, w) => (Err e, s, w)
          | (Ok _, w) => (r, s, w)
          end
      end
  end.
End Run.
