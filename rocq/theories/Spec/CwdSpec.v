(** * Histories of the directory stack and blocks *)
From Coq Require Import String NArith ZArith Bool List.
From Verif Require Import Model.Py Model.PurePath Model.Fs Model.PathOps Model.Cwd Spec.FsSpec.
Import ListNotations.

Inductive step : Type := Push (p : ppath) | Pop.

(** Every push has its pop. *)
Inductive balanced : list step -> Prop :=
| bal_nil : balanced []
| bal_push p a b : balanced a -> balanced b -> balanced (Push p :: a ++ Pop :: b).

(** The calls, one after the other, up to the first exception. *)
Fixpoint history (l : list step) (stack : list ppath) (w : world) : res unit * list ppath * world :=
  match l with
  | [] => (Ok tt, stack, w)
  | Push p :: r =>
      match pushd p stack w with
      | (Ok _, stack, w) => history r stack w
      | (Err e, stack, w) => (Err e, stack, w)
      end
  | Pop :: r =>
      match popd 0 stack w with
      | (Ok _, stack, w) => history r stack w
      | (Err e, stack, w) => (Err e, stack, w)
      end
  end.

(** Only the current directory is another one. *)
Definition moved (q : place) (w w' : world) : Prop :=
  w_fs w' = w_fs w /\ w_cwd w' = q /\ w_hist w' = w_hist w /\ w_fault w' = w_fault w.

(** A path that leads to a directory when links are followed. *)
Definition dir_by (fs : node) (cwd : place) (p : ppath) (q : place) : Prop :=
  exists xs es, walk fs cwd true p = Found q (Dir xs es).

(** The block is not used again inside. *)
Fixpoint uses (o : nat) (p : prog) : Prop :=
  match p with
  | Act _ => False
  | Seq a b => uses o a \/ uses o b
  | With o' body | WithCache o' body => o = o' \/ uses o body
  end.

(** A block of a path, or of a cache *)
Definition block (cache : bool) (o : nat) (body : prog) : prog := if cache then WithCache o body else With o body.
