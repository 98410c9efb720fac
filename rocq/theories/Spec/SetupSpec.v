(** * What a setup.py does, seen from outside *)
From Coq Require Import String NArith ZArith Bool List.
From Verif Require Import Model.Py Model.PurePath Model.Fs Model.Setup Spec.FsSpec Spec.PackageFolderSpec.
Import ListNotations.

(** The effects of a setup.py on files, how it ends, and the calls of [setup] that it
    makes itself, in their order. *)
Inductive does {C} : script C -> world -> res unit -> list C -> world -> Prop :=
| does_done w : does Done w (Ok tt) [] w
| does_do m k w w1 r l w2 : m w = (Ok tt, w1) -> does k w1 r l w2 -> does (Do m k) w r l w2
| does_fail m k w e w1 : m w = (Err e, w1) -> does (Do m k) w (Err e) [] w1
| does_level z k w r l w1 : does k w r l w1 -> does (Level z k) w r l w1
| does_call c k w r l w1 : does k w r l w1 -> does (Call c k) w r (c :: l) w1
| does_other s k w l c w1 r l2 w2 : does s w (Ok tt) (l ++ [c]) w1 -> does k w1 r l2 w2 -> does (Other s k) w r l2 w2
| does_other_none s k w w1 : does s w (Ok tt) [] w1 -> does (Other s k) w (Err TypeError) [] w1
| does_other_fail s k w e l w1 : does s w (Err e) l w1 -> does (Other s k) w (Err e) [] w1.

(** What the caller of a setup.py is given: the last call. *)
Definition outcome {C} (r : res unit) (l : list C) (o : res C) : Prop :=
  match r with
  | Err e => o = Err e
  | Ok _ => match l with [] => o = Err TypeError | _ => exists l' c, l = l' ++ [c] /\ o = Ok c end
  end.

(** The path whose directories are searched for a setup.py: the path itself, or that of
    the place it leads to if it is not straight. *)
Definition names (fs : node) (cwd : place) (p q : ppath) : Prop :=
  (straight p /\ q = p) \/ (~ straight p /\ exists l n, walk fs cwd true p = Found l n /\ q = mkPP true l).
