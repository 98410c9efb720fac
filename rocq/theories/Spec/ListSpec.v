(** * What a listing has to be *)
From Coq Require Import String NArith ZArith Bool List.
From Verif Require Import Model.Py Model.PurePath Model.Fs Spec.FsSpec.
Import ListNotations.

(** The path to what is [r] below [p]. *)
Definition under (p : ppath) (r : place) : ppath := mkPP (pp_abs p) (pp_parts p ++ r).

(** [p] leads to the directory [R], through links if there are any. *)
Definition opens (fs : node) (cwd : place) (p : ppath) (R : place) : Prop :=
  exists xs es, walk fs cwd true p = Found R (Dir xs es).

(** All that is below the directory [R], called by paths below [p], but only what is
    to be kept; once each, and nothing before the directory it is in. *)
Record lists (fs : node) (p : ppath) (R : place) (keep : place -> Prop) (l : list ppath) : Prop := {
  lists_all : forall q, In q l <-> exists r, q = under p r /\ r <> [] /\ look fs (R ++ r) <> None /\ keep r;
  lists_once : NoDup l;
  lists_order : forall l1 l2 r x, l = l1 ++ under p (r ++ [x]) :: l2 -> r = [] \/ In (under p r) l1
}.

(** The names that are kept out of the way at the anchor. *)
Definition ours (x : str) : Prop := x = $".operations" \/ x = $".sparse" \/ x = $".git".

(** It is not, and is not in, one of these. *)
Definition not_ours (r : place) : Prop := match r with x :: _ => ~ ours x | [] => True end.

(** Calls that fail do not fail because something may not be read. *)
Definition never_denied (fault : nat -> option exn) : Prop :=
  forall t, fault t <> Some (OSErr EACCES) /\ fault t <> Some (OSErr EPERM).
Definition is_fault (fault : nat -> option exn) (e : exn) : Prop := exists t, fault t = Some e.

(** A name that is one of ours with one more dot and something after it. *)
Definition namesake (x : str) : Prop :=
  exists y e, ours y /\ x = y ++ chr "." :: e /\ e <> [] /\ ~ In (chr ".") e.
(** No link at the top leads to a directory. *)
Definition no_dir_link (fs : node) (cwd : place) (p : ppath) (R : place) : Prop :=
  forall x t S, look fs (R ++ [x]) = Some (ALink t) -> ~ opens fs cwd (under p [x]) S.
