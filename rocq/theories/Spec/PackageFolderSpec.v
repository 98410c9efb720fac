(** * The innermost package of a path *)
From Coq Require Import String NArith ZArith Bool List.
From Verif Require Import Model.Py Model.PurePath Model.Fs Spec.FsSpec Spec.ZipSpec.
Import ListNotations.

(** There is a setup.py in it, a link that leads nowhere not counting. *)
Definition has_setup (fs : node) (cwd : place) (p : ppath) : Prop :=
  exists q n, walk fs cwd true (mkPP (pp_abs p) (pp_parts p ++ [$"setup.py"])) = Found q n.

(** Of [p] and the directories above it, as its text has them, [r] is the nearest with a
    setup.py. *)
Definition innermost (fs : node) (cwd : place) (p : ppath) (r : option ppath) : Prop :=
  match r with
  | Some q => at_or_below q p /\ has_setup fs cwd q /\ forall q', deep_below q q' -> at_or_below q' p -> ~ has_setup fs cwd q'
  | None => forall q, at_or_below q p -> ~ has_setup fs cwd q
  end.

(** An absolute path without ".." *)
Definition straight (p : ppath) : Prop := pp_abs p = true /\ ~ In $".." (pp_parts p).

(** Two paths that lead to the same place *)
Definition one_place (fs : node) (cwd : place) (p q : ppath) : Prop :=
  exists l n, walk fs cwd true p = Found l n /\ walk fs cwd true q = Found l n.
