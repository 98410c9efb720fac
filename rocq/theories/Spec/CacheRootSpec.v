(** * The tree a path is in *)
From Coq Require Import List.
From Verif Require Import Model.Py Model.PurePath.
Import ListNotations.

(** [q] is [p], or a directory on the way to it. *)
Definition at_or_above (q p : ppath) : Prop := pp_abs q = pp_abs p /\ exists r, pp_parts p = pp_parts q ++ r.

(** [q] is the last with a cache on the way up from [p]. *)
Definition topmost (cached : ppath -> Prop) (p q : ppath) : Prop :=
  at_or_above q p /\ cached q /\ forall u, at_or_above u q -> cached u -> u = q.

(** The root of the tree [p] is in: from the nearest with a cache up as long as there
    are caches. *)
Definition root_of (cached : ppath -> Prop) (p q : ppath) : Prop :=
  exists n, at_or_above n p /\ cached n /\
    (forall u, at_or_above u p -> at_or_above n u -> cached u -> u = n) /\
    at_or_above q n /\
    (forall u, at_or_above u n -> at_or_above q u -> cached u) /\
    (pp_parts q <> [] -> ~ cached (pp_parent q)).

(** Caches on the way to [p] are in one tree: what is between two of them has one. *)
Definition one_tree (cached : ppath -> Prop) (p : ppath) : Prop :=
  forall a b c, at_or_above a b -> at_or_above b c -> at_or_above c p -> cached a -> cached c -> cached b.

(** [p] is below [a], in the entry [x] of it. *)
Definition in_entry (a p : ppath) (x : str) : Prop :=
  pp_abs a = pp_abs p /\ exists r, pp_parts p = pp_parts a ++ x :: r.
