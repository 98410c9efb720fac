(** * Trees of paths *)
From Coq Require Import List.
From Verif Require Import Model.Py Model.PurePath.
Import ListNotations.

(** [q] is one step, or some steps, down from [p]. *)
Definition right_below (p q : ppath) : Prop :=
  pp_abs p = pp_abs q /\ exists x, pp_parts q = pp_parts p ++ [x].
Definition deep_below (p q : ppath) : Prop :=
  pp_abs p = pp_abs q /\ exists x l, pp_parts q = pp_parts p ++ x :: l.

(** The archive has an entry for [p], or for something below it. *)
Definition implied (entries : list ppath) (p : ppath) : Prop :=
  In p entries \/ exists q, In q entries /\ deep_below p q.

(** [p] is [z], or below it. *)
Definition at_or_below (z p : ppath) : Prop := p = z \/ deep_below z p.

(** A path is taken for an archive: it is one, or it has the name of one and is not
    below another. *)
Definition archive (is_zip named : ppath -> bool) (z : ppath) : Prop :=
  pp_parts z <> [] /\
  (is_zip z = true \/ named z = true /\ forall q, deep_below q z -> pp_parts q <> [] -> is_zip q = false /\ named q = false).
