(** * Directories that are gone from the remote *)
From Coq Require Import String NArith Bool List Permutation.
From Verif Require Import Model.Py Model.PurePath.
Import ListNotations.

(** It is here and not there. *)
Definition gone_there (here there : list ppath) (d : ppath) : Prop := In d here /\ ~ In d there.
(** The text of one begins with the text of the other. *)
Definition text_below (d e : ppath) : Prop := exists s, pp_str e = pp_str d ++ s.
(** Shorter texts first. *)
Inductive shorter_first : list ppath -> Prop :=
| shorter_nil : shorter_first []
| shorter_cons d l : (forall e, In e l -> length (pp_str d) <= length (pp_str e)) -> shorter_first l -> shorter_first (d :: l).
(** Hands out all members, each once, in some order. *)
Definition hands_out (handed : nat -> list ppath -> list ppath) : Prop := forall n l, Permutation (handed n l) l.
