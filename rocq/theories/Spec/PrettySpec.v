(** * What a diff of two metadata values should show *)
From Coq Require Import String NArith ZArith Bool List.
From Verif Require Import Model.Py Model.Meta.
Import ListNotations.

Section Dates.
Variable dateparse : pyval -> res pyval.

(** The metadata has a value for the field. *)
Definition present (m : pathmeta) (f : field) (v : pyval) : Prop :=
  getf dateparse m f = Ok v /\ v <> PNone /\ v <> PStrs [].

(** A cell of a row about the field. *)
Definition cell (m : pathmeta) (f : field) (c : option (field * pyval)) : Prop :=
  match c with Some (f', v) => f' = f /\ present m f v | None => forall v, ~ present m f v end.

Definition row := (option (field * pyval) * option (field * pyval))%type.

(** Every field of either side has a row with what both sides have for it, and
    every row is such a row. *)
Definition complete (m o : pathmeta) (out : list row) : Prop :=
  (forall f v, present m f v \/ present o f v ->
     exists c d, In (c, d) out /\ cell m f c /\ cell o f d) /\
  (forall c d, In (c, d) out -> exists f, cell m f c /\ cell o f d).

Definition has_field (m : pathmeta) (f : field) : Prop := exists v, present m f v.

(** Reading any field gives a value. *)
Definition readable (m : pathmeta) : Prop := forall f, exists v, getf dateparse m f = Ok v.

(** The order in which fields are listed. *)
Definition order : list field :=
  [Fsize; Fcreated; Fupdated; Fchecksum; Fchecksum_cypher; Fetag; Fchunksize; Fparent_id; Fid;
   Ffile_id; Fgid; Fuser_id; Fmode; Fname; Fold_id; Fmulti; Ferrors].
(** [l] are the fields of [m], in order. *)
Definition listing (m : pathmeta) (l : list field) : Prop :=
  exists p, (forall f, p f = true <-> has_field m f) /\ l = filter p order.
End Dates.

(** How many of [long] come before the first that is in [short] too. *)
Fixpoint lead (long short : list field) : nat :=
  match long with
  | [] => 0
  | f :: r => if existsb (field_eqb f) short then 0 else S (lead r short)
  end.

(** Where a field is in a listing. *)
Definition at_ (l : list field) (f : field) (i : nat) : Prop := nth_error l i = Some f.

(** The longer and the shorter listing; on a tie the second is the longer. *)
Definition longer (x y : list field) : list field := if Nat.ltb (length y) (length x) then x else y.
Definition shorter (x y : list field) : list field := if Nat.ltb (length y) (length x) then y else x.
