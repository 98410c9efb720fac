(** * Reading a size in human form *)
From Coq Require Import String NArith ZArith Bool List.
From Verif Require Import Model.Py.
Import ListNotations.

Definition unit_names : list str := map (fun s => $s) [""; "K"; "M"; "G"; "T"; "P"; "E"; "Z"]%string.
(** How many bytes the unit with this number has *)
Definition unit_size (k : nat) : N := (1024 ^ N.of_nat k)%N.

(** Digits, and the number they are *)
Definition numeral (d : str) (q : N) : Prop := forallb is_digit d = true /\ pnat d = Some q.

(** The text is [q] of unit [k], or [t] tenths of the unit after the last named one. *)
Definition whole (text : str) (q : N) (k : nat) : Prop :=
  exists d u, text = d ++ u /\ numeral d q /\ nth_error unit_names k = Some u.
Definition tenths (text : str) (t : N) : Prop :=
  exists d e a b, text = d ++ $"." ++ [e] ++ $"Yi" /\ numeral d a /\ numeral [e] b /\ t = (10 * a + b)%N.

(** The size the text says, in tenths of a byte *)
Definition says (text : str) (v : N) : Prop :=
  (exists q k, whole text q k /\ v = (10 * (q * unit_size k))%N) \/
  (exists t, tenths text t /\ v = (t * unit_size 8)%N).

(** At most this far apart *)
Definition within (d a b : N) : Prop := (a <= b + d /\ b <= a + d)%N.
