(** * One machine, one identifier *)
From Coq Require Import NArith Bool List.
From Verif Require Import Model.Py Model.SysidRace.
Import ListNotations.

(** No program has begun. *)
Definition fresh (f : file) : state := mkState f (fun _ => Begin).

(** Every program that has begun is done. *)
Definition quiet (s : state) : Prop :=
  forall i, s_pc s i = Begin \/ exists r, s_pc s i = Done r.

(** Program [i] was given [raw]. *)
Definition given (s : state) (i : nat) (raw : bytes) : Prop := s_pc s i = Done (Ok raw).

(** There is no identifier in /var/tmp yet. *)
Definition unset (f : file) : Prop := f = None \/ f = Some [].

(** What uuid4 gives: 32 digits. *)
Definition uuids (uuid : nat -> bytes) : Prop := forall i, length (uuid i) = 32.
