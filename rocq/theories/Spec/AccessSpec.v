(** * Permission bits and safe names *)
From Coq Require Import String NArith ZArith Bool List.
From Verif Require Import Model.Py Model.Access.
Import ListNotations.
Local Open Scope N_scope.

(** The three classes and the position of their bits in a mode; within a class
    read is bit 2, write bit 1, execute bit 0. *)
Inductive user_class : Set := Owner | Group | Everyone.
Definition shift_of (c : user_class) : N := match c with Owner => 6 | Group => 3 | Everyone => 0 end.
Definition bit_of (m : access_mode) : option N :=
  match m with MRead => Some 2 | MWrite => Some 1 | MExecute => Some 0 | MOther => None end.
Definition granted (st_mode : N) (c : user_class) (m : access_mode) : Prop :=
  exists b, bit_of m = Some b /\ N.testbit st_mode (shift_of c + b) = true.

Definition belongs (st_uid st_gid uid : N) (gids : list N) (c : user_class) : Prop :=
  match c with Owner => uid = st_uid | Group => In st_gid gids | Everyone => True end.

(** POSIX: only the first class the user belongs to counts. *)
Definition posix_class (st_uid st_gid uid : N) (gids : list N) : user_class :=
  if N.eqb uid st_uid then Owner
  else if existsb (N.eqb st_gid) gids then Group else Everyone.

(** Characters that must not appear in a file name. *)
Definition unsafe (c : N) : Prop :=
  In c [32; 10; 9; 42; 124; 58; 92; 47; 60; 62; 39; 34; 63].
