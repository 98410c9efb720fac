(** * A file that several programs fetch *)
From Coq Require Import String Strings.Byte Bool List.
From Verif Require Import Model.Py Model.FetchRace.
Import ListNotations.

(** There is a link with metadata without errors, and no program has begun. *)
Definition f_fresh : fstate := mkFS (mkFD (ELink false) (fun _ => []) (fun _ => None) 0) (fun _ => FExists).
Definition f_began (s : fstate) (i : nat) : Prop := f_pc s i <> FExists.
Definition f_returned (s : fstate) (i : nat) : Prop := f_pc s i = FDone (Ok tt).
Definition f_raised (s : fstate) (i : nat) (e : exn) : Prop := f_pc s i = FDone (Err e).
(** What is read at the path, and whether there is metadata *)
Definition content_at (s : fstate) : option bytes := match f_at (f_disk s) with EFile k => Some (f_data (f_disk s) k) | _ => None end.
Definition meta_at (s : fstate) : option bool :=
  match f_at (f_disk s) with EFile k => f_meta (f_disk s) k | ELink b => Some b | EGone => None end.
(** What the remote gives a program is all of [D], or the beginning of it when it breaks off. *)
Definition sends (D : bytes) (got : list bytes) (brk : option exn) : Prop :=
  exists rest, concat got ++ rest = D /\ (brk = None -> rest = []).
