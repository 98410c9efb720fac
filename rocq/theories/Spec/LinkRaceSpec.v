(** * The metadata of a path that several programs set *)
From Coq Require Import String NArith Bool List.
From Verif Require Import Model.Py Model.Meta Model.Access Model.LinkRace Spec.FsSpec.
Import ListNotations.

Section Spec.
Variable M : Type.
(** No program has begun. *)
Definition l_fresh (d : ldisk M) : lstate M := mkLS M d (fun _ => LLook).
(** Every program that has begun is done. *)
Definition l_quiet (s : lstate M) : Prop := forall i, l_pc M s i = LLook \/ exists r, l_pc M s i = LDone r.
Definition l_began (s : lstate M) (i : nat) : Prop := l_pc M s i <> LLook.
(** Program [i] made its link. *)
Definition l_wrote (s : lstate M) (i : nat) : Prop := l_pc M s i = LDone (Ok true).

(** Somewhere: at the path or in the trash. *)
Definition somewhere (s : lstate M) (x : M) : Prop :=
  l_path M (l_disk M s) = Some x \/ exists n, l_trash M (l_disk M s) n = Some x.

(** One after the other: each program that gets a turn gets all it needs, at most eleven. *)
Inductive in_turns : list nat -> Prop :=
| in_none : in_turns []
| in_next i l : in_turns l -> in_turns (repeat i 12 ++ l).
End Spec.

(** Metadata with the text of the link that holds it *)
Definition linked : Type := pathmeta * str.
Definition as_link (o : option linked) : option thing := option_map (fun y => ALink (snd y)) o.
Definition by_meta (f : pathmeta -> pathmeta -> res bool) (a b : linked) : res bool := f (fst a) (fst b).
Definition id_name (a : linked) : option str := match m_id (fst a) with PStr s => Some (fs_safe_id s) | _ => None end.
