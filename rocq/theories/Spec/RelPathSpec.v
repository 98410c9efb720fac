(** * Following a relative path by its text *)
From Coq Require Import String NArith ZArith Bool List.
From Verif Require Import Model.Py Model.PurePath.
Import ListNotations.

(** How many levels up, and then which names down. *)
Definition spot := (nat * list str)%type.

Definition step (p : spot) (c : str) : spot :=
  let (up, down) := p in
  if str_eqb c $".." then
    match down with [] => (S up, []) | _ => (up, removelast down) end
  else (up, down ++ [c]).

(** From a place, follow the components. *)
Definition follow (p : spot) (l : list str) : spot := fold_left step l p.

Definition here : spot := (0%nat, []).

(** A path as pathlib holds it. *)
Definition is_path (p : ppath) : Prop :=
  forall c, In c (pp_parts p) -> c <> [] /\ c <> $"." /\ ~ In (chr "/") c.

Definition no_dotdot (p : ppath) : Prop := ~ In $".." (pp_parts p).

Definition within (p q : ppath) : Prop := exists r, pp_parts p = pp_parts q ++ r.

(** The directory from which a path relative to [q] counts when it leads to [p]. *)
Definition counts_from (p q : ppath) (d : list str) : Prop :=
  (within p q /\ d = pp_parts q) \/
  (~ within p q /\ exists n, pp_parts q = d ++ [n]).
