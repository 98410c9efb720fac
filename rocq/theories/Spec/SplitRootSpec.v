(** * What pathlib does with drives of Windows *)
From Coq Require Import String NArith Bool List.
From Verif Require Import Model.Py Model.SplitRoot.
Import ListNotations.

Definition long : str := [bsl; bsl; chr "?"; bsl].

(** splitroot as it is in pathlib 3.11, before it is replaced *)
Definition cpython_no_share (prefix part : str) : str * str * str :=
  let '(drv, first, part) :=
    match part with
    | a :: b :: r =>
        if (N.eqb b colon && existsb (N.eqb a) $"abcdefghijklmnopqrstuvwxyzABCDEFGHIJKLMNOPQRSTUVWXYZ")%bool
        then ([a; b], firstn 1 r, r) else ([], [a], part)
    | _ => ([], part, part)
    end in
  if str_eqb first [bsl] then (prefix ++ drv, [bsl], lstrip_sep part) else (prefix ++ drv, [], part).
Definition cpython_splitroot (s : str) : str * str * str :=
  let '(prefix, part) := match s with a :: b :: _ => if (N.eqb a bsl && N.eqb b bsl)%bool then extended s else ([], s) | _ => ([], s) end in
  match part with
  | a :: b :: r =>
      if (N.eqb a bsl && N.eqb b bsl && negb (str_eqb (firstn 1 r) [bsl]))%bool then
        match find_char bsl r with
        | None => cpython_no_share prefix part
        | Some i =>
            match find_char bsl (skipn (i + 1) r) with
            | Some 0 => cpython_no_share prefix part
            | Some j => let e := i + j + 3 in
                ((if str_eqb prefix [] then firstn e part else prefix ++ slice 1 e part), [bsl], skipn (e + 1) part)
            | None => ((if str_eqb prefix [] then part else prefix ++ tl part), [bsl], [])
            end
        end
      else cpython_no_share prefix part
  | _ => cpython_no_share prefix part
  end.

(** The text begins with the name of a drive of the registry and a colon. *)
Definition in_registry (s : str) (pre name rest : str) : Prop :=
  In name [$"hklm"; $"hkcu"; $"HKLM"; $"HKCU"] /\ (pre = [] \/ pre = long) /\ s = pre ++ name ++ [colon] ++ rest.
