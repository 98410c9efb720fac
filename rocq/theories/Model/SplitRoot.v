(** * Drives of Windows: splitroot, /repo/augpathlib/core.py:871-918, put in place of pathlib's (921-924)

    For python before 3.12. *)
From Coq Require Import String NArith Bool List.
From Verif Require Import Model.Py.
Import ListNotations.

Definition bsl : N := 92.            (* the separator *)
Definition colon : N := 58.

(** [s.find(c)], [s.find(c, i)] *)
Fixpoint find_char (c : N) (s : str) : option nat :=
  match s with
  | [] => None
  | x :: r => if N.eqb x c then Some 0 else option_map S (find_char c r)
  end.
Definition find_from (c : N) (s : str) (i : nat) : option nat :=
  option_map (Nat.add i) (find_char c (skipn i s)).
(** [s.lstrip(sep)] *)
Fixpoint lstrip_sep (s : str) : str :=
  match s with c :: r => if N.eqb c bsl then lstrip_sep r else s | [] => [] end.
(** [s[a:b]] *)
Definition slice (a b : nat) (s : str) : str := firstn (b - a) (skipn a s).

(** _WindowsFlavour._split_extended_path of pathlib 3.11 *)
Definition extended (s : str) : str * str :=
  if startswith s [bsl; bsl; chr "?"; bsl] then
    let s' := skipn 4 s in
    if startswith s' ($"UNC" ++ [bsl]) then (firstn 4 s ++ firstn 3 s', bsl :: skipn 3 s')
    else (firstn 4 s, s')
  else ([], s).

(** The drives: the letters, and [_registry_drives], 855, 922 *)
Definition letters : list str := map (fun c => [c]) $"abcdefghijklmnopqrstuvwxyzABCDEFGHIJKLMNOPQRSTUVWXYZ".
Definition registry_drives : list str := [$"hklm"; $"hkcu"; $"HKLM"; $"HKCU"].
Definition drive_letters : list str := letters ++ registry_drives.
Definition has_drive (s : str) (l : list str) : bool := existsb (str_eqb s) l.

(** The last part, 914-918 *)
Definition rooted (prefix drv first part : str) : str * str * str :=
  if str_eqb first [bsl] then (prefix ++ drv, first, lstrip_sep part) else (prefix ++ drv, [], part).

(** 898-918 *)
Definition no_share (prefix part : str) : str * str * str :=
  let first := slice 0 1 part in
  let second := slice 1 2 part in
  let third := slice 2 3 part in
  if (str_eqb second [colon] && has_drive first drive_letters)%bool then    (* 901-904 *)
    rooted prefix (slice 0 2 part) third (skipn 2 part)
  else
    match find_char colon part with                                         (* 906-908 *)
    | Some index1 =>
        if match find_char bsl part with None => true | Some index2 => Nat.ltb index1 index2 end
        then
          if has_drive (firstn index1 part) drive_letters                   (* 909-913 *)
          then rooted prefix (firstn index1 part) (slice 0 1 (skipn index1 part)) (skipn index1 part)
          else rooted prefix [] first part
        else rooted prefix [] first part
    | None => rooted prefix [] first part
    end.

(** splitroot, 871-918: the drive, the root, and the rest *)
Definition splitroot (part : str) : str * str * str :=
  let '(prefix, part) :=
    if (str_eqb (slice 1 2 part) [bsl] && str_eqb (slice 0 1 part) [bsl])%bool  (* 874-881 *)
    then extended part else ([], part) in
  if (str_eqb (slice 1 2 part) [bsl] && str_eqb (slice 0 1 part) [bsl] && negb (str_eqb (slice 2 3 part) [bsl]))%bool  (* 883 *)
  then
    match find_from bsl part 2 with                                         (* 888-889 *)
    | None => no_share prefix part
    | Some index =>
        let share index2 :=
          match prefix with
          | _ :: _ => (prefix ++ slice 1 index2 part, [bsl], skipn (index2 + 1) part)   (* 897 *)
          | [] => (firstn index2 part, [bsl], skipn (index2 + 1) part)
          end in
        match find_from bsl part (index + 1) with                           (* 890-896 *)
        | None => share (length part)
        | Some index2 => if Nat.eqb index2 (index + 1) then no_share prefix part else share index2
        end
    end
  else no_share prefix part.

(** pathlib's parse_parts of one text, the parts but for the first; is_absolute *)
Definition win_parse (s : str) : str * str * list str :=
  let '(drv, root, rel) := splitroot (map (fun c => if N.eqb c (chr "/") then bsl else c) s) in
  (drv, root, filter (fun x => negb (str_eqb x [] || str_eqb x $"."))%bool (split bsl rel)).
Definition win_is_absolute (s : str) : bool :=
  let '(drv, root, _) := win_parse s in (negb (str_eqb root []) && negb (str_eqb drv []))%bool.
(** What paths of Windows are compared by: the parts, in small letters.  Simplified: only
    letters of ASCII are made small. *)
Definition small (c : N) : N := if (N.leb 65 c && N.leb c 90)%bool then (c + 32)%N else c.
Definition win_key (s : str) : list str :=
  let '(drv, root, parts) := win_parse s in
  map (map small) ((if str_eqb (drv ++ root) [] then [] else [drv ++ root]) ++ parts).
