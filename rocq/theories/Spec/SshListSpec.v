(** * What the programs at the other end print *)
From Coq Require Import String Strings.Byte NArith ZArith Bool List.
From Verif Require Import Model.Py Model.Stat Spec.StatSpec.
Import ListNotations.

(** An entry of a directory: what stat tells about it, and the checksum, where it is not
    a directory. *)
Record entry : Type := mkEntry { e_info : info; e_digest : option bytes }.
Definition e_name (e : entry) : str := in_name (e_info e).

(** The checksum programs of coreutils: names with a backslash are escaped, and the line
    begins with one then. *)
Definition BSL : N := 92.
Definition escaped (name : str) : str := flat_map (fun c => if N.eqb c BSL then [BSL; BSL] else [c]) name.
Definition sum_line (sum : str) (e : entry) : str :=
  match e_digest e with
  | None => sum ++ $": " ++ e_name e ++ $": Is a directory"
  | Some d => if has BSL (e_name e) then BSL :: hex d ++ $"  " ++ escaped (e_name e) else hex d ++ $"  " ++ e_name e
  end.

(** What the command of [children] prints, line by line *)
Definition printed (sum : str) (l : list entry) : list str :=
  map (fun e => stat_line (e_info e)) l ++ [$"----"] ++ map (sum_line sum) l.
(** ... where the pattern for the names without a full stop finds nothing *)
Definition printed_hidden (sum : str) (l : list entry) : list str :=
  map (fun e => stat_line (e_info e)) l ++ [$"stat: cannot stat '*': No such file or directory"; $"----"] ++
  map (sum_line sum) l ++ [sum ++ $": '*': No such file or directory"].

(** What is on the terminal before the prompt: the command and the lines *)
Definition eol : str := [13; 10]%N.
Definition shown (cmd : str) (lines : list str) (raw : bytes) : Prop :=
  utf8_enc (cmd ++ eol ++ flat_map (fun l => l ++ eol) lines) = Some raw.

(** Names that come back *)
Definition one_line (s : str) : Prop := ~ In 13%N s /\ ~ In 10%N s.
Definition readable (e : entry) : Prop :=
  good_info (e_info e) /\ modern (e_info e) /\ one_line (stat_line (e_info e)) /\
  e_name e <> [] /\ ~ two_blanks (e_name e) /\
  is_space (hd 0%N (e_name e)) = false /\ is_space (last (e_name e) 0%N) = false /\
  (e_digest e <> None -> ~ In BSL (e_name e) /\ ~ exists a b, e_name e = a ++ $"Is a directory" ++ b).

(** The kinds of things there are, or that there is nothing at a path, and what stat says
    of them *)
Inductive kind : Set := Regular (size : N) | Directory | SymLink | Block | Char | Fifo | Socket | Absent (path : str).
Definition kind_text (k : kind) : str :=
  match k with
  | Regular 0 => $"regular empty file"
  | Regular _ => $"regular file"
  | Directory => $"directory"
  | SymLink => $"symbolic link"
  | Block => $"block special file"
  | Char => $"character special file"
  | Fifo => $"fifo"
  | Socket => $"socket"
  | Absent path => $"stat: cannot statx '" ++ path ++ $"': No such file or directory"
  end.
