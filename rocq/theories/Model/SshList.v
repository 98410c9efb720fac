(** * What an ssh remote asks and how it reads the answers:
    /repo/augpathlib/remotes.py:866-876, 925-990 *)
From Coq Require Import String Strings.Byte NArith ZArith Bool List.
From Verif Require Import Model.Py Model.Stat Model.Shell.
Import ListNotations.

(** [b.strip()] *)
Fixpoint blstrip (b : bytes) : bytes :=
  match b with
  | c :: r => if is_space (Byte.to_N c) then blstrip r else b
  | [] => []
  end.
Definition bstrip (b : bytes) : bytes := rev (blstrip (rev (blstrip b))).

(** [b.split(sep)]; [skip] bytes belong to a separator already found *)
Fixpoint splits_from (skip : nat) (sep b : bytes) : list bytes :=
  match b with
  | [] => [[]]
  | c :: r =>
      match skip with
      | S k => splits_from k sep r
      | O => if prefixb Byte.eqb sep b then [] :: splits_from (pred (length sep)) sep r
             else match splits_from 0 sep r with h :: t => (c :: h) :: t | [] => [[c]] end
      end
  end.
Definition splits (sep b : bytes) : list bytes := splits_from 0 sep b.

(** [p in b] *)
Fixpoint contains (p b : bytes) : bool :=
  (prefixb Byte.eqb p b || match b with _ :: r => contains p r | [] => false end)%bool.

(** [s.split('  ', 1)], where there are two parts *)
Fixpoint cut_dbl (s : str) : option (str * str) :=
  match s with
  | c :: r =>
      if startswith s $"  " then Some ([], tl r)
      else match cut_dbl r with Some (a, b) => Some (c :: a, b) | None => None end
  | [] => None
  end.

(** _ssh, 866-876, [raw] being what the session shows before the prompt.  [sendline]
    gives the number of bytes it wrote, the end of the line with them. *)
Definition columns : nat := 200.
Definition ssh (cmd : str) (raw : bytes) : res bytes :=
  if Nat.ltb columns (length cmd) then Err CommandTooLongErr
  else match utf8_enc cmd with
       | None => Err UnicodeError
       | Some b => Ok (bstrip (skipn (length b + 1 + 1) raw))
       end.

(** is_dir, is_file, 955-963, given the output *)
Definition is_dir_out (out : bytes) : bool := bytes_eqb out (ascii_bytes "directory").
Definition is_file_out (out : bytes) : bool := bytes_eqb out (ascii_bytes "regular file").

(** The command of children, 974-978 *)
Definition children_cmd (darwin : bool) (cypher rpath : str) : str :=
  $"cd " ++ rpath ++ $";" ++ stat_cmd darwin stat_format [] ++ $" {.,}*;" ++ $"echo '----';" ++ cypher ++ $" {.,}*;" ++
  $"cd " ++ [DQ] ++ $"${OLDPWD}" ++ [DQ].

Definition crlf : bytes := [x0d; x0a].
(** 985-987, a line that is not skipped *)
Definition check_line (l : bytes) : res (str * bytes) :=
  match utf8_dec l with
  | None => Err UnicodeError
  | Some s =>
      match cut_dbl s with
      | None => Err ValueError
      | Some (cs, fn) => match fromhex cs with Some b => Ok (fn, b) | None => Err ValueError end
      end
  end.

(** children, 980-989, given the output.  The dictionaries as the pairs in the order in
    which they are put in: the last one with a key counts. *)
Definition listing (out : bytes) : res (list (str * stat_result) * list (str * bytes)) :=
  match splits (crlf ++ ascii_bytes "----" ++ crlf) out with
  | [stats; checks] =>
      do ss <- rmap StatResult (splits crlf stats) ;
      do cs <- rmap check_line (filter (fun l => negb (contains (ascii_bytes "Is a directory") l)) (splits crlf checks)) ;
      Ok (map (fun r => (sr_name r, r)) ss, cs)
  | _ => Err ValueError
  end.
Fixpoint dict_get {A} (k : str) (l : list (str * A)) : option A :=
  match l with
  | [] => None
  | (k', v) :: r => match dict_get k r with Some w => Some w | None => if str_eqb k k' then Some v else None end
  end.
