(** * Parsing the output of stat: StatResult, /repo/augpathlib/utils.py:158-196 *)
From Coq Require Import String NArith ZArith Bool List.
From Verif Require Import Model.Py.
Import ListNotations.

(** [s.split('  ')], two blanks, leftmost occurrences that do not overlap *)
Fixpoint split_dbl (s : str) : list str :=
  match s with
  | [] => [[]]
  | c :: r =>
      match r with
      | d :: r' =>
          if (N.eqb c 32 && N.eqb d 32)%bool then [] :: split_dbl r'
          else match split_dbl r with h :: t => (c :: h) :: t | [] => [[c]] end
      | [] => [[c]]
      end
  end.

(** A decimal fraction: [mkDec m k] is m / 10^k. *)
Record decimal : Set := mkDec { dec_mant : Z; dec_places : nat }.

Definition digits (s : str) : bool := (negb (str_eqb s []) && forallb is_digit s)%bool.
Definition num (s : str) : N := match pnat s with Some n => n | None => 0%N end.

(** [float(s)] for texts of the form [-]digits.digits, as an exact fraction.
    Simplifications: the rounding to a double is not modelled, and other forms
    (exponents, blanks, underscores, inf, nan) are a ValueError here. *)
Definition py_decimal (s : str) : res decimal :=
  let '(neg, body) := match s with
                      | c :: r => if N.eqb c 45 then (true, r) else (false, s)
                      | [] => (false, s)
                      end in
  match split 46 body with
  | [a; b] =>
      if (digits a && digits b)%bool
      then let m := Z.of_N (num (a ++ b)) in
           Ok (mkDec (if neg : bool then (- m)%Z else m) (length b))
      else Err ValueError
  | _ => Err ValueError
  end.

Definition int_ (s : str) : res Z := match py_int s with Some z => Ok z | None => Err ValueError end.

(** ns, utils.py:177-180 *)
Definition ns_of (hr : str) : res str :=
  match split 32 hr with
  | [_; time; _] =>
      match split 46 time with
      | [_; n] => Ok (46%N :: n)
      | _ => Err ValueError
      end
  | _ => Err ValueError
  end.

Definition timestamp (seconds hr : str) : res decimal :=
  do n <- ns_of hr ; py_decimal (seconds ++ n).

Record stat_result : Type := mkSR {
  sr_name : str; sr_ino : Z; sr_blksize : Z; sr_size : Z;
  sr_atime : decimal; sr_mtime : decimal; sr_ctime : decimal;
  sr_gid : Z; sr_uid : Z; sr_mode : N;
  sr_birthtime : option decimal }.   (* None: the attribute is not set *)

(** [int.from_bytes(b, 'big')] *)
Definition from_bytes_big (b : bytes) : N :=
  fold_left (fun acc x => acc * 256 + Byte.to_N x)%N b 0%N.

(** StatResult.__init__, utils.py:167-196 *)
Definition StatResult (out : bytes) : res stat_result :=
  match utf8_dec out with                                             (* 168 *)
  | None => Err UnicodeError
  | Some out =>
      match split_dbl out with                                        (* 172-175 *)
      | [name; ino; hint; size; hb; birth; ha; access; hm; modified; hc; changed; gid; uid; raw_mode] =>
          do ino <- int_ ino ;                                        (* 183 *)
          do hint <- int_ hint ;
          do size <- int_ size ;
          do a <- timestamp access ha ;                               (* 187 *)
          do m <- timestamp modified hm ;
          do c <- timestamp changed hc ;
          do gid <- int_ gid ;
          do uid <- int_ uid ;
          do mode <- match fromhex raw_mode with                      (* 192 *)
                     | Some b => Ok (from_bytes_big b) | None => Err ValueError end ;
          do b <- (if (negb (str_eqb hb $"-") && negb (str_eqb birth $"0"))%bool   (* 194-195 *)
                   then do b <- timestamp birth hb ; Ok (Some b) else Ok None) ;
          Ok (mkSR name ino hint size a m c gid uid mode b)
      | _ => Err ValueError
      end
  end.

(** [b.endswith(suffix)] *)
Definition endswith (b suffix : bytes) : bool :=
  prefixb Byte.eqb (rev suffix) (rev b).
Definition ascii_bytes (s : string) : bytes := map byte_of (str_of s).

(** SshRemote.stat, /repo/augpathlib/remotes.py:910-924, given the output of the
    remote command; UnicodeDecodeError is a ValueError. *)
Definition ssh_stat (out : bytes) : res stat_result :=
  match StatResult out with
  | Ok r => Ok r
  | Err ValueError | Err UnicodeError =>
      if endswith out (ascii_bytes "Permission denied")               (* 916-917 *)
      then match utf8_dec out with Some _ => Err (OSErr EACCES) | None => Err UnicodeError end
      else if endswith out (ascii_bytes "No such file or directory")  (* 919-920 *)
      then match utf8_dec out with Some _ => Err (OSErr ENOENT) | None => Err UnicodeError end
      else Err ValueError                                             (* 924 *)
  | Err e => Err e
  end.
