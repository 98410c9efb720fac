(** * Python values used by the model

    Nothing here is augpathlib code.  This file fixes the meaning of the
    Python built-ins that augpathlib calls: strings, bytes, integers,
    exceptions, [split], [join], [replace], [int()], [bytes.hex()],
    UTF-8, and the comparison of values.  The places in augpathlib that use
    them are cited in the files that model augpathlib. *)

From Coq Require Import String Ascii NArith ZArith Bool List.
From Coq Require Import Init.Byte.
Import ListNotations.

(** Python exceptions as values.  The augpathlib classes are those of
    /repo/augpathlib/exceptions.py; only the ones the model can raise are listed. *)
Inductive errno : Set :=
| ENOENT | EEXIST | ENOTDIR | EISDIR | ENOTEMPTY | ELOOP | EACCES | EPERM | EIO
| ENODATA | EINVAL | EXDEV | ENAMETOOLONG | ENOSPC | EBUSY.

Inductive exn : Set :=
| TypeError | ValueError | IndexError | KeyError | AttributeError | NameError
| UnboundLocalError | StopIteration | AssertionError | NotImplementedExn
| UnicodeError | RuntimeErr | OverflowErr | ZeroDivisionErr
| OSErr (e : errno)
| KeyboardInterrupt
| UnhandledTypeError | CircularSymlinkNameError | WillNotRemovePathError
| PathExistsErr | LocalChangesError | NoCachedMetadataError | CacheNotFoundError
| SizeErr | MetadataIdMismatchError | NoRemoteMappingError | AlreadyAnchoredErr
| NotInRepoErr | RepoExistsErr | NoStreamErr | RemoteFail | GitCommandErr
| NoRemoteFileErr | WhyDidntThisGetMovedErr | BootstrappingErr | NoCommitsErr
| BaseExn | CommandTooLongErr | RemotePathExistsErr | CacheExistsErr | AugPathlibErr
| OutOfFuel.

Inductive res (A : Type) : Type :=
| Ok (a : A)
| Err (e : exn).
Arguments Ok {A} a.
Arguments Err {A} e.

Definition rbind {A B} (x : res A) (f : A -> res B) : res B :=
  match x with Ok a => f a | Err e => Err e end.
Notation "'do' x <- a ; b" := (rbind a (fun x => b))
  (at level 200, x pattern, a at level 100, b at level 200).

Fixpoint rmap {A B} (f : A -> res B) (l : list A) : res (list B) :=
  match l with
  | [] => Ok []
  | x :: r => do y <- f x ; do ys <- rmap f r ; Ok (y :: ys)
  end.

(** ** Strings: sequences of unicode code points *)
Definition str := list N.
Definition bytes := list byte.

Definition str_of (s : string) : str := map N_of_ascii (list_ascii_of_string s).
Notation "$ s" := (str_of s%string) (at level 1, format "$ s").

Fixpoint list_eqb {A} (eqb : A -> A -> bool) (a b : list A) : bool :=
  match a, b with
  | [], [] => true
  | x :: a', y :: b' => eqb x y && list_eqb eqb a' b'
  | _, _ => false
  end.

Definition str_eqb : str -> str -> bool := list_eqb N.eqb.
Definition bytes_eqb : bytes -> bytes -> bool := list_eqb Byte.eqb.

Definition chr (s : string) : N :=
  match str_of s with c :: _ => c | [] => 0%N end.

(** [c in s] for a one-character string *)
Definition has (c : N) (s : str) : bool := existsb (N.eqb c) s.

(** [s.replace(a, b)] for one-character strings *)
Definition replace1 (a b : N) (s : str) : str :=
  map (fun x => if N.eqb x a then b else x) s.

Fixpoint prefixb {A} (eqb : A -> A -> bool) (p s : list A) : bool :=
  match p, s with
  | [], _ => true
  | x :: p', y :: s' => eqb x y && prefixb eqb p' s'
  | _ :: _, [] => false
  end.

(** [s.startswith(p)] *)
Definition startswith (s p : str) : bool := prefixb N.eqb p s.

(** [s.replace(old, new)], leftmost non-overlapping occurrences, old non-empty.
    The fuel is the length of [s]; every step consumes at least one character. *)
Fixpoint replace_fuel (n : nat) (old new s : str) : str :=
  match n with
  | O => s
  | S n' =>
      match s with
      | [] => []
      | x :: r =>
          if startswith s old
          then new ++ replace_fuel n' old new (skipn (length old) s)
          else x :: replace_fuel n' old new r
      end
  end.
Definition replace (old new s : str) : str := replace_fuel (length s) old new s.

(** [s.split(c)] for a one-character separator; never empty *)
Fixpoint split (c : N) (s : str) : list str :=
  match s with
  | [] => [[]]
  | x :: r =>
      if N.eqb x c then [] :: split c r
      else match split c r with
           | h :: t => (x :: h) :: t
           | [] => [[x]]
           end
  end.

(** [sep.join(l)] *)
Fixpoint join (sep : str) (l : list str) : str :=
  match l with
  | [] => []
  | [x] => x
  | x :: r => x ++ sep ++ join sep r
  end.

(** [s.rsplit(c, 1)]: [None] when the separator does not occur *)
Fixpoint rsplit1 (c : N) (s : str) : option (str * str) :=
  match s with
  | [] => None
  | x :: r =>
      match rsplit1 c r with
      | Some (a, b) => Some (x :: a, b)
      | None => if N.eqb x c then Some ([], r) else None
      end
  end.

(** ** Integers as text *)
Definition digit (n : N) : N := (48 + n)%N.

Fixpoint dec_rev (fuel : nat) (n : N) : str :=
  match fuel with
  | O => []
  | S f =>
      let q := (n / 10)%N in
      digit (n mod 10) :: (if N.eqb q 0 then [] else dec_rev f q)
  end.

Definition dec_N (n : N) : str := rev (dec_rev (S (N.size_nat n)) n).

(** [str(z)] *)
Definition dec_Z (z : Z) : str :=
  match z with
  | Zneg p => chr "-" :: dec_N (Npos p)
  | _ => dec_N (Z.to_N z)
  end.

Definition is_digit (c : N) : bool := (N.leb 48 c && N.leb c 57)%bool.

(** digits with optional single underscores between them *)
Fixpoint pdigits (acc : N) (s : str) : option N :=
  match s with
  | [] => Some acc
  | c :: r =>
      if is_digit c then pdigits (acc * 10 + (c - 48))%N r
      else if N.eqb c 95
           then match r with
                | d :: r' => if is_digit d then pdigits (acc * 10 + (d - 48))%N r' else None
                | [] => None
                end
           else None
  end.

Definition pnat (s : str) : option N :=
  match s with
  | c :: r => if is_digit c then pdigits (c - 48)%N r else None
  | [] => None
  end.

Definition is_space (c : N) : bool :=
  (N.eqb c 32 || (N.leb 9 c && N.leb c 13))%bool.

Fixpoint lstrip (s : str) : str :=
  match s with
  | c :: r => if is_space c then lstrip r else s
  | [] => []
  end.
Definition strip (s : str) : str := rev (lstrip (rev (lstrip s))).

(** [int(s)]; [None] is ValueError.  Simplification: ASCII digits and ASCII
    white space only, Python also accepts other unicode digits and blanks. *)
Definition py_int (s : str) : option Z :=
  match strip s with
  | c :: r =>
      if N.eqb c 45 then option_map (fun n => (- Z.of_N n)%Z) (pnat r)
      else if N.eqb c 43 then option_map Z.of_N (pnat r)
      else option_map Z.of_N (pnat (c :: r))
  | [] => None
  end.

(** ** Hexadecimal *)
Definition hexdigit (n : N) : N := if N.ltb n 10 then (48 + n)%N else (87 + n)%N.

(** [b.hex()] *)
Definition hex (b : bytes) : str :=
  flat_map (fun x => let n := Byte.to_N x in [hexdigit (n / 16); hexdigit (n mod 16)]) b.

Definition hexval (c : N) : option N :=
  if is_digit c then Some (c - 48)%N
  else if (N.leb 97 c && N.leb c 102)%bool then Some (c - 87)%N
  else if (N.leb 65 c && N.leb c 70)%bool then Some (c - 55)%N
  else None.

Definition byte_of (n : N) : byte :=
  match Byte.of_N n with Some b => b | None => x00 end.

(** [bytes.fromhex(s)]: white space allowed between bytes; [None] is ValueError *)
Fixpoint fromhex (s : str) : option bytes :=
  match s with
  | [] => Some []
  | c :: r =>
      if is_space c then fromhex r
      else match r with
           | d :: r' =>
               match hexval c, hexval d with
               | Some a, Some b => option_map (cons (byte_of (a * 16 + b))) (fromhex r')
               | _, _ => None
               end
           | [] => None
           end
  end.

(** ** UTF-8 *)
Definition surrogate (c : N) : bool := (N.leb 55296 c && N.leb c 57343)%bool.
Definition scalar (c : N) : bool := (N.ltb c 1114112 && negb (surrogate c))%bool.

Definition utf8_enc1 (c : N) : list N :=
  if N.ltb c 128 then [c]
  else if N.ltb c 2048 then [192 + c / 64; 128 + c mod 64]%N
  else if N.ltb c 65536 then [224 + c / 4096; 128 + (c / 64) mod 64; 128 + c mod 64]%N
  else [240 + c / 262144; 128 + (c / 4096) mod 64; 128 + (c / 64) mod 64; 128 + c mod 64]%N.

(** [s.encode()]; [None] is UnicodeEncodeError *)
Definition utf8_enc (s : str) : option bytes :=
  if forallb scalar s then Some (map byte_of (flat_map utf8_enc1 s)) else None.

Definition cont (b : N) : bool := (N.leb 128 b && N.leb b 191)%bool.

Fixpoint utf8_dec_N (s : list N) : option str :=
  match s with
  | [] => Some []
  | a :: r =>
      if N.ltb a 128 then option_map (cons a) (utf8_dec_N r)
      else if (N.leb 194 a && N.leb a 223)%bool then
        match r with
        | b :: r1 =>
            if cont b then option_map (cons ((a - 192) * 64 + (b - 128))%N) (utf8_dec_N r1)
            else None
        | _ => None
        end
      else if (N.leb 224 a && N.leb a 239)%bool then
        match r with
        | b :: c :: r2 =>
            let v := ((a - 224) * 4096 + (b - 128) * 64 + (c - 128))%N in
            if (cont b && cont c && N.leb 2048 v && scalar v)%bool
            then option_map (cons v) (utf8_dec_N r2) else None
        | _ => None
        end
      else if (N.leb 240 a && N.leb a 244)%bool then
        match r with
        | b :: c :: d :: r3 =>
            let v := ((a - 240) * 262144 + (b - 128) * 4096 + (c - 128) * 64 + (d - 128))%N in
            if (cont b && cont c && cont d && N.leb 65536 v && scalar v)%bool
            then option_map (cons v) (utf8_dec_N r3) else None
        | _ => None
        end
      else None
  end.

(** [b.decode()]; [None] is UnicodeDecodeError *)
Definition utf8_dec (b : bytes) : option str := utf8_dec_N (map Byte.to_N b).

(** ** datetime.datetime.  [dt_tz] is the offset in seconds, [None] for a naive
    value.  Simplification: offsets have no microseconds. *)
Record datetime : Set := mkDT {
  dt_year : N; dt_month : N; dt_day : N;
  dt_hour : N; dt_min : N; dt_sec : N; dt_us : N;
  dt_tz : option Z }.

(** n decimal digits, most significant first, of [v mod 10^n] *)
Fixpoint pad_rev (n : nat) (v : N) : str :=
  match n with
  | O => []
  | S n' => digit (v mod 10) :: pad_rev n' (v / 10)
  end.
Definition pad (n : nat) (v : N) : str := rev (pad_rev n v).

(** [datetime.isoformat(timespec='auto')] of the standard library *)
Definition dt_isoformat (d : datetime) : str :=
  pad 4 (dt_year d) ++ $"-" ++ pad 2 (dt_month d) ++ $"-" ++ pad 2 (dt_day d) ++
  $"T" ++ pad 2 (dt_hour d) ++ $":" ++ pad 2 (dt_min d) ++ $":" ++ pad 2 (dt_sec d) ++
  (if N.eqb (dt_us d) 0 then [] else $"." ++ pad 6 (dt_us d)) ++
  match dt_tz d with
  | None => []
  | Some z =>
      let a := Z.abs_N z in
      (if Z.ltb z 0 then $"-" else $"+") ++
      pad 2 (a / 3600) ++ $":" ++ pad 2 ((a / 60) mod 60) ++
      (if N.eqb (a mod 60) 0 then [] else $":" ++ pad 2 (a mod 60))
  end.

(** days since 1970-01-01 in the proleptic Gregorian calendar *)
Definition days_from_civil (y m d : Z) : Z :=
  let y' := if Z.leb m 2 then (y - 1)%Z else y in
  let era := (y' / 400)%Z in
  let yoe := (y' - era * 400)%Z in
  let mp := ((m + 9) mod 12)%Z in
  let doy := ((153 * mp + 2) / 5 + d - 1)%Z in
  let doe := (yoe * 365 + yoe / 4 - yoe / 100 + doy)%Z in
  (era * 146097 + doe - 719468)%Z.

(** position of the local reading on the time line, in microseconds *)
Definition dt_local_us (d : datetime) : Z :=
  (((days_from_civil (Z.of_N (dt_year d)) (Z.of_N (dt_month d)) (Z.of_N (dt_day d)) * 86400
     + Z.of_N (dt_hour d) * 3600 + Z.of_N (dt_min d) * 60 + Z.of_N (dt_sec d)) * 1000000)
   + Z.of_N (dt_us d))%Z.

(** the instant, for aware values *)
Definition dt_us_utc (d : datetime) : Z :=
  (dt_local_us d - match dt_tz d with Some z => z | None => 0 end * 1000000)%Z.

Definition dt_aware (d : datetime) : bool :=
  match dt_tz d with Some _ => true | None => false end.

(** [a == b] for datetimes *)
Definition dt_eqb (a b : datetime) : bool :=
  (Bool.eqb (dt_aware a) (dt_aware b) && Z.eqb (dt_us_utc a) (dt_us_utc b))%bool.

(** ** Dynamically typed values that occur in metadata.  Simplification: the only
    tuples are tuples of strings (errors) and the (checksum, count) etag pair. *)
Inductive pyval : Set :=
| PNone
| PInt (z : Z)
| PSize (z : Z)              (* FileSize, utils.py:124, a subclass of int *)
| PStr (s : str)
| PBytes (b : bytes)
| PDt (d : datetime)
| PStrs (l : list str)
| PEtag (b : bytes) (n : Z).

Definition is_none (v : pyval) : bool := match v with PNone => true | _ => false end.

(** [bool(v)] *)
Definition truthy (v : pyval) : bool :=
  match v with
  | PNone => false
  | PInt z | PSize z => negb (Z.eqb z 0)
  | PStr s => match s with [] => false | _ => true end
  | PBytes b => match b with [] => false | _ => true end
  | PDt _ => true
  | PStrs l => match l with [] => false | _ => true end
  | PEtag _ _ => true
  end.

(** [hasattr(v, '__iter__')] *)
Definition iterable (v : pyval) : bool :=
  match v with
  | PStr _ | PBytes _ | PStrs _ | PEtag _ _ => true
  | _ => false
  end.

(** [hasattr(v, '__iter__') and not v] *)
Definition empty_iterable (v : pyval) : bool := (iterable v && negb (truthy v))%bool.

(** [a == b] *)
Definition py_eq (a b : pyval) : bool :=
  match a, b with
  | PNone, PNone => true
  | (PInt x | PSize x), (PInt y | PSize y) => Z.eqb x y
  | PStr x, PStr y => str_eqb x y
  | PBytes x, PBytes y => bytes_eqb x y
  | PDt x, PDt y => dt_eqb x y
  | PStrs x, PStrs y => list_eqb str_eqb x y
  | PEtag x n, PEtag y m => (bytes_eqb x y && Z.eqb n m)%bool
  | _, _ => false
  end.

(** [a < b]; None with anything, naive with aware datetimes, and different
    kinds raise TypeError.  Tuples are never compared by the modelled code. *)
Definition py_lt (a b : pyval) : res bool :=
  match a, b with
  | (PInt x | PSize x), (PInt y | PSize y) => Ok (Z.ltb x y)
  | PDt x, PDt y =>
      if Bool.eqb (dt_aware x) (dt_aware y)
      then Ok (Z.ltb (dt_us_utc x) (dt_us_utc y)) else Err TypeError
  | _, _ => Err TypeError
  end.
