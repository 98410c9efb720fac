(** * PathMeta: /repo/augpathlib/meta.py:14-173 and FileSize: /repo/augpathlib/utils.py:124-155 *)
From Coq Require Import String NArith ZArith Bool List.
From Verif Require Import Model.Py.
Import ListNotations.

(** ** FileSize, utils.py:124-155 *)

(** Round half to even of a/b, as the C library does for "%.0f". *)
Definition div_half_even (a b : N) : N :=
  let q := (a / b)%N in
  let r := (a mod b)%N in
  if N.ltb (2 * r) b then q
  else if N.ltb b (2 * r) then (q + 1)%N
  else if N.even q then q else (q + 1)%N.

(** Conversion of an int to a double: 53 significant bits, half to even. *)
Definition to_double (n : N) : N :=
  if N.ltb n (2 ^ 53) then n
  else let e := (N.log2 n - 52)%N in (div_half_even n (2 ^ e) * 2 ^ e)%N.

(** utils.py:139-144; [num] is [float / 1024^k], exact in binary.  [units] are
    the remaining units. *)
Fixpoint sizeof_fmt (units : list str) (x : N) (k : N) : str :=
  match units with
  | [] =>                                                           (* 144 *)
      let t := div_half_even (10 * x) (1024 ^ k) in
      dec_N (t / 10) ++ $"." ++ dec_N (t mod 10) ++ $"Yi"
  | u :: rest =>
      if N.ltb x (1024 ^ (k + 1))                                   (* 141 *)
      then dec_N (div_half_even x (1024 ^ k)) ++ u                  (* 142 *)
      else sizeof_fmt rest (to_double x) (k + 1)                    (* 143 *)
  end.

(** utils.py:135-149.  The first division converts to float and overflows for
    ints beyond the double range. *)
Definition hr (z : Z) : res str :=
  match z with
  | Zneg _ => Ok $"??"
  | _ =>
      let n := Z.to_N z in
      if N.leb (2 ^ 1024) (to_double n) then Err OverflowErr
      else Ok (sizeof_fmt (map (fun s => str_of s)
                 [""; "K"; "M"; "G"; "T"; "P"; "E"; "Z"]%string) n 0)
  end.

(** ** isoformat, meta.py:14-23 *)
Definition isoformat (d : datetime) : str :=
  replace $"+00:00" $"Z" (replace1 (chr ".") (chr ",") (dt_isoformat d)).

(** ** PathMeta *)

(** Keyword arguments of PathMeta.__init__, meta.py:38-56. *)
Inductive field : Set :=
| Fname | Fsize | Fcreated | Fupdated | Fchecksum | Fchecksum_cypher | Fetag
| Fchunksize | Fmulti | Fparent_id | Fid | Ffile_id | Fold_id | Fgid | Fuser_id
| Fmode | Ferrors.

Definition field_eqb (a b : field) : bool :=
  match a, b with
  | Fname, Fname | Fsize, Fsize | Fcreated, Fcreated | Fupdated, Fupdated
  | Fchecksum, Fchecksum | Fchecksum_cypher, Fchecksum_cypher | Fetag, Fetag
  | Fchunksize, Fchunksize | Fmulti, Fmulti | Fparent_id, Fparent_id | Fid, Fid
  | Ffile_id, Ffile_id | Fold_id, Fold_id | Fgid, Fgid | Fuser_id, Fuser_id
  | Fmode, Fmode | Ferrors, Ferrors => true
  | _, _ => false
  end.

Definition field_name (f : field) : str :=
  match f with
  | Fname => $"name" | Fsize => $"size" | Fcreated => $"created" | Fupdated => $"updated"
  | Fchecksum => $"checksum" | Fchecksum_cypher => $"checksum_cypher" | Fetag => $"etag"
  | Fchunksize => $"chunksize" | Fmulti => $"multi" | Fparent_id => $"parent_id"
  | Fid => $"id" | Ffile_id => $"file_id" | Fold_id => $"old_id" | Fgid => $"gid"
  | Fuser_id => $"user_id" | Fmode => $"mode" | Ferrors => $"errors"
  end.

(** Instance attributes, meta.py:78-97.  [m_created] is [_created] and
    [m_created_ok] is [_created_ok], absent ([None]) until it is set; same for
    updated.  [m_kwargs] is the name-mangled [__kwargs], absent when empty. *)
Record pathmeta : Type := mkMeta {
  m_name : pyval; m_size : pyval;
  m_created : pyval; m_created_ok : option pyval;
  m_updated : pyval; m_updated_ok : option pyval;
  m_checksum : pyval; m_checksum_cypher : pyval; m_etag : pyval;
  m_chunksize : pyval; m_multi : pyval; m_parent_id : pyval; m_id : pyval;
  m_file_id : pyval; m_old_id : pyval; m_gid : pyval; m_user_id : pyval;
  m_mode : pyval; m_errors : list str;
  m_kwargs : list (str * bytes) }.

(** Arguments of a call [PathMeta( **kwargs )]: defaults of meta.py:39-55. *)
Definition args := field -> pyval.
Definition no_args : args := fun f => match f with Ferrors => PStrs [] | _ => PNone end.
Definition set_arg (f : field) (v : pyval) (a : args) : args :=
  fun g => if field_eqb f g then v else a g.

(** [FileSize(x)], an int subclass.  Simplification: [int()] of text and bytes
    as in [py_int]; datetimes and tuples are a TypeError. *)
Definition filesize (v : pyval) : res pyval :=
  match v with
  | PInt z | PSize z => Ok (PSize z)
  | PStr s => match py_int s with Some z => Ok (PSize z) | None => Err ValueError end
  | PBytes b => match py_int (map Byte.to_N b) with
                | Some z => Ok (PSize z) | None => Err ValueError end
  | _ => Err TypeError
  end.

(** [tuple(errors) if errors else tuple()], meta.py:94.  Simplification: non-empty
    bytes and etag pairs, whose elements are not strings, are rejected. *)
Definition errors_tuple (v : pyval) : res (list str) :=
  if truthy v then
    match v with
    | PStrs l => Ok l
    | PStr s => Ok (map (fun c => [c]) s)
    | PBytes _ | PEtag _ _ => Err NotImplementedExn
    | _ => Err TypeError
    end
  else Ok [].

(** [created is None or isinstance(created, (int, datetime))], meta.py:60, 66 *)
Definition stamp_ok (v : pyval) : bool :=
  match v with PNone | PInt _ | PSize _ | PDt _ => true | _ => false end.

(** PathMeta.__init__, meta.py:38-97.  [extra] are the unexpected keyword
    arguments. *)
Definition meta_init_x (a : args) (extra : list (str * bytes)) : res pathmeta :=
  if (negb (truthy (a Ffile_id)) && negb (is_none (a Ffile_id))
      && negb (py_eq (a Ffile_id) (PInt 0)))%bool
  then Err TypeError                                                  (* 58-59 *)
  else if match a Fid with PNone | PStr _ => false | _ => true end
  then Err TypeError                                                  (* 72-76 *)
  else
    do size <- match a Fsize with PNone => Ok PNone | v => filesize v end ;  (* 79 *)
    do errors <- errors_tuple (a Ferrors) ;                           (* 94 *)
    let c := a Fcreated in
    let u := a Fupdated in
    Ok (mkMeta (a Fname) size
          (if stamp_ok c then PNone else c) (if stamp_ok c then Some c else None)
          (if stamp_ok u then PNone else u) (if stamp_ok u then Some u else None)
          (a Fchecksum) (a Fchecksum_cypher) (a Fetag) (a Fchunksize) (a Fmulti)
          (a Fparent_id) (a Fid) (a Ffile_id) (a Fold_id) (a Fgid) (a Fuser_id)
          (a Fmode) errors extra).

Definition meta_init (a : args) : res pathmeta := meta_init_x a [].

Section Dates.
(** [dateutil.parser.parse], an external library. *)
Variable dateparse : pyval -> res pyval.

(** The lazy properties, meta.py:104-116 (value only). *)
Definition get_created (m : pathmeta) : res pyval :=
  match m_created_ok m with Some v => Ok v | None => dateparse (m_created m) end.
Definition get_updated (m : pathmeta) : res pyval :=
  match m_updated_ok m with Some v => Ok v | None => dateparse (m_updated m) end.

(** [getattr(m, field)] *)
Definition getf (m : pathmeta) (f : field) : res pyval :=
  match f with
  | Fname => Ok (m_name m) | Fsize => Ok (m_size m)
  | Fcreated => get_created m | Fupdated => get_updated m
  | Fchecksum => Ok (m_checksum m) | Fchecksum_cypher => Ok (m_checksum_cypher m)
  | Fetag => Ok (m_etag m) | Fchunksize => Ok (m_chunksize m) | Fmulti => Ok (m_multi m)
  | Fparent_id => Ok (m_parent_id m) | Fid => Ok (m_id m) | Ffile_id => Ok (m_file_id m)
  | Fold_id => Ok (m_old_id m) | Fgid => Ok (m_gid m) | Fuser_id => Ok (m_user_id m)
  | Fmode => Ok (m_mode m) | Ferrors => Ok (PStrs (m_errors m))
  end.

(** The side effect of reading both properties: the parsed value is kept
    (meta.py:107, 114). *)
Definition force (m : pathmeta) : res pathmeta :=
  do c <- get_created m ;
  do u <- get_updated m ;
  Ok (mkMeta (m_name m) (m_size m) (m_created m) (Some c) (m_updated m) (Some u)
        (m_checksum m) (m_checksum_cypher m) (m_etag m) (m_chunksize m) (m_multi m)
        (m_parent_id m) (m_id m) (m_file_id m) (m_old_id m) (m_gid m) (m_user_id m)
        (m_mode m) (m_errors m) (m_kwargs m)).

(** [items()], meta.py:127-129, in dictionary order. *)
Definition item_fields : list field :=
  [Fname; Fsize; Fchecksum; Fchecksum_cypher; Fetag; Fchunksize; Fmulti; Fparent_id;
   Fid; Ffile_id; Fold_id; Fgid; Fuser_id; Fmode; Ferrors; Fcreated; Fupdated].

Definition items (m : pathmeta) : res (list (field * pyval)) :=
  rmap (fun f => do v <- getf m f ; Ok (f, v)) item_fields.

(** [content_different], meta.py:118-125 *)
Definition content_different (self other : pathmeta) : res bool :=
  if (truthy (m_checksum self) && truthy (m_checksum other))%bool
  then Ok (negb (py_eq (m_checksum self) (m_checksum other)))
  else if negb (py_eq (m_size self) (m_size other)) then Ok true
  else do a <- get_updated self ;
       do b <- get_updated other ;
       py_lt a b.
End Dates.

(** ** Instance dictionaries, used by __eq__ and __bool__ *)
Inductive attr : Set :=
| A (f : field)                 (* a public attribute, never created/updated *)
| A_created | A_created_ok | A_updated | A_updated_ok | A_kwargs.

(** Values as found in the instance dictionary; the kwargs dictionary is kept
    as its items. *)
Inductive dval : Type :=
| DV (v : pyval)
| DK (l : list (str * bytes)).

(** [self.__dict__.items()], in insertion order: meta.py:63, 69 come first when
    they run, then 78-97; a lazily parsed value (107, 114) is appended last. *)
Definition dict (m : pathmeta) : list (attr * dval) :=
  let early (raw : pyval) (ok : option pyval) (a : attr) :=
    match raw, ok with PNone, Some v => [(a, DV v)] | _, _ => [] end in
  let late (raw : pyval) (ok : option pyval) (a : attr) :=
    match raw, ok with PNone, _ => [] | _, Some v => [(a, DV v)] | _, None => [] end in
  early (m_created m) (m_created_ok m) A_created_ok ++
  early (m_updated m) (m_updated_ok m) A_updated_ok ++
  [(A Fname, DV (m_name m)); (A Fsize, DV (m_size m));
   (A_created, DV (m_created m)); (A_updated, DV (m_updated m));
   (A Fchecksum, DV (m_checksum m)); (A Fchecksum_cypher, DV (m_checksum_cypher m));
   (A Fetag, DV (m_etag m)); (A Fchunksize, DV (m_chunksize m)); (A Fmulti, DV (m_multi m));
   (A Fparent_id, DV (m_parent_id m)); (A Fid, DV (m_id m)); (A Ffile_id, DV (m_file_id m));
   (A Fold_id, DV (m_old_id m)); (A Fgid, DV (m_gid m)); (A Fuser_id, DV (m_user_id m));
   (A Fmode, DV (m_mode m)); (A Ferrors, DV (PStrs (m_errors m)))] ++
  (match m_kwargs m with [] => [] | l => [(A_kwargs, DK l)] end) ++
  late (m_created m) (m_created_ok m) A_created_ok ++
  late (m_updated m) (m_updated_ok m) A_updated_ok.

Definition attr_eqb (a b : attr) : bool :=
  match a, b with
  | A f, A g => field_eqb f g
  | A_created, A_created | A_created_ok, A_created_ok | A_updated, A_updated
  | A_updated_ok, A_updated_ok | A_kwargs, A_kwargs => true
  | _, _ => false
  end.

(** Equality of two dictionaries given by their items (keys unique). *)
Definition kw_eq (a b : list (str * bytes)) : bool :=
  (Nat.eqb (length a) (length b) &&
   forallb (fun kv => existsb (fun kv' => (str_eqb (fst kv) (fst kv')
                                         && bytes_eqb (snd kv) (snd kv'))%bool) b) a)%bool.

Definition dval_eq (a b : dval) : bool :=
  match a, b with
  | DV x, DV y => py_eq x y
  | DK x, DK y => kw_eq x y
  | _, _ => false
  end.

(** [__eq__] with another PathMeta, meta.py:157-163 *)
Fixpoint eq_loop (l : list (attr * dval)) (other : list (attr * dval)) : res bool :=
  match l with
  | [] => Ok true
  | (a, v) :: r =>
      match find (fun p => attr_eqb a (fst p)) other with
      | None => Err AttributeError
      | Some (_, w) => if dval_eq v w then eq_loop r other else Ok false
      end
  end.
Definition meta_eq (self other : pathmeta) : res bool := eq_loop (dict self) (dict other).

(** [__bool__], meta.py:165-173 *)
Definition dval_none (v : dval) : bool := match v with DV PNone => true | _ => false end.
Definition meta_bool (m : pathmeta) : bool :=
  existsb (fun p => match p with
                    | (A Ferrors, DV v) => truthy v
                    | (_, v) => negb (dval_none v)
                    end) (dict m).

(** [__getitem__], meta.py:141-145: the attribute is read but not returned. *)
Definition meta_getitem (dateparse : pyval -> res pyval) (m : pathmeta) (f : field) : res pyval :=
  do _ <- getf dateparse m f ; Ok PNone.
