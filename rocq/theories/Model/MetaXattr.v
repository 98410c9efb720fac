(** * Metadata as extended attributes: /repo/augpathlib/meta.py:461-622 *)
From Coq Require Import String NArith ZArith Bool List.
From Verif Require Import Model.Py Model.Meta Model.MetaEncode.
Import ListNotations.

(** A dictionary of attributes, in iteration order, keys unique. *)
Definition xattrs := list (bytes * bytes).

(** meta.py:466-482 *)
Definition x_fields : list field :=
  [Fname; Fsize; Fcreated; Fupdated; Fchecksum; Fchecksum_cypher; Fetag; Fchunksize;
   Fmulti; Fparent_id; Fid; Ffile_id; Fold_id; Fgid; Fuser_id; Fmode; Ferrors].

Definition enc (s : str) : res bytes :=
  match utf8_enc s with Some b => Ok b | None => Err UnicodeError end.
Definition dec (b : bytes) : res str :=
  match utf8_dec b with Some s => Ok s | None => Err UnicodeError end.

(** _EncodeByFieldBytes.__call__, meta.py:865-875 *)
Definition bytes_encode (f : field) (v : pyval) : res pyval :=
  match v with
  | PBytes _ => Ok v
  | _ =>
      do out <- str_encode f v ;
      match out with
      | PStr s => do b <- enc s ; Ok (PBytes b)
      | _ => Ok out
      end
  end.

(** encode, meta.py:559-573 *)
Definition x_encode (f : field) (v : pyval) : res pyval :=
  if (is_none v || empty_iterable v)%bool then Err TypeError else bytes_encode f v.

(** [int(value)] of bytes; [None] is ValueError *)
Definition int_bytes (b : bytes) : option Z := py_int (map Byte.to_N b).

(** The key of a field under a prefix, meta.py:549-554.  [None] and the empty
    string mean no prefix. *)
Definition x_key (prefix : option str) (k : str) : str :=
  match prefix with
  | None | Some [] => k
  | Some p => p ++ $"." ++ k
  end.

Section Stamps.
Variable dateparse : pyval -> res pyval.
(** [struct.unpack('d', value)] then [datetime.fromtimestamp], for eight bytes *)
Variable legacy_stamp : bytes -> res pyval.

(** as_xattrs, meta.py:540-557.  A value that is not bytes after encoding (a
    checksum that is neither bytes nor text) is a TypeError in setxattr,
    core.py:294-296; the model raises it here. *)
Fixpoint as_xattrs_from (l : list field) (m : pathmeta) (prefix : option str) : res xattrs :=
  match l with
  | [] => Ok []
  | f :: r =>
      do v <- getf dateparse m f ;
      if (is_none v || empty_iterable v)%bool then as_xattrs_from r m prefix
      else
        do w <- x_encode f v ;
        do k <- enc (x_key prefix (field_name f)) ;
        match w with
        | PBytes b => do out <- as_xattrs_from r m prefix ; Ok ((k, b) :: out)
        | _ => Err TypeError
        end
  end.
Definition as_xattrs := as_xattrs_from x_fields.

(** decode of a known field, meta.py:575-622 *)
Definition x_decode (f : field) (value : bytes) : res pyval :=
  match f with
  | Fcreated | Fupdated =>                                            (* 576-585 *)
      if Nat.eqb (length value) 8 then legacy_stamp value
      else do s <- dec value ; Ok (PStr s)
  | Fchecksum => Ok (PBytes value)                                    (* 587-588 *)
  | Fchecksum_cypher => do s <- dec value ; Ok (PStr s)               (* 590-591 *)
  | Fetag =>                                                          (* 593-598 *)
      do s <- dec value ;
      match rsplit1 (chr "-") s with
      | None => Err ValueError
      | Some (c, n) =>
          match py_int n with
          | None => Err ValueError
          | Some z => match fromhex c with Some b => Ok (PEtag b z) | None => Err ValueError end
          end
      end
  | Ferrors =>                                                        (* 600-602 *)
      do s <- dec value ;
      Ok (PStrs (filter (fun x => negb (str_eqb x [])) (split (chr ";") s)))
  | Fuser_id =>                                                       (* 604-608 *)
      match int_bytes value with
      | Some z => Ok (PInt z)
      | None => do s <- dec value ; Ok (PStr s)
      end
  | Fid | Fmode | Fold_id | Fparent_id | Fname =>                     (* 610-611 *)
      do s <- dec value ; Ok (PStr s)
  | Fsize | Fchunksize | Fmulti | Ffile_id | Fgid =>                  (* 617-622 *)
      match int_bytes value with Some z => Ok (PInt z) | None => Err ValueError end
  end.

Definition field_of (k : str) : option field :=
  find (fun f => str_eqb (field_name f) k) x_fields.

(** deprefix, meta.py:501-505, with the branch of meta.py:523-536 *)
Definition deprefix (prefix : option str) (k : str) : option str :=
  match prefix with
  | None | Some [] => Some k
  | Some p => if startswith k (p ++ $".") then Some (skipn (length (p ++ $".")) k) else None
  end.

(** The keyword arguments, meta.py:523-536; unknown fields keep their bytes
    (613-615). *)
Fixpoint x_kwargs (prefix : option str) (xs : xattrs) : res (list (str * pyval)) :=
  match xs with
  | [] => Ok []
  | (kraw, v) :: r =>
      do k0 <- dec kraw ;
      match deprefix prefix k0 with
      | None => x_kwargs prefix r
      | Some k =>
          do w <- match field_of k with Some f => x_decode f v | None => Ok (PBytes v) end ;
          do ws <- x_kwargs prefix r ;
          Ok ((k, w) :: ws)
      end
  end.

Definition lookup {B} (k : str) (l : list (str * B)) : option B :=
  option_map snd (find (fun p => str_eqb (fst p) k) l).

(** [PathMeta( **kwargs )], meta.py:538.  A key "self" clashes with the first
    parameter. *)
Definition extras (kws : list (str * pyval)) : list (str * bytes) :=
  flat_map (fun p => match field_of (fst p), snd p with
                     | None, PBytes b => [(fst p, b)]
                     | _, _ => []
                     end) kws.
Definition kw_args (kws : list (str * pyval)) : args :=
  fun f => match lookup (field_name f) kws with Some v => v | None => no_args f end.
Definition call_pathmeta (kws : list (str * pyval)) : res pathmeta :=
  if existsb (fun p => str_eqb (fst p) $"self") kws then Err TypeError
  else meta_init_x (kw_args kws) (extras kws).

(** from_xattrs, meta.py:507-538, for a path object without [decode_value]
    (no class in the package defines one). *)
Definition from_xattrs (xs : xattrs) (prefix : option str) : res pathmeta :=
  do kws <- x_kwargs prefix xs ;
  call_pathmeta kws.
End Stamps.

(** setxattrs, core.py:301-303: attributes of the file after setting all of
    [new], one by one. *)
Definition set1 (k v : bytes) (xs : xattrs) : xattrs :=
  if existsb (fun p => bytes_eqb (fst p) k) xs
  then map (fun p => if bytes_eqb (fst p) k then (k, v) else p) xs
  else xs ++ [(k, v)].
Definition setxattrs (new xs : xattrs) : xattrs :=
  fold_left (fun acc p => set1 (fst p) (snd p) acc) new xs.
