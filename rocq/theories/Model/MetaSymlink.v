(** * Metadata as a symbolic link target: /repo/augpathlib/meta.py:187-458 *)
From Coq Require Import String NArith ZArith Bool List.
From Verif Require Import Model.Py Model.PurePath Model.Meta Model.MetaEncode.
Import ListNotations.

Definition empty := $"#".                     (* meta.py:192 *)
Definition c_fieldsep := chr ".".             (* meta.py:193 *)
Definition c_subfieldsep := chr ";".          (* meta.py:194 *)
Definition c_pathsep := chr "|".              (* meta.py:195 *)
Definition c_fieldsep_esc := chr "!".         (* meta.py:196 *)
Definition c_slash := chr "/".

(** meta.py:197-276 *)
Definition v_meta : list field :=
  [Ffile_id; Fsize; Fcreated; Fupdated; Fchecksum; Fold_id; Fgid; Fuser_id; Fmode; Ferrors].
Definition v_mdv1 : list field :=
  [Ffile_id; Fsize; Fcreated; Fupdated; Fchecksum; Fchunksize; Fold_id; Fgid; Fuser_id;
   Fmode; Ferrors].
Definition v_mdv2 : list field :=
  [Ffile_id; Fsize; Fcreated; Fupdated; Fchecksum; Fetag; Fchunksize; Fold_id; Fgid;
   Fuser_id; Fmode; Ferrors].
Definition v_mdv3 : list field :=
  [Ffile_id; Fsize; Fcreated; Fupdated; Fchecksum; Fetag; Fchunksize; Fparent_id; Fold_id;
   Fgid; Fuser_id; Fmode; Fname; Ferrors].
Definition v_mdv4 : list field :=
  [Ffile_id; Fsize; Fcreated; Fupdated; Fchecksum; Fchecksum_cypher; Fetag; Fchunksize;
   Fparent_id; Fold_id; Fgid; Fuser_id; Fmode; Fname; Ferrors].
Definition v_mdv6 : list field :=
  [Ffile_id; Fsize; Fcreated; Fupdated; Fchecksum; Fchecksum_cypher; Fetag; Fchunksize;
   Fmulti; Fparent_id; Fold_id; Fgid; Fuser_id; Fmode; Fname; Ferrors].

Definition versions : list (str * list field) :=
  [($"meta", v_meta); ($"mdv1", v_mdv1); ($"mdv2", v_mdv2); ($"mdv3", v_mdv3);
   ($"mdv4", v_mdv4); ($"mdv6", v_mdv6); ($"mdv5", v_mdv4)].

Definition write_version := $"mdv6".          (* meta.py:277 *)
Definition order : list field := v_mdv6.      (* meta.py:278 *)

(** A field of the target: a metadata field or 'size.hr' (meta.py:279). *)
Inductive efield : Set := EF (f : field) | Ehr.
Definition order_all : list efield := map EF order ++ [Ehr].      (* meta.py:296-298 *)

(** encode, meta.py:300-333.  The value of 'size.hr' is None or a string. *)
Definition encode (ef : efield) (value : pyval) : res str :=
  let value := match ef with                                          (* 301-305 *)
               | EF Ffile_id => if truthy value then value else PNone
               | _ => value
               end in
  if is_none value then Ok empty                                      (* 307-308 *)
  else
  match ef, value with
  | EF Ferrors, _ => join_semi value                                  (* 310-311 *)
  | EF Fchecksum, PBytes b => Ok (hex b)                              (* 313-314 *)
  | EF Fchecksum, _ => Err AttributeError
  | _, PStr s =>
      do s <- (if has c_slash s then                                  (* 316-324 *)
                 if has c_pathsep s then Err ValueError
                 else match ef with
                      | EF Fname => Err ValueError
                      | _ => Ok (replace1 c_slash c_pathsep s)
                      end
               else Ok s) ;
      if has c_fieldsep s then                                        (* 326-331 *)
        if has c_fieldsep_esc s then Err ValueError
        else Ok (replace1 c_fieldsep c_fieldsep_esc s)
      else Ok s
  | EF f, v =>                                                        (* 333 *)
      do w <- str_encode f v ;
      match w with PStr s => Ok s | _ => Err TypeError end
  | Ehr, _ => Err UnhandledTypeError
  end.

(** decode, meta.py:335-387.  The attribute set on the converter at 343 is never
    read.  For a malformed number 383 stops in the debugger before raising. *)
Definition decode (f : field) (value : str) (version : Z) : res pyval :=
  if str_eqb value empty then Ok PNone                                (* 336-337 *)
  else
  match f with
  | Ferrors =>                                                        (* 339-340 *)
      Ok (PStrs (filter (fun x => negb (str_eqb x [])) (split c_subfieldsep value)))
  | Fcreated | Fupdated => Ok (PStr value)                            (* 342-344 *)
  | Fchecksum =>                                                      (* 346-348 *)
      match fromhex value with Some b => Ok (PBytes b) | None => Err ValueError end
  | Fchecksum_cypher => Ok (PStr value)                               (* 350-351 *)
  | Fetag =>                                                          (* 353-356 *)
      match rsplit1 (chr "-") value with
      | None => Err ValueError
      | Some (c, n) =>
          match py_int n with
          | None => Err ValueError
          | Some z => match fromhex c with Some b => Ok (PEtag b z) | None => Err ValueError end
          end
      end
  | Fuser_id =>                                                       (* 358-362 *)
      match py_int value with Some z => Ok (PInt z) | None => Ok (PStr value) end
  | Fname | Fid | Fmode | Fold_id | Fparent_id =>                     (* 364-378 *)
      do value <- (if has c_pathsep value then
                     match f with
                     | Fname => if Z.leb 5 version then Err ValueError
                                else Ok (replace1 c_pathsep (chr ".") value)
                     | _ => Ok (replace1 c_pathsep c_slash value)
                     end
                   else Ok value) ;
      Ok (PStr (if Z.leb 5 version then replace1 c_fieldsep_esc c_fieldsep value else value))
  | Fsize | Fchunksize | Fmulti | Ffile_id | Fgid =>                  (* 380-385 *)
      match py_int value with Some z => Ok (PInt z) | None => Err ValueError end
  end.

Section Dates.
Variable dateparse : pyval -> res pyval.

(** multigetattr, meta.py:399-408, for one entry of [order_all] *)
Definition get_e (m : pathmeta) (ef : efield) : res pyval :=
  match ef with
  | EF f => getf dateparse m f
  | Ehr => match m_size m with
           | PSize z => do s <- hr z ; Ok (PStr s)
           | _ => Ok PNone
           end
  end.

(** The text after the id, meta.py:410-415.  The id is encoded first, the
    fields when the generator is consumed. *)
Definition symlink_text (m : pathmeta) : res str :=
  do id <- encode (EF Fid) (m_id m) ;
  do fs <- rmap (fun ef => do v <- get_e m ef ; encode ef v) order_all ;
  Ok (id ++ $"/." ++ write_version ++ $"." ++ join [c_fieldsep] fs).

(** as_symlink, meta.py:389-419 *)
Definition as_symlink (m : pathmeta) (local_name : option str) : res ppath :=
  do t <- symlink_text m ;
  Ok (match local_name with
      | None => pp_parse t
      | Some n => pp_join (pp_parse n) (pp_parse t)
      end).
End Dates.

(** from_parts, meta.py:449-458 *)
Definition lookup_version (v : str) : option (list field) :=
  option_map snd (find (fun p => str_eqb (fst p) v) versions).

Fixpoint decode_all (l : list (field * str)) (version : Z) (a : args) : res args :=
  match l with
  | [] => Ok a
  | (f, s) :: r => do v <- decode f s version ; decode_all r version (set_arg f v a)
  end.

Definition from_parts (ps : list str) : res pathmeta :=
  match ps with
  | [] => Err IndexError                                              (* 450 *)
  | _ =>
      match split c_fieldsep (last ps []) with                        (* 451 *)
      | _ :: version :: suffixes =>
          match py_int (skipn 3 version) with                         (* 452 *)
          | None => Err ValueError
          | Some vint =>
              match lookup_version version with                       (* 453 *)
              | None => Err KeyError
              | Some order =>
                  do a <- decode_all (combine order suffixes) vint no_args ;  (* 454-455 *)
                  do id <- decode Fid (pp_str (pp_parent (pp_of_list ps))) vint ; (* 456-457 *)
                  meta_init (set_arg Fid id a)                        (* 458 *)
              end
          end
      | _ => Err ValueError
      end
  end.

(** from_symlink, meta.py:421-447.  [name] is the name of the link, [raw] its
    target, [lower_exists] whether the parent of the lower-cased path exists
    (434-437, which stops in the debugger first). *)
Definition from_symlink (name raw : str) (match_name lower_exists : bool) : res pathmeta :=
  match parts (pp_parse raw) with
  | [] => Err ValueError                                              (* 426 *)
  | local_name :: ps =>
      match ps with
      | [_] => from_parts (local_name :: ps)                          (* 427-432 *)
      | _ =>
          if (match_name && negb (str_eqb name local_name))%bool then (* 434-445 *)
            if lower_exists then Err (OSErr ENOENT) else Err CircularSymlinkNameError
          else from_parts ps
      end
  end.
