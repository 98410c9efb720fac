(** * Field encoders: /repo/augpathlib/meta.py:814-880 *)
From Coq Require Import String NArith ZArith Bool List.
From Verif Require Import Model.Py Model.Meta.
Import ListNotations.

(** [str(v)].  Simplification: the text of bytes, datetimes and tuples, which no
    caller stores in the fields that use it, is not modelled. *)
Definition py_str (v : pyval) : res str :=
  match v with
  | PNone => Ok $"None"
  | PInt z | PSize z => Ok (dec_Z z)          (* FileSize.__str__, utils.py:151-152 *)
  | PStr s => Ok s
  | _ => Err NotImplementedExn
  end.

(** [';'.join(value)], meta.py:836-837 and meta.py:310 *)
Definition join_semi (v : pyval) : res str :=
  match v with
  | PStrs l => Ok (join $";" l)
  | PStr s => Ok (join $";" (map (fun c => [c]) s))
  | PBytes [] => Ok []
  | _ => Err TypeError
  end.

(** _EncodeByField.__call__ and the method of each field, meta.py:814-862.  The
    fields without a method raise UnhandledTypeError.  meta.py:824-834: only
    datetimes have a text form, via isoformat. *)
Definition str_encode (f : field) (v : pyval) : res pyval :=
  match v with
  | PStr s => Ok (PStr s)                                            (* 816-817 *)
  | _ =>
      match f with
      | Ferrors => do s <- join_semi v ; Ok (PStr s)
      | Fcreated | Fupdated =>
          match v with PDt d => Ok (PStr (isoformat d)) | _ => Err TypeError end
      | Fid => Err TypeError                                         (* 848-852 *)
      | Fsize | Fchunksize | Fmulti | Fparent_id | Ffile_id | Fgid | Fuser_id =>
          do s <- py_str v ; Ok (PStr s)
      | Fchecksum => Ok v                                            (* 855 *)
      | Fetag =>                                                     (* 856 *)
          match v with
          | PEtag b n => Ok (PStr (hex b ++ $"-" ++ dec_Z n))
          | PBytes [] | PStrs [] => Err IndexError
          | PBytes _ | PStrs _ => Err UnhandledTypeError
          | _ => Err TypeError
          end
      | Fname | Fchecksum_cypher | Fold_id | Fmode => Err UnhandledTypeError  (* 819-822 *)
      end
  end.
