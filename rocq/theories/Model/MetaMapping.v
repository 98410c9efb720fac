(** * Metadata as a database entry and as a mapping:
    /repo/augpathlib/meta.py:31-35, 133-151 *)
From Coq Require Import String NArith ZArith Bool List.
From Verif Require Import Model.Py Model.Meta Model.MetaEncode Model.MetaXattr.
Import ListNotations.

(** ** Database entries *)
Section Store.
Variable dateparse : pyval -> res pyval.
Variable legacy_stamp : bytes -> res pyval.
(** [pickle.dumps] of a dictionary from bytes to bytes, and [pickle.loads] of
    any bytes as such a dictionary. *)
Variable dumps : xattrs -> bytes.
Variable loads : bytes -> res xattrs.

(** as_metastore, meta.py:133-136 *)
Definition as_metastore (m : pathmeta) (prefix : option str) : res bytes :=
  do xs <- as_xattrs dateparse m prefix ; Ok (dumps xs).

(** from_metastore, meta.py:31-35 *)
Definition from_metastore (blob : bytes) (prefix : option str) : res pathmeta :=
  do xs <- loads blob ; from_xattrs legacy_stamp xs prefix.
End Store.

(** ** The mapping *)

(** __iter__, meta.py:147-148, and keys, meta.py:138-139: the names in the
    instance dictionary that do not start with an underscore. *)
Definition meta_keys (m : pathmeta) : list field :=
  flat_map (fun p => match fst p with A f => [f] | _ => [] end) (dict m).

(** __getitem__, meta.py:141-145, for any key: the attribute is read, and what
    it was is dropped.  [attribute] tells which names that are not fields are
    attributes as well: methods, the private names. *)
Definition meta_item (dateparse : pyval -> res pyval) (attribute : str -> bool)
    (m : pathmeta) (key : str) : res pyval :=
  match find (fun f => str_eqb (field_name f) key) x_fields with
  | Some f =>
      match meta_getitem dateparse m f with
      | Err AttributeError => Err KeyError
      | r => r
      end
  | None => if attribute key then Ok PNone else Err KeyError
  end.

(** [dict(m)] and [{**m}]: [m[k]] for each k in [m.keys()]. *)
Definition meta_dict (dateparse : pyval -> res pyval) (attribute : str -> bool)
    (m : pathmeta) : res (list (str * pyval)) :=
  rmap (fun f => do v <- meta_item dateparse attribute m (field_name f) ;
                 Ok (field_name f, v)) (meta_keys m).

(** ** Copies *)

(** The parameters of __init__ in order, meta.py:39-55. *)
Definition params : list field :=
  [Fname; Fsize; Fcreated; Fupdated; Fchecksum; Fchecksum_cypher; Fetag; Fchunksize;
   Fmulti; Fparent_id; Fid; Ffile_id; Fold_id; Fgid; Fuser_id; Fmode; Ferrors].

(** A call with arguments by position only. *)
Fixpoint by_position (ps : list field) (vs : list pyval) {struct vs} : res args :=
  match vs, ps with
  | [], _ => Ok no_args
  | _ :: _, [] => Err TypeError
  | v :: vs', p :: ps' => do a <- by_position ps' vs' ; Ok (set_arg p v a)
  end.

(** The dictionary in what __reduce__ returns, meta.py:150-151. *)
Definition meta_reduce (dateparse : pyval -> res pyval) (m : pathmeta)
  : res (list (field * pyval)) :=
  do l <- items dateparse m ; Ok (filter (fun p => negb (is_none (snd p))) l).

(** [copy.copy(m)] and [copy.deepcopy(m)]: Python's copy._reconstruct calls
    [func( *args )] with the two things __reduce__ returned.  The second is a
    dictionary, so the arguments are its keys.  ([pickle.dumps] wants a tuple
    there and raises PicklingError; not modelled.) *)
Definition meta_copy (dateparse : pyval -> res pyval) (m : pathmeta) : res pathmeta :=
  do d <- meta_reduce dateparse m ;
  do a <- by_position params (map (fun p => PStr (field_name (fst p))) d) ;
  meta_init a.
