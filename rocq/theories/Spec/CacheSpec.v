(** * What is stored with a path *)
From Coq Require Import String NArith ZArith Bool List.
From Verif Require Import Model.Py Model.PurePath Model.Meta Model.MetaXattr Model.MetaSymlink Model.Fs Model.Cache Spec.FsSpec Spec.LoopSpec.
Import ListNotations.

(** The metadata stored with something of that name: in its extended attributes, or
    in the target of a link. *)
Definition recorded (K : conf) (name : str) (v : option thing) : res (option pathmeta) :=
  match v with
  | None => Ok None
  | Some (AFile _ xs) | Some (ADir xs) =>
      do m <- from_xattrs (c_legacy K) (user_attrs xs) (c_prefix K) ;
      Ok (if meta_bool m then Some m else None)
  | Some (ALink t) =>
      match from_symlink name t false false with
      | Ok m => Ok (Some m)
      | Err NoCachedMetadataError => Ok None
      | Err e => Err e
      end
  end.

(** What a call changes is at [P] or below it, and no directory comes to be there. *)
Definition confined (P : place) (m : M unit) : Prop :=
  forall w r w', good_fs (w_fs w) -> m w = (r, w') ->
    w_fault w' = w_fault w /\ w_cwd w' = w_cwd w /\
    exists l, w_hist w' = l ++ w_hist w /\
    forall s, In s (w_fs w' :: l) -> good_fs s /\
      (forall q, ~ below P q -> look s q = look (w_fs w) q) /\
      (is_dir_at s P -> is_dir_at (w_fs w) P).

(** Stored metadata says that the checksum did not match, if it can be read at all. *)
Definition says_mismatch (K : conf) (name : str) (v : option thing) : Prop :=
  forall o, recorded K name v = Ok o -> exists m, o = Some m /\ In ($"checksum-mismatch") (m_errors m).

(** The algorithm with which the checksum of that metadata is made: the one recorded,
    that of the class where none is. *)
Definition algorithm (K : conf) (m : pathmeta) (cy : str) : Prop :=
  (m_checksum_cypher m = PNone /\ cy = c_cypher K) \/ m_checksum_cypher m = PStr cy.

(** The fields whose values read back are the values written. *)
Definition plain (f : field) : bool :=
  match f with
  | Fname | Fsize | Fchecksum | Fchecksum_cypher | Fchunksize | Fmulti | Fparent_id | Fid | Ffile_id | Fold_id | Fgid | Fmode => true
  | _ => false
  end.

(** What is taken for a date is one. *)
Definition gives_dates (K : conf) : Prop :=
  (forall v w, c_dateparse K v = Ok w -> exists d, w = PDt d) /\ (forall b w, c_legacy K b = Ok w -> exists d, w = PDt d).

(** Something where metadata can be stored: a file, or a link that points below itself. *)
Definition cached_leaf (name : str) (v : thing) : Prop :=
  match v with AFile _ _ => True | ALink t => starts_with_name name t | ADir _ => False end.

(** Metadata is newer than other: it was updated later, or at the same time and
    created later. *)
Definition newer (K : conf) (old new : pathmeta) : Prop :=
  exists u v, get_updated (c_dateparse K) old = Ok u /\ get_updated (c_dateparse K) new = Ok v /\
    (py_lt u v = Ok true \/
     py_lt u v = Ok false /\ py_lt v u = Ok false /\
     exists c d, get_created (c_dateparse K) old = Ok c /\ get_created (c_dateparse K) new = Ok d /\ py_lt c d = Ok true).

(** The trash is a directory that the place is not in. *)
Definition trash_at (K : conf) (fs : node) (TR P : place) : Prop :=
  c_trash K = path_of TR /\ is_dir_at fs TR /\ ~ below TR P.
(** The id stored with a file is the name of a file once it was made safe. *)
Definition usable_id (K : conf) (name : str) (v : option thing) : Prop :=
  forall m i, recorded K name v = Ok (Some m) -> m_id m = PStr i -> good_name (Access.fs_safe_id i).
(** Where something of that name may come to be in the trash. *)
Definition trash_name (K : conf) (name : str) (v : option thing) (y : str) : Prop :=
  y = name \/ exists m i, recorded K name v = Ok (Some m) /\ m_id m = PStr i /\ y = Access.fs_safe_id i.
(** The id stored with something, where there is one. *)
Definition stored_id (m : option pathmeta) : pyval :=
  match m with Some x => if meta_bool x then m_id x else PNone | None => PNone end.
