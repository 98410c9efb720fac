(** * What a copy of metadata is *)
From Coq Require Import String NArith ZArith Bool List.
From Verif Require Import Model.Py Model.Meta Model.Fs Model.PathOps Model.Sparse Model.Cache Spec.FsSpec Spec.CopySpec Spec.MetaSpec Spec.XattrSpec.
Import ListNotations.

(** The value of a field; where there is no metadata it is absent. *)
Definition value (K : conf) (o : option pathmeta) (f : field) : res pyval :=
  match o with Some m => getf (c_dateparse K) m f | None => Ok (no_args f) end.

(** The text of a date is read as that date. *)
Definition reparses (K : conf) (v : pyval) : Prop := forall d, v = PDt d -> c_dateparse K (PStr (isoformat d)) = Ok (PDt d).

(** What is there has the fields of [m]; what is empty counts as absent. *)
Definition same_meta (K : conf) (m : pathmeta) (o : option pathmeta) : Prop :=
  forall f v, reparses K v -> getf (c_dateparse K) m f = Ok v ->
    value K o f = Ok (if blank v then no_args f else v).

(** The dates of metadata can be read. *)
Definition dated (K : conf) (m : pathmeta) : Prop :=
  (exists v, getf (c_dateparse K) m Fcreated = Ok v) /\ (exists v, getf (c_dateparse K) m Fupdated = Ok v).

(** A place for a file: in a directory, with nothing or a file there. *)
Definition free_or_file (fs : node) (D : place) (x : str) : Prop :=
  good_name x /\ is_dir_at fs D /\ match look fs (D ++ [x]) with None | Some (AFile _ _) => True | _ => False end.

(** No attributes but those of the fields differ. *)
Definition only_fields (K : conf) (ys zs : xattrs) : Prop :=
  forall key, (forall f b, utf8_enc (under (c_prefix K) (field_name f)) = Some b -> key <> xkey (key_text b)) -> xget key zs = xget key ys.

(** What can be at the place of a copy while it is made: what was there, a beginning of
    the content with the old attributes, or all of the content. *)
Definition copying (K : conf) (fs : node) (T : place) (d : bytes) (s : node) : Prop :=
  look s T = look fs T \/
  (exists n, look s T = Some (AFile (firstn n d) (file_xattrs fs T))) \/
  (exists zs, look s T = Some (AFile d zs) /\ only_fields K (file_xattrs fs T) zs).
