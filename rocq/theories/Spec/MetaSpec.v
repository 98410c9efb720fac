(** * What metadata is, independently of how it is stored

    A set of metadata is a value for each field.  [typed] says which kind of
    value belongs in which field. *)
From Coq Require Import String NArith ZArith Bool List.
From Verif Require Import Model.Py Model.Meta.
Import ListNotations.

Definition lacks (c : string) (s : str) : Prop := ~ In (chr c) s.

(** Sizes are bounded because 'size.hr' converts to a double. *)
Definition typed_field (f : field) (v : pyval) : Prop :=
  match f with
  | Fname | Fid | Fparent_id | Fold_id | Fmode | Fchecksum_cypher =>
      v = PNone \/ exists s, v = PStr s
  | Fsize => v = PNone \/ exists z, v = PInt z /\ (z < 2 ^ 1023)%Z
  | Fchunksize | Fmulti | Fgid | Ffile_id => v = PNone \/ exists z, v = PInt z
  | Fuser_id => v = PNone \/ (exists z, v = PInt z) \/ exists s, v = PStr s
  | Fcreated | Fupdated => v = PNone \/ exists d, v = PDt d
  | Fchecksum => v = PNone \/ exists b, v = PBytes b
  | Fetag => v = PNone \/ exists b n, v = PEtag b n
  | Ferrors => exists l, v = PStrs l
  end.
Definition typed (a : args) : Prop := forall f, typed_field f (a f).

Definition is_stamp (f : field) : bool :=
  match f with Fcreated | Fupdated => true | _ => false end.

(** A stored stamp [raw, ok] for the original value [v]: absent, or its text. *)
Definition stamp_text (v raw : pyval) (ok : option pyval) : Prop :=
  match v with
  | PDt d => raw = PStr (isoformat d) /\ ok = None
  | _ => raw = PNone /\ ok = Some PNone
  end.

(** [m'] carries the metadata [a]: equal fields, stamps as their text. *)
Definition carries (m' : pathmeta) (a : args) : Prop :=
  (forall dp f, is_stamp f = false ->
     getf dp m' f = Ok (match f, a f with Fsize, PInt z => PSize z | _, v => v end)) /\
  stamp_text (a Fcreated) (m_created m') (m_created_ok m') /\
  stamp_text (a Fupdated) (m_updated m') (m_updated_ok m') /\
  m_kwargs m' = [].

(** The values that survive storage in a symbolic link. *)
Definition link_safe_field (f : field) (v : pyval) : Prop :=
  match f, v with
  | Fid, PStr s => s <> [] /\ s <> $"#" /\ lacks "|" s /\ lacks "!" s
  | (Fparent_id | Fold_id | Fmode), PStr s => s <> $"#" /\ lacks "|" s /\ lacks "!" s
  | Fname, PStr s => s <> $"#" /\ lacks "|" s /\ lacks "!" s /\ lacks "/" s
  | Fchecksum_cypher, PStr s => s <> $"#" /\ lacks "." s /\ lacks "/" s
  | Fuser_id, PStr s => s <> $"#" /\ lacks "." s /\ lacks "/" s /\ py_int s = None
  | Ffile_id, PInt z => z <> 0%Z
  | Fetag, PEtag _ n => (0 <= n)%Z
  | Ferrors, PStrs l =>
      l <> [$"#"] /\
      forall e, In e l -> e <> [] /\ lacks ";" e /\ lacks "." e /\ lacks "/" e
  | _, _ => True
  end.
Definition link_safe (a : args) : Prop := forall f, link_safe_field f (a f).

(** A usable file name. *)
Definition file_name (s : str) : Prop :=
  s <> [] /\ s <> $"." /\ lacks "/" s.

(** The fields of each published version of the link format, by position. *)
Definition published (v : N) : option (list field) :=
  match v with
  | 1 => Some [Ffile_id; Fsize; Fcreated; Fupdated; Fchecksum; Fchunksize; Fold_id;
               Fgid; Fuser_id; Fmode; Ferrors]
  | 2 => Some [Ffile_id; Fsize; Fcreated; Fupdated; Fchecksum; Fetag; Fchunksize;
               Fold_id; Fgid; Fuser_id; Fmode; Ferrors]
  | 3 => Some [Ffile_id; Fsize; Fcreated; Fupdated; Fchecksum; Fetag; Fchunksize;
               Fparent_id; Fold_id; Fgid; Fuser_id; Fmode; Fname; Ferrors]
  | 4 | 5 => Some [Ffile_id; Fsize; Fcreated; Fupdated; Fchecksum; Fchecksum_cypher;
               Fetag; Fchunksize; Fparent_id; Fold_id; Fgid; Fuser_id; Fmode; Fname;
               Ferrors]
  | 6 => Some [Ffile_id; Fsize; Fcreated; Fupdated; Fchecksum; Fchecksum_cypher;
               Fetag; Fchunksize; Fmulti; Fparent_id; Fold_id; Fgid; Fuser_id; Fmode;
               Fname; Ferrors]
  | _ => None
  end%N.

(** How version [n] of the format writes a value. *)
Definition written (n : N) (f : field) (v : pyval) (raw : str) : Prop :=
  match f, v with
  | Ferrors, PNone => raw = $"#"
  | Ferrors, PStrs l => raw = join $";" l /\ raw <> $"#" /\
      forall e, In e l -> e <> [] /\ lacks ";" e /\ lacks "." e /\ lacks "/" e
  | _, PNone => raw = $"#"
  | (Fsize | Fchunksize | Fmulti | Fgid | Ffile_id | Fuser_id), PInt z => raw = dec_Z z
  | Fuser_id, PStr s => raw = s /\ s <> $"#" /\ lacks "." s /\ lacks "/" s /\ py_int s = None
  | (Fcreated | Fupdated | Fchecksum_cypher), PStr s =>
      raw = s /\ s <> $"#" /\ lacks "." s /\ lacks "/" s
  | Fchecksum, PBytes b => raw = hex b
  | Fetag, PEtag b k => (0 <= k)%Z /\ raw = hex b ++ $"-" ++ dec_Z k
  | Fname, PStr s =>
      s <> $"#" /\ lacks "/" s /\ lacks "|" s /\
      (if N.ltb n 5 then raw = replace1 (chr ".") (chr "|") s
       else lacks "!" s /\ raw = replace1 (chr ".") (chr "!") s)
  | (Fid | Fparent_id | Fold_id | Fmode), PStr s =>
      s <> $"#" /\ lacks "|" s /\
      (if N.ltb n 5 then lacks "." s /\ raw = replace1 (chr "/") (chr "|") s
       else lacks "!" s /\ raw = replace1 (chr ".") (chr "!") (replace1 (chr "/") (chr "|") s))
  | _, _ => False
  end.

(** [m] has value [v] in field [f]; [PNone] for absent. *)
Definition holds (m : pathmeta) (f : field) (v : pyval) : Prop :=
  let stamp raw ok := match v with
                      | PNone => raw = PNone /\ ok = Some PNone
                      | _ => raw = v /\ ok = None
                      end in
  match f with
  | Fcreated => stamp (m_created m) (m_created_ok m)
  | Fupdated => stamp (m_updated m) (m_updated_ok m)
  | Fsize => m_size m = match v with PInt z => PSize z | _ => v end
  | Ferrors => m_errors m = match v with PStrs l => l | _ => [] end
  | _ => forall dp, getf dp m f = Ok v
  end.
