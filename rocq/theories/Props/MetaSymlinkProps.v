(** * C06, C07, C08, C09: metadata in symbolic links *)
From Coq Require Import String NArith ZArith Bool List.
From Coq Require Import Init.Byte.
From Verif Require Import Model.Py Model.PurePath Model.Meta Model.MetaEncode Model.MetaSymlink Proofs.MetaSymlinkRenamed.
From Verif Require Import Spec.MetaSpec Proofs.MetaSymlinkProofs Proofs.MetaLinkMore.
Import ListNotations.

Definition full_args : args := fun f =>
  match f with
  | Fname => PStr $"some data.csv" | Fsize => PInt 12345678
  | Fcreated => PDt (mkDT 2020 1 2 3 4 5 678 (Some 0%Z)) | Fupdated => PNone
  | Fchecksum => PBytes [x00; xff] | Fchecksum_cypher => PStr $"sha256"
  | Fetag => PEtag [xab] 3 | Fchunksize => PInt 4096 | Fmulti => PNone
  | Fparent_id => PStr $"N:folder:1/2.3" | Fid => PStr $"N:package:4/5.6"
  | Ffile_id => PInt 7 | Fold_id => PNone | Fgid => PInt (-1) | Fuser_id => PStr $"someone"
  | Fmode => PStr $"rw" | Ferrors => PStrs [$"bad checksum"; $"too big"]
  end.

(** C06.  The round trip through a link target works exactly for the metadata
    that is [link_safe]. *)
Theorem C06_symlink_round_trip :
  forall dp a m ln lower,
    typed a -> file_name ln -> meta_init a = Ok m ->
    (link_safe a <->
     exists p m', as_symlink dp m (Some ln) = Ok p /\
       from_symlink ln (pp_str p) true lower = Ok m' /\ carries m' a).
Proof.
  exact (fun dp a m ln lower T F I =>
    conj (link_safe_round_trip dp a m ln lower T F I) (link_round_trip_safe dp a m ln lower T F I)).
Qed.
Print Assumptions C06_symlink_round_trip.

(** Without a local name, whatever the link is called. *)
Theorem C06_symlink_round_trip_no_name :
  forall dp a m lower,
    typed a -> meta_init a = Ok m -> link_safe a ->
    exists q m', as_symlink dp m None = Ok q /\
      (forall name b, from_symlink name (pp_str q) b lower = Ok m') /\ carries m' a.
Proof. exact link_safe_round_trip_none. Qed.
Print Assumptions C06_symlink_round_trip_no_name.

(** A link that was renamed is read all the same when names are not compared. *)
Theorem C06_renamed :
  forall dp a m ln lower,
    typed a -> file_name ln -> meta_init a = Ok m -> link_safe a ->
    exists p m', as_symlink dp m (Some ln) = Ok p /\
      (forall name, from_symlink name (pp_str p) false lower = Ok m') /\ carries m' a.
Proof. exact renamed. Qed.
Print Assumptions C06_renamed.

(** If the date parser inverts the stamps that were written, all seventeen
    attributes are equal. *)
Theorem C06_same_attributes :
  forall dp a m m',
    typed a -> meta_init a = Ok m -> carries m' a ->
    (forall d, a Fcreated = PDt d \/ a Fupdated = PDt d -> dp (PStr (isoformat d)) = Ok (PDt d)) ->
    forall f, getf dp m' f = getf dp m f.
Proof. exact carries_fields. Qed.
Print Assumptions C06_same_attributes.

Example C06_case :
  typed full_args /\ file_name $"some data.csv" /\ link_safe full_args /\
  (exists m, meta_init full_args = Ok m) /\
  exists p m m', meta_init full_args = Ok m /\
    as_symlink (fun v => Ok v) m (Some $"x") = Ok p /\
    pp_str p = $"x/N:package:4|5!6/.mdv6.7.12345678.2020-01-02T03:04:05,000678Z.#.00ff.sha256.ab-3.4096.#.N:folder:1|2!3.#.-1.someone.rw.some data!csv.bad checksum;too big.12M" /\
    from_symlink $"x" (pp_str p) true false = Ok m'.
Proof.
  split; [|split; [|split; [|split]]].
  - intros []; simpl; eauto 8. right. eexists. split; [reflexivity|]. reflexivity.
  - unfold file_name. lacks_tac.
  - intros []; simpl; lacks_tac; try reflexivity; try exact I; try (intro K; discriminate K).
    intros e [<-|[<-|[]]]; lacks_tac.
  - eexists. reflexivity.
  - eexists _, _, _. repeat split; vm_compute; reflexivity.
Qed.

(** C07.  Exactly these ids survive... *)
Theorem C07_id_escaping_partial :
  forall s,
    (exists t, encode (EF Fid) (PStr s) = Ok t /\ decode Fid t 6 = Ok (PStr s)) <->
    s <> $"#" /\ lacks "|" s /\ lacks "!" s.
Proof. exact id_survives_iff. Qed.
Print Assumptions C07_id_escaping_partial.

(** ... exactly these are refused ... *)
Theorem C07_id_refused :
  forall s,
    (exists t, encode (EF Fid) (PStr s) = Ok t) <->
    ~ (In (chr "/") s /\ In (chr "|") s) /\ ~ (In (chr ".") s /\ In (chr "!") s).
Proof. exact id_accepted_iff. Qed.
Print Assumptions C07_id_refused.

(** ... and every other id is accepted and comes back changed, which refutes
    "refused or unchanged". *)
Theorem C07_id_escaping_refuted :
  forall s t,
    encode (EF Fid) (PStr s) = Ok t ->
    s = $"#" \/ In (chr "|") s \/ In (chr "!") s ->
    exists v, decode Fid t 6 = Ok v /\ v <> PStr s.
Proof. exact id_changed. Qed.
Print Assumptions C07_id_escaping_refuted.

Example C07_case :
  encode (EF Fid) (PStr $"a/b.c") = Ok $"a|b!c" /\ decode Fid $"a|b!c" 6 = Ok (PStr $"a/b.c") /\
  encode (EF Fid) (PStr $"a|b") = Ok $"a|b" /\ decode Fid $"a|b" 6 = Ok (PStr $"a/b") /\
  encode (EF Fid) (PStr $"a!b") = Ok $"a!b" /\ decode Fid $"a!b" 6 = Ok (PStr $"a.b") /\
  encode (EF Fid) (PStr $"a/b|c") = Err ValueError.
Proof. repeat split; reflexivity. Qed.

(** C08.  Encoded fields contain neither separator ... *)
Theorem C08_field_clean :
  forall ef v s, ef <> EF Ferrors -> encode ef v = Ok s -> lacks "." s /\ lacks "/" s.
Proof. exact encode_clean. Qed.
Print Assumptions C08_field_clean.

(** ... so a target has the id and the data as its own components, and the data
    splits into the marker, the version and the seventeen encoded fields, each
    in its place, whatever the metadata object contains. *)
Theorem C08_layout :
  forall dp m ln p,
    file_name ln -> as_symlink dp m (Some ln) = Ok p ->
    (forall e, In e (m_errors m) -> lacks "." e /\ lacks "/" e) ->
    exists fs,
      Forall2 (fun ef s => exists v, get_e dp m ef = Ok v /\ encode ef v = Ok s) order_all fs /\
      (exists ide, encode (EF Fid) (m_id m) = Ok ide /\
        parts p = (match ide with [] => [$"/"] | _ => [ln; ide] end)
                  ++ [$".mdv6." ++ join $"." fs]) /\
      split (chr ".") (last (parts p) []) = [] :: $"mdv6" :: fs.
Proof. exact layout. Qed.
Print Assumptions C08_layout.

Definition odd_args : args :=
  set_arg Fid (PStr $"../.mdv6.1.2") (set_arg Fname (PStr $".mdv6.1.2") no_args).
Example C08_case :
  exists m p, meta_init odd_args = Ok m /\ file_name $"f" /\
    as_symlink (fun v => Ok v) m (Some $"f") = Ok p /\
    parts p = [$"f"; $"!!|!mdv6!1!2"; $".mdv6.#.#.#.#.#.#.#.#.#.#.#.#.#.#.!mdv6!1!2..#"] /\
    (forall e, In e (m_errors m) -> lacks "." e /\ lacks "/" e).
Proof.
  eexists _, _. split; [reflexivity|]. split; [|split; [vm_compute; reflexivity|split; [reflexivity|intros e []]]].
  unfold file_name. lacks_tac.
Qed.

(** The condition on errors is needed: an error message can replace the id and
    every field of the metadata it is stored with. *)
Definition forge_args : args :=
  set_arg Fid (PStr $"N:1") (set_arg Fsize (PInt 10)
    (set_arg Ferrors (PStrs [$"x/N:2/.mdv6.99.20"]) no_args)).
Example C08_errors_not_escaped :
  exists m p m', meta_init forge_args = Ok m /\
    as_symlink (fun v => Ok v) m (Some $"f") = Ok p /\
    from_symlink $"f" (pp_str p) true false = Ok m' /\
    m_size m' = PSize 20 /\ m_file_id m' = PInt 99 /\ m_errors m' = [].
Proof. eexists _, _, _. repeat split; vm_compute; reflexivity. Qed.

(** C09.  Reading data of every numbered version: a target holding the first [k]
    fields of that version, and anything after the last, gives each field its
    written value and leaves the others absent. *)
Theorem C09_versions_readable_partial :
  forall n o k (w : field -> pyval) (raw : field -> str) extra ide idv,
    published n = Some o -> 1 <= k <= length o -> (k < length o -> extra = []) ->
    (forall f, In f (firstn k o) -> written n f (w f) (raw f)) ->
    (forall s, In s extra -> lacks "." s /\ lacks "/" s) ->
    written n Fid idv ide -> ide <> [] ->
    exists m,
      from_parts [ide; $".mdv" ++ dec_N n ++ $"." ++ join $"." (map raw (firstn k o) ++ extra)] = Ok m /\
      holds m Fid idv /\
      (forall f, In f (firstn k o) -> holds m f (w f)) /\
      (forall f, f <> Fid -> ~ In f (firstn k o) -> holds m f PNone).
Proof. exact read_version. Qed.
Print Assumptions C09_versions_readable_partial.

Example C09_case :
  published 3 = Some [Ffile_id; Fsize; Fcreated; Fupdated; Fchecksum; Fetag; Fchunksize;
               Fparent_id; Fold_id; Fgid; Fuser_id; Fmode; Fname; Ferrors] /\
  written 3 Fname (PStr $"a.b") $"a|b" /\ written 3 Fid (PStr $"N:1/2") $"N:1|2" /\
  written 5 Fname (PStr $"a.b") $"a!b" /\ written 3 Fsize (PInt 12) $"12" /\
  exists m, from_parts [$"N:1|2"; $".mdv3.7.12.#.#.#.#.#.#.#.#.#.#.a|b..more.junk"] = Ok m /\
    m_id m = PStr $"N:1/2" /\ m_name m = PStr $"a.b" /\ m_size m = PSize 12 /\
    m_multi m = PNone /\ m_checksum_cypher m = PNone.
Proof.
  split; [reflexivity|]. split; [simpl; lacks_tac; reflexivity|].
  split; [simpl; lacks_tac; reflexivity|]. split; [simpl; lacks_tac; reflexivity|].
  split; [reflexivity|].
  eexists. split; [vm_compute; reflexivity|]. repeat split.
Qed.

(** Missing: the version "meta" is in the table, but nothing written with it
    can be read. *)
Theorem C09_meta_version_refuted :
  forall ide rest, from_parts [ide; $".meta." ++ rest] = Err ValueError.
Proof. exact read_meta_version. Qed.
Print Assumptions C09_meta_version_refuted.

Example C09_meta_in_table : lookup_version $"meta" = Some v_meta.
Proof. reflexivity. Qed.
