(** * C11, C12, C49: metadata in extended attributes *)
From Coq Require Import String NArith ZArith Bool List Permutation.
From Coq Require Import Init.Byte.
From Verif Require Import Model.Py Model.Meta Model.MetaXattr.
From Verif Require Import Spec.MetaSpec Spec.XattrSpec Proofs.MetaLinkMore Proofs.MetaXattrProofs.
Import ListNotations.

(** C11.  Metadata survives the attributes exactly when it is [xattr_safe];
    absent and empty values come back absent. *)
Theorem C11_xattr_round_trip :
  forall dp legacy a m prefix,
    typed a -> meta_init a = Ok m -> prefix_ok prefix -> xattr_safe a ->
    exists xs m', as_xattrs dp m prefix = Ok xs /\ carries m' (shown a) /\
      forall others ys,
        (forall k b, In (k, b) others -> foreign prefix k) -> Permutation ys (xs ++ others) ->
        from_xattrs legacy ys prefix = Ok m'.
Proof. exact xattr_round_trip. Qed.
Print Assumptions C11_xattr_round_trip.

Theorem C11_only_safe_values :
  forall dp legacy a m prefix xs m',
    typed a -> meta_init a = Ok m -> prefix_ok prefix ->
    as_xattrs dp m prefix = Ok xs -> from_xattrs legacy xs prefix = Ok m' ->
    carries m' (shown a) -> xattr_safe a.
Proof. exact xattr_round_trip_safe. Qed.
Print Assumptions C11_only_safe_values.

Definition x_args : args := fun f =>
  match f with
  | Fname => PStr ($"d|" ++ [233; 8364; 128512]%N) | Fsize => PInt (-5)
  | Fcreated => PDt (mkDT 1999 12 31 23 59 59 0 None) | Fupdated => PNone
  | Fchecksum => PBytes [x80; x00] | Fchecksum_cypher => PStr []
  | Fetag => PEtag [] 0 | Fchunksize => PInt 4096 | Fmulti => PNone
  | Fparent_id => PStr $"#" | Fid => PStr $"a.b/c!d|e"
  | Ffile_id => PInt 0 | Fold_id => PNone | Fgid => PInt (-1) | Fuser_id => PStr $"1x"
  | Fmode => PStr $"rw" | Ferrors => PStrs [$"a.b/c"; $"#"]
  end.

Example C11_case :
  typed x_args /\ xattr_safe x_args /\ prefix_ok (Some $"bf") /\
  exists m xs m', meta_init x_args = Ok m /\ as_xattrs (fun v => Ok v) m (Some $"bf") = Ok xs /\
    length xs = 13 /\ from_xattrs (fun _ => Err ValueError) (rev xs) (Some $"bf") = Ok m' /\
    m_created m' = PStr $"1999-12-31T23:59:59" /\ m_name m' = m_name m /\ m_checksum_cypher m' = PNone.
Proof.
  split; [|split; [|split]].
  - intros []; simpl; eauto 8. right. eexists. split; [reflexivity|]. reflexivity.
  - intros []; simpl; try exact I; try (apply encodable_scalar; reflexivity); try (intro K; discriminate K).
    + split; [apply encodable_scalar; reflexivity|reflexivity].
    + intros e [<-|[<-|[]]]; (split; [apply encodable_scalar; reflexivity|lacks_tac]).
  - apply encodable_scalar. reflexivity.
  - eexists _, _, _. repeat split; vm_compute; reflexivity.
Qed.

(** C12, the part that holds: an attribute whose name is text and does not start
    with the prefix and a dot makes no difference, wherever it is listed. *)
Theorem C12_foreign_ignored_partial :
  forall legacy prefix k b, foreign prefix k -> forall xs1 xs2,
    from_xattrs legacy (xs1 ++ (k, b) :: xs2) prefix = from_xattrs legacy (xs1 ++ xs2) prefix.
Proof. exact foreign_ignored. Qed.
Print Assumptions C12_foreign_ignored_partial.

(** Missing: one attribute whose name is not UTF-8, under any prefix, makes the
    metadata unreadable. *)
Theorem C12_undecodable_name_refuted :
  forall legacy prefix k b xs, utf8_dec k = None -> In (k, b) xs ->
    exists e, from_xattrs legacy xs prefix = Err e.
Proof. exact undecodable_fails. Qed.
Print Assumptions C12_undecodable_name_refuted.

(** Missing: with the prefixes 'a' and 'a.b' in use, the attributes of the second
    are read as unknown fields of the first.  The known fields are unaffected. *)
Theorem C12_nested_prefix_refuted :
  forall legacy prefix k k' b xs m,
    utf8_dec k = Some (under prefix k') -> (forall f, field_name f <> k') -> k' <> $"self" ->
    from_xattrs legacy xs prefix = Ok m ->
    exists m', from_xattrs legacy (xs ++ [(k, b)]) prefix = Ok m' /\
      (forall dp f, getf dp m' f = getf dp m f) /\ m_kwargs m' = m_kwargs m ++ [(k', b)].
Proof. exact unknown_kept. Qed.
Print Assumptions C12_nested_prefix_refuted.

(** An attribute called 'self' makes the metadata unreadable. *)
Theorem C12_self_refuted :
  forall legacy prefix k b xs m,
    utf8_dec k = Some (under prefix $"self") ->
    from_xattrs legacy xs prefix = Ok m ->
    from_xattrs legacy ((k, b) :: xs) prefix = Err TypeError.
Proof. exact self_fails. Qed.
Print Assumptions C12_self_refuted.

Example C12_case :
  let b s := map byte_of $s in
  foreign (Some $"bf") (b "ssh.id"%string) /\ foreign (Some $"bf") (b "bfid"%string) /\
  utf8_dec [xff] = None /\
  utf8_dec (b "bf.ssh.id"%string) = Some (under (Some $"bf") $"ssh.id") /\
  exists m, from_xattrs (fun _ => Err ValueError)
     [(b "ssh.id"%string, b "1"%string); (b "bf.id"%string, b "2"%string); (b "id"%string, b "3"%string)] (Some $"bf") = Ok m /\
     m_id m = PStr $"2".
Proof.
  cbn zeta. split; [|split; [|split; [|split]]]; try reflexivity.
  - eexists. split; [reflexivity|]. intros k' H. discriminate H.
  - eexists. split; [reflexivity|]. intros k' H. discriminate H.
  - eexists. split; vm_compute; reflexivity.
Qed.

(** C49, what setting metadata on a file that already carries some does: every
    field without a new value keeps its old one. *)
Theorem C49_overwrite_partial :
  forall dp legacy old new mo mn prefix others xo xn,
    typed old -> typed new -> xattr_safe old -> xattr_safe new -> prefix_ok prefix ->
    meta_init old = Ok mo -> meta_init new = Ok mn ->
    (forall k b, In (k, b) others -> foreign prefix k) ->
    as_xattrs dp mo prefix = Ok xo -> as_xattrs dp mn prefix = Ok xn ->
    exists m', carries m' (shown (overlay old new)) /\
      forall xs ys, Permutation xs (xo ++ others) -> Permutation ys (setxattrs xn xs) ->
        from_xattrs legacy ys prefix = Ok m'.
Proof. exact overwrite_reads. Qed.
Print Assumptions C49_overwrite_partial.

(** So the metadata read back is the metadata set exactly when nothing that was
    stored is absent from the new one. *)
Theorem C49_overwrite_exact :
  forall dp legacy old new mo mn prefix xo xn m',
    typed old -> typed new -> xattr_safe old -> xattr_safe new -> prefix_ok prefix ->
    meta_init old = Ok mo -> meta_init new = Ok mn ->
    as_xattrs dp mo prefix = Ok xo -> as_xattrs dp mn prefix = Ok xn ->
    from_xattrs legacy (setxattrs xn xo) prefix = Ok m' ->
    carries m' (shown new) <-> forall f, blank (new f) = true -> blank (old f) = true.
Proof. exact overwrite_exact. Qed.
Print Assumptions C49_overwrite_exact.

(** The claim fails for every field that is dropped. *)
Theorem C49_overwrite_refuted :
  forall dp legacy old new mo mn prefix xo xn m' f,
    typed old -> typed new -> xattr_safe old -> xattr_safe new -> prefix_ok prefix ->
    meta_init old = Ok mo -> meta_init new = Ok mn ->
    as_xattrs dp mo prefix = Ok xo -> as_xattrs dp mn prefix = Ok xn ->
    blank (new f) = true -> blank (old f) = false ->
    from_xattrs legacy (setxattrs xn xo) prefix = Ok m' -> ~ carries m' (shown new).
Proof. exact overwrite_loses. Qed.
Print Assumptions C49_overwrite_refuted.

Example C49_case :
  let new := set_arg Fid (PStr $"x") no_args in
  typed new /\ xattr_safe new /\
  exists mo mn xo xn m', meta_init x_args = Ok mo /\ meta_init new = Ok mn /\
    as_xattrs (fun v => Ok v) mo None = Ok xo /\ as_xattrs (fun v => Ok v) mn None = Ok xn /\
    from_xattrs (fun _ => Err ValueError) (setxattrs xn xo) None = Ok m' /\
    m_id m' = PStr $"x" /\ m_checksum m' = PBytes [x80; x00].
Proof.
  cbn zeta. split; [|split].
  - intros []; unfold set_arg; simpl; eauto 8.
  - intros []; unfold set_arg; simpl; try exact I; try (apply encodable_scalar; reflexivity). intros e [].
  - eexists _, _, _, _, _. repeat split; vm_compute; reflexivity.
Qed.
