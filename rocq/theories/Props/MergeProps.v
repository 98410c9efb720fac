(** * C13-C17: merging, comparing and testing metadata *)
From Coq Require Import String NArith ZArith Bool List.
From Coq Require Import Init.Byte.
From Verif Require Import Model.Py Model.Meta Model.MetaUpdate.
From Verif Require Import Spec.MetaSpec Spec.XattrSpec Spec.MergeSpec Spec.MetaEqSpec Proofs.MergeProofs Proofs.MetaEqProofs Proofs.MetaEqRead.
Import ListNotations.

(** Sample metadata for the cases below. *)
Definition stamp (y : N) : pyval := PDt (mkDT y 1 2 3 4 5 6 (Some 0%Z)).
Definition old_args : args := fun f =>
  match f with
  | Fname => PStr $"f" | Fsize => PSize 3 | Fcreated => stamp 2019 | Fupdated => stamp 2020
  | Fchecksum => PBytes [x01] | Fid => PStr $"a" | Fold_id => PStr $"z"
  | Fmode => PStr $"rw" | Ferrors => PStrs [$"checksum-mismatch"] | _ => PNone
  end.
(** Same file: newer name, no checksum, empty mode. *)
Definition same_args : args := fun f =>
  match f with
  | Fname => PStr $"g" | Fsize => PSize 3 | Fid => PStr $"a" | Fmode => PStr [] | Fgid => PInt 7
  | Ferrors => PStrs [] | _ => PNone
  end.
(** Another file. *)
Definition other_args : args := fun f =>
  match f with
  | Fsize => PSize 4 | Fid => PStr $"b" | Ferrors => PStrs [] | _ => PNone
  end.
Definition moved_args : args := fun f =>
  match f with
  | Fsize => PSize 3 | Fid => PStr $"b" | Ferrors => PStrs [] | _ => PNone
  end.
Definition built (a : args) : pathmeta :=
  match meta_init a with Ok m => m | Err _ => mkMeta PNone PNone PNone None PNone None PNone PNone PNone PNone PNone PNone PNone PNone PNone PNone PNone PNone [] [] end.

(** C13, for every field but old_id, and for old_id too unless the id changed. *)
Theorem C13_merge_keeps_partial :
  forall dp o n old new,
    meta_bool o = true -> meta_bool n = true ->
    describes dp o old -> describes dp n new -> kinds old -> kinds new ->
    ~ other_file old new ->
    exists m res, update_meta dp (Some o) (Some n) = Ok (false, Some m) /\ describes dp m res /\
      forall f, f <> Fold_id \/ py_eq (old Fid) (new Fid) = true ->
        res f = if blank (new f) then old f else new f.
Proof. exact keeps. Qed.
Print Assumptions C13_merge_keeps_partial.

Theorem C13_merge_with_nothing :
  forall dp,
    (forall o n, o = None \/ (exists m, o = Some m /\ meta_bool m = false) ->
       update_meta dp o n = Ok (false, n)) /\
    (forall o n, meta_bool o = true -> n = None \/ (exists m, n = Some m /\ meta_bool m = false) ->
       update_meta dp (Some o) n = Ok (false, Some o)).
Proof. exact (fun dp => conj (no_old dp) (no_new dp)). Qed.
Print Assumptions C13_merge_with_nothing.

(** Missing: a change of id overwrites the old_id that was known. *)
Theorem C13_old_id_refuted :
  forall dp o n old new,
    meta_bool o = true -> meta_bool n = true ->
    describes dp o old -> describes dp n new -> kinds old -> kinds new ->
    ~ other_file old new -> py_eq (old Fid) (new Fid) = false -> blank (new Fold_id) = true ->
    exists m, update_meta dp (Some o) (Some n) = Ok (false, Some m) /\ m_old_id m = old Fid.
Proof. exact old_id_lost. Qed.
Print Assumptions C13_old_id_refuted.

(** Missing: values kept from unknown attributes never survive a merge. *)
Theorem C13_unknown_values_refuted :
  forall dp o n old new,
    meta_bool o = true -> meta_bool n = true ->
    describes dp o old -> describes dp n new -> kinds old -> kinds new ->
    exists d m, update_meta dp (Some o) (Some n) = Ok (d, Some m) /\ m_kwargs m = [].
Proof. exact unknown_lost. Qed.
Print Assumptions C13_unknown_values_refuted.

Example C13_case :
  let dp := fun v => Ok v in
  meta_bool (built old_args) = true /\ meta_bool (built same_args) = true /\
  describes dp (built old_args) old_args /\ describes dp (built same_args) same_args /\
  describes dp (built moved_args) moved_args /\
  kinds old_args /\ kinds same_args /\ kinds moved_args /\
  ~ other_file old_args same_args /\ ~ other_file old_args moved_args /\
  exists m m', update_meta dp (Some (built old_args)) (Some (built same_args)) = Ok (false, Some m) /\
    m_name m = PStr $"g" /\ m_checksum m = PBytes [x01] /\ m_mode m = PStr $"rw" /\ m_old_id m = PStr $"z" /\
    update_meta dp (Some (built old_args)) (Some (built moved_args)) = Ok (false, Some m') /\
    m_id m' = PStr $"b" /\ m_old_id m' = PStr $"a".
Proof.
  cbn zeta. split; [reflexivity|]. split; [reflexivity|].
  split; [intros []; reflexivity|]. split; [intros []; reflexivity|]. split; [intros []; reflexivity|].
  split; [intros []; simpl; unfold stamp; eauto 6|]. split; [intros []; simpl; eauto 6|].
  split; [intros []; simpl; eauto 6|].
  split; [|split].
  - intros (f & Hf & A1 & A2 & A3 & A4).
    repeat (destruct Hf as [<-|Hf]; [first [now apply A2 | discriminate A4]|]). destruct Hf.
  - intros (f & Hf & A1 & A2 & A3 & A4).
    repeat (destruct Hf as [<-|Hf]; [first [now apply A2 | discriminate A4]|]). destruct Hf.
  - eexists _, _. repeat split; vm_compute; reflexivity.
Qed.

(** C14. *)
Theorem C14_changed_flag :
  forall dp o n old new,
    meta_bool o = true -> meta_bool n = true ->
    describes dp o old -> describes dp n new -> kinds old -> kinds new ->
    exists d m res, update_meta dp (Some o) (Some n) = Ok (d, Some m) /\ describes dp m res /\
      (d = true <-> other_file old new) /\
      (d = true -> forall f, f <> Fold_id -> new f = PNone -> res f = PNone) /\
      (forall f, blank (new f) = false -> res f = new f) /\
      (blank (new Fold_id) = true -> py_eq (old Fid) (new Fid) = false -> res Fold_id = old Fid).
Proof. exact flag. Qed.
Print Assumptions C14_changed_flag.

Example C14_case :
  let dp := fun v => Ok v in
  meta_bool (built other_args) = true /\ describes dp (built other_args) other_args /\ kinds other_args /\
  other_file old_args other_args /\
  exists m, update_meta dp (Some (built old_args)) (Some (built other_args)) = Ok (true, Some m) /\
    m_name m = PNone /\ m_checksum m = PNone /\ m_size m = PSize 4 /\ m_id m = PStr $"b" /\ m_old_id m = PStr $"a".
Proof.
  cbn zeta. split; [reflexivity|]. split; [intros []; reflexivity|]. split; [intros []; simpl; eauto 6|]. split.
  - exists Fsize. split; [simpl; tauto|]. repeat split; discriminate.
  - eexists. repeat split; vm_compute; reflexivity.
Qed.

(** C15 holds only when the new metadata brings errors of its own. *)
Theorem C15_own_errors_partial :
  forall dp o n old new,
    meta_bool o = true -> meta_bool n = true ->
    describes dp o old -> describes dp n new -> kinds old -> kinds new ->
    forall e l, new Ferrors = PStrs (e :: l) ->
    exists d m, update_meta dp (Some o) (Some n) = Ok (d, Some m) /\ m_errors m = e :: l.
Proof. exact own_errors. Qed.
Print Assumptions C15_own_errors_partial.

(** Otherwise the errors of the old file always pass to the new one. *)
Theorem C15_errors_inherited_refuted :
  forall dp o n old new,
    meta_bool o = true -> meta_bool n = true ->
    describes dp o old -> describes dp n new -> kinds old -> kinds new ->
    other_file old new -> new Ferrors = PStrs [] ->
    exists m, update_meta dp (Some o) (Some n) = Ok (true, Some m) /\ PStrs (m_errors m) = old Ferrors.
Proof. exact inherits_errors. Qed.
Print Assumptions C15_errors_inherited_refuted.

Example C15_case :
  other_args Ferrors = PStrs [] /\
  exists m, update_meta (fun v => Ok v) (Some (built old_args)) (Some (built other_args)) = Ok (true, Some m) /\
    m_errors m = [$"checksum-mismatch"] /\ m_checksum m = PNone.
Proof. split; [reflexivity|]. eexists. repeat split; vm_compute; reflexivity. Qed.

(** C16, checksums. *)
Theorem C16_by_checksum :
  forall dp m n,
    blank (m_checksum m) = false -> blank (m_checksum n) = false -> forall a b,
    m_checksum m = PBytes a -> m_checksum n = PBytes b ->
    exists r, content_different dp m n = Ok r /\ (r = true <-> a <> b).
Proof. exact content_by_checksum. Qed.
Print Assumptions C16_by_checksum.

(** C16 without checksums, with the exact cases in which it raises: sizes agree
    and the update times are not comparable.  Besides a missing time that
    includes one time with and one without a time zone. *)
Theorem C16_otherwise_partial :
  forall dp m n a b,
    describes dp m a -> describes dp n b -> kinds a -> kinds b ->
    blank (a Fchecksum) = true \/ blank (b Fchecksum) = true ->
    (forall r, content_different dp m n = Ok r ->
       (r = true <-> a Fsize <> b Fsize \/ before (a Fupdated) (b Fupdated))) /\
    ((exists e, content_different dp m n = Err e) <->
       a Fsize = b Fsize /\ ~ comparable (a Fupdated) (b Fupdated)).
Proof. exact content_otherwise. Qed.
Print Assumptions C16_otherwise_partial.

Definition naive_args : args := set_arg Fupdated (PDt (mkDT 2020 1 2 3 4 5 6 None)) same_args.

(** Missing: it raises although no time is missing. *)
Theorem C16_raises_refuted :
  exists dp m n a b e,
    describes dp m a /\ describes dp n b /\ kinds a /\ kinds b /\
    a Fupdated <> PNone /\ b Fupdated <> PNone /\ content_different dp m n = Err e.
Proof.
  exists (fun v => Ok v), (built old_args), (built naive_args), old_args, naive_args, TypeError.
  split; [intros []; reflexivity|]. split; [intros []; reflexivity|].
  split; [intros []; simpl; unfold stamp; eauto 6|]. split; [intros []; unfold naive_args, set_arg; simpl; eauto 6|].
  split; [discriminate|]. split; [discriminate|reflexivity].
Qed.
Print Assumptions C16_raises_refuted.

Example C16_case :
  let dp := fun v => Ok v in
  let newer := set_arg Fchecksum PNone (set_arg Fupdated (stamp 2021) old_args) in
  content_different dp (built old_args) (built newer) = Ok true /\
  content_different dp (built newer) (built old_args) = Ok false /\
  content_different dp (built old_args) (built (set_arg Fchecksum (PBytes [x02]) old_args)) = Ok true /\
  content_different dp (built old_args) (built same_args) = Err TypeError.
Proof. cbn zeta. repeat split; vm_compute; reflexivity. Qed.

(** C17, truth value. *)
Theorem C17_truth_value :
  forall a m, plain a -> meta_init a = Ok m -> (meta_bool m = true <-> informative a).
Proof. exact bool_informative. Qed.
Print Assumptions C17_truth_value.

(** C17, equality, as long as no stamp given as text was read; the full claim has no such
    condition, see [C17_read_refuted]. *)
Theorem C17_equality_partial :
  forall a b m n, plain a -> plain b ->
    same_kind (a Fcreated) (b Fcreated) -> same_kind (a Fupdated) (b Fupdated) ->
    meta_init a = Ok m -> meta_init b = Ok n ->
    exists r, meta_eq m n = Ok r /\ (r = true <-> forall f, py_eq (a f) (b f) = true).
Proof. exact eq_fields. Qed.
Print Assumptions C17_equality_partial.

(** Why the stamps must be of one kind: comparing metadata made from a datetime
    with metadata made from text raises one way and is always false the other. *)
Theorem C17_mixed_stamps :
  forall a b m n, plain a -> plain b ->
    stamp_ok (a Fcreated) = true -> stamp_ok (b Fcreated) = false ->
    meta_init a = Ok m -> meta_init b = Ok n ->
    meta_eq m n = Err AttributeError /\
    (same_kind (a Fupdated) (b Fupdated) -> meta_eq n m = Ok false).
Proof.
  exact (fun a b m n Pa Pb Ka Kb Ha Hb =>
    conj (eq_mixed a b m n Pa Pb Ka Kb Ha Hb) (fun Ku => eq_mixed_sym a b m n Pa Pb Ka Kb Ku Ha Hb)).
Qed.
Print Assumptions C17_mixed_stamps.

(** Unknown values on the right are not looked at. *)
Theorem C17_extra_values :
  forall a b m n n' k x,
    meta_init a = Ok m -> meta_init b = Ok n -> meta_init_x b (k :: x) = Ok n' ->
    meta_eq m n' = meta_eq m n.
Proof. exact eq_extra_ignored. Qed.
Print Assumptions C17_extra_values.

(** Unknown values on both sides are compared as dictionaries, after all else. *)
Theorem C17_extra_both :
  forall a b x y m n, x <> [] -> y <> [] -> NoDup (map fst x) -> NoDup (map fst y) ->
    meta_init_x a x = Ok m -> meta_init_x b y = Ok n ->
    exists m0 n0, meta_init a = Ok m0 /\ meta_init b = Ok n0 /\
      forall r, meta_eq m0 n0 = r ->
        match r with
        | Ok true => exists s, meta_eq m n = Ok s /\ (s = true <-> forall kv, In kv x <-> In kv y)
        | _ => meta_eq m n = r
        end.
Proof. exact eq_both. Qed.
Print Assumptions C17_extra_both.

(** Unknown values on the left alone make the comparison raise when all else is equal. *)
Theorem C17_extra_left :
  forall a b x m n, x <> [] -> meta_init_x a x = Ok m -> meta_init b = Ok n ->
    exists m0, meta_init a = Ok m0 /\ meta_eq m n = match meta_eq m0 n with Ok true => Err AttributeError | r => r end.
Proof. exact eq_left. Qed.
Print Assumptions C17_extra_left.

(** Reading the stamps changes nothing that can be read; they are not parsed again. *)
Theorem C17_read :
  forall dp m m', force dp m = Ok m' -> forall dp' f, getf dp' m' f = getf dp m f.
Proof. exact read_same. Qed.
Print Assumptions C17_read.

(** It changes equality: metadata with a stamp given as text is equal to itself, and once its
    stamps were read the comparison with what it was raises. *)
Theorem C17_read_refuted :
  forall dp a m m', plain a -> meta_init a = Ok m -> stamp_ok (a Fcreated) = false -> force dp m = Ok m' ->
    meta_eq m m = Ok true /\ meta_eq m' m = Err AttributeError.
Proof. exact read_raises. Qed.
Print Assumptions C17_read_refuted.

(** When the stamps of both were read, it is as when none were. *)
Theorem C17_read_both :
  forall dp a b m n m' n',
    text_or_ok (a Fcreated) -> text_or_ok (a Fupdated) -> text_or_ok (b Fcreated) -> text_or_ok (b Fupdated) ->
    same_kind (a Fcreated) (b Fcreated) -> same_kind (a Fupdated) (b Fupdated) ->
    meta_init a = Ok m -> meta_init b = Ok n -> force dp m = Ok m' -> force dp n = Ok n' ->
    meta_eq m' n' = meta_eq m n.
Proof. exact read_both. Qed.
Print Assumptions C17_read_both.

(** Two texts for one moment: all that can be read is the same, and they are not equal. *)
Theorem C17_text_refuted :
  forall dp a s t c m n,
    plain (set_arg Fcreated (PStr s) a) -> plain (set_arg Fcreated (PStr t) a) -> s <> t ->
    dp (PStr s) = Ok c -> dp (PStr t) = Ok c ->
    meta_init (set_arg Fcreated (PStr s) a) = Ok m -> meta_init (set_arg Fcreated (PStr t) a) = Ok n ->
    (forall f, getf dp m f = getf dp n f) /\ meta_eq m n = Ok false.
Proof. exact text_unequal. Qed.
Print Assumptions C17_text_refuted.

Example C17_text_case :
  let one := set_arg Fcreated (PStr $"2019-01-01T02:03:04Z") old_args in
  let two := set_arg Fcreated (PStr $"2019-01-01T02:03:04+00:00") old_args in
  let dp := fun v => match v with PStr _ => Ok (stamp 2019) | _ => Ok v end in
  plain one /\ plain two /\ getf dp (built one) Fcreated = getf dp (built two) Fcreated /\ meta_eq (built one) (built two) = Ok false /\
  text_or_ok (one Fcreated) /\ text_or_ok (one Fupdated) /\
  exists m n, force dp (built one) = Ok m /\ force dp (built two) = Ok n /\ meta_eq m n = Ok false.
Proof.
  cbn zeta. split; [split; unfold set_arg; simpl; eauto|]. split; [split; unfold set_arg; simpl; eauto|].
  split; [vm_compute; reflexivity|]. split; [vm_compute; reflexivity|]. split; [right; now eexists|]. split; [now left|].
  do 2 eexists. split; [vm_compute; reflexivity|]. split; [vm_compute; reflexivity|]. vm_compute. reflexivity.
Qed.

Example C17_read_case :
  let text := set_arg Fcreated (PStr $"2019-01-02T03:04:05,000006Z") old_args in
  let dp := fun v => match v with PStr _ => Ok (stamp 2019) | _ => Ok v end in
  exists m', force dp (built text) = Ok m' /\ getf dp m' Fcreated = Ok (stamp 2019) /\
    meta_eq (built text) (built text) = Ok true /\ meta_eq m' (built text) = Err AttributeError /\
    meta_eq (built text) m' = Ok true /\ meta_eq m' m' = Ok true.
Proof. cbn zeta. eexists. split; [vm_compute; reflexivity|]. repeat split; vm_compute; reflexivity. Qed.

Example C17_extra_case :
  let x := [($"a", [x01]); ($"b", [x02])] in let y := [($"b", [x02]); ($"a", [x01])] in
  exists m n o, meta_init_x old_args x = Ok m /\ meta_init_x old_args y = Ok n /\ meta_init_x old_args [($"a", [x01])] = Ok o /\
    meta_eq m n = Ok true /\ meta_eq m o = Ok false /\ meta_eq m (built old_args) = Err AttributeError /\
    meta_eq (built old_args) m = Ok true.
Proof. cbn zeta. do 3 eexists. split; [vm_compute; reflexivity|]. split; [vm_compute; reflexivity|]. split; [vm_compute; reflexivity|]. repeat split; vm_compute; reflexivity. Qed.

Example C17_case :
  let text := set_arg Fcreated (PStr $"2019-01-02T03:04:05,000006Z") old_args in
  plain old_args /\ plain text /\ plain no_args /\ informative old_args /\ ~ informative no_args /\
  stamp_ok (text Fcreated) = false /\
  meta_eq (built old_args) (built (set_arg Fsize (PInt 3) old_args)) = Ok true /\
  meta_eq (built old_args) (built other_args) = Ok false /\
  meta_eq (built old_args) (built text) = Err AttributeError /\
  meta_eq (built text) (built old_args) = Ok false /\
  meta_bool (built (set_arg Fsize (PInt 0) no_args)) = true.
Proof.
  cbn zeta. split; [split; simpl; eauto|]. split; [split; unfold set_arg; simpl; eauto|]. split; [split; simpl; eauto|].
  split; [exists Fname; split; discriminate|].
  split; [intros ([] & N & E); try (now apply N); now apply E|].
  repeat split; vm_compute; reflexivity.
Qed.
