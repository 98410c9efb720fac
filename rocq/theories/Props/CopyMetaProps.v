(** * C78: copies with their metadata *)
From Coq Require Import String Strings.Byte NArith ZArith Bool List.
From Verif Require Import Model.Py Model.PurePath Model.Meta Model.MetaEncode Model.MetaXattr Model.Fs Model.PathOps Model.Sparse Model.Copy Model.Cache Model.CopyMeta
  Spec.FsSpec Spec.CopySpec Spec.MetaSpec Spec.XattrSpec Spec.CacheSpec Spec.CopyMetaSpec
  Proofs.GoodFs Proofs.CacheLemmas Proofs.CopyMetaProofs Props.CacheProps.
Import ListNotations.

(** Whatever fails and at every moment, nothing but the target changes, and no attributes
    of the target but those of the fields. *)
Theorem C78_only :
  forall K fuel n self fs cwd fault S D x d force copy r w',
    good_fs fs -> reads fs cwd self S -> content fs S = Some d -> free_or_file fs D x -> S <> D ++ [x] -> (0 < n)%nat -> honest fault ->
    copy_to K fuel n self (path_of (D ++ [x])) force copy (start fs cwd fault) = (r, w') ->
    forall s, In s (states w') -> only_at (D ++ [x]) fs s /\ copying K fs (D ++ [x]) d s.
Proof. exact CopyMetaProofs.copy_confined. Qed.
Print Assumptions C78_only.

(** When it returns, the target has the content; asked to copy the metadata, it has that
    too, which the source had and the target had not. *)
Theorem C78_copied :
  forall K fuel n self fs cwd fault S D x d force copy w',
    good_fs fs -> reads fs cwd self S -> content fs S = Some d -> free_or_file fs D x -> S <> D ++ [x] -> (0 < n)%nat -> honest fault ->
    copy_to K fuel n self (path_of (D ++ [x])) force copy (start fs cwd fault) = (Ok tt, w') ->
    content (w_fs w') (D ++ [x]) = Some d /\ only_at (D ++ [x]) fs (w_fs w') /\ only_fields K (file_xattrs fs (D ++ [x])) (file_xattrs (w_fs w') (D ++ [x])) /\
    (copy = false -> file_xattrs (w_fs w') (D ++ [x]) = file_xattrs fs (D ++ [x])) /\
    (force = false -> look fs (D ++ [x]) = None) /\
    (copy = true -> recorded K x (look fs (D ++ [x])) = Ok None /\ exists m, recorded K x (look fs S) = Ok (Some m) /\
       (prefix_ok (c_prefix K) -> gives_dates K -> exists o, recorded K x (look (w_fs w') (D ++ [x])) = Ok o /\ same_meta K m o)).
Proof. exact CopyMetaProofs.copy_ok. Qed.
Print Assumptions C78_copied.

(** The same from the side of the target. *)
Theorem C78_from :
  forall K fuel n source fs cwd fault S D x d force w',
    good_fs fs -> reads fs cwd source S -> content fs S = Some d -> free_or_file fs D x -> S <> D ++ [x] -> (0 < n)%nat -> honest fault ->
    prefix_ok (c_prefix K) -> gives_dates K ->
    copy_from K fuel n (path_of (D ++ [x])) source force true (start fs cwd fault) = (Ok tt, w') ->
    content (w_fs w') (D ++ [x]) = Some d /\ only_at (D ++ [x]) fs (w_fs w') /\
    exists m o, recorded K x (look fs S) = Ok (Some m) /\ recorded K x (look (w_fs w') (D ++ [x])) = Ok o /\ same_meta K m o.
Proof. exact CopyMetaProofs.from_ok. Qed.
Print Assumptions C78_from.

(** Where something is, it refuses unless forced. *)
Theorem C78_refuses :
  forall K fuel n self target fs cwd fault copy r w', honest fault -> occupied fs cwd target ->
    copy_to K fuel n self target false copy (start fs cwd fault) = (r, w') ->
    (exists e, r = Err e) /\ (forall s, In s (states w') -> s = fs) /\ ((forall t, fault t = None) -> r = Err PathExistsErr).
Proof. exact CopyMetaProofs.copy_refuses. Qed.
Print Assumptions C78_refuses.

(** It returns when nothing fails.  Missing: files without content, for which it does not
    (C25), a source without metadata, and a target with metadata or that is a link. *)
Theorem C78_returns_partial :
  forall K fuel n self fs cwd fault S D x d force copy o,
    good_fs fs -> reads fs cwd self S -> content fs S = Some d -> free_or_file fs D x -> S <> D ++ [x] -> (0 < n)%nat -> (forall t, fault t = None) ->
    d <> [] -> (length d < fuel)%nat -> force = true \/ look fs (D ++ [x]) = None -> recorded K x (look fs (D ++ [x])) = Ok o ->
    (copy = true -> o = None /\ prefix_ok (c_prefix K) /\ gives_dates K /\ exists m, recorded K x (look fs S) = Ok (Some m) /\ dated K m) ->
    exists w', copy_to K fuel n self (path_of (D ++ [x])) force copy (start fs cwd fault) = (Ok tt, w').
Proof. exact CopyMetaProofs.copy_returns. Qed.
Print Assumptions C78_returns_partial.

(** ** The case: files with and without metadata *)
Definition cm_xs : xattrs := ($"user.colour", [x01]) :: k_attrs k_old.
Definition cm_fs : node :=
  Dir [] [($"d", Dir [] [($"a", File [x20; x21] cm_xs); ($"b", File [x22] [($"user.mine", [x02])]); ($"c", File [x23; x24; x25] (k_attrs k_new)); ($"l", Link $"/e/t")]);
          ($"e", Dir [] [($"t", File [x26] [])])].
Definition cm_run (s t : str) (force : bool) := copy_to k_sends 10 1 (path_of [$"d"; s]) (path_of [$"d"; t]) force true (start cm_fs [] k_none_fails).
Lemma cm_dates : gives_dates k_sends.
Proof. split; [|discriminate]. intros v w. cbn. destruct v; intro H; try discriminate; injection H as <-; unfold k_day; eauto. Qed.

Example C78_case :
  good_fs cm_fs /\ reads cm_fs [] (path_of [$"d"; $"a"]) [$"d"; $"a"] /\ content cm_fs [$"d"; $"a"] = Some [x20; x21] /\
  free_or_file cm_fs [$"d"] $"n" /\ free_or_file cm_fs [$"d"] $"b" /\ prefix_ok (c_prefix k_sends) /\ gives_dates k_sends /\
  (exists m, recorded k_sends $"n" (look cm_fs [$"d"; $"a"]) = Ok (Some m) /\ dated k_sends m /\ (forall f v, getf k_date m f = Ok v -> reparses k_sends v)) /\
  recorded k_sends $"n" (look cm_fs [$"d"; $"n"]) = Ok None /\ recorded k_sends $"b" (look cm_fs [$"d"; $"b"]) = Ok None /\
  (let r := cm_run $"a" $"n" false in
   fst r = Ok tt /\ content (w_fs (snd r)) [$"d"; $"n"] = Some [x20; x21] /\
   recorded k_sends $"n" (look (w_fs (snd r)) [$"d"; $"n"]) = recorded k_sends $"n" (Some (AFile [] (k_attrs k_old)))) /\
  (let r := cm_run $"a" $"b" true in
   fst r = Ok tt /\ content (w_fs (snd r)) [$"d"; $"b"] = Some [x20; x21] /\ xget $"user.mine" (file_xattrs (w_fs (snd r)) [$"d"; $"b"]) = Some [x02]) /\
  fst (cm_run $"a" $"b" false) = Err PathExistsErr.
Proof.
  split; [now apply good_fs_b_ok|]. split; [do 2 eexists; vm_compute; reflexivity|]. split; [reflexivity|].
  split; [split; [name_tac|split; [eexists; vm_compute; reflexivity|exact I]]|]. split; [split; [name_tac|split; [eexists; vm_compute; reflexivity|exact I]]|].
  split; [apply MetaXattrProofs.encodable_scalar; reflexivity|]. split; [exact cm_dates|]. split.
  { eexists. split; [vm_compute; reflexivity|]. split.
    - split; eexists; vm_compute; reflexivity.
    - intros f v G d E. subst v. destruct f; vm_compute in G; try discriminate G. injection G as <-. vm_compute. reflexivity. }
  vm_compute. repeat split; reflexivity.
Qed.

(** A source without metadata, and a target with metadata: the content has been replaced
    when it raises, and what had metadata has the content of one file and the metadata of
    another.  Nothing failed. *)
Theorem C78_no_meta_refuted :
  exists K w', recorded K $"b" (look cm_fs [$"d"; $"b"]) = Ok None /\
    copy_to K 10 1 (path_of [$"d"; $"b"]) (path_of [$"d"; $"n"]) false true (start cm_fs [] k_none_fails) = (Err AttributeError, w') /\
    look cm_fs [$"d"; $"n"] = None /\ content (w_fs w') [$"d"; $"n"] = Some [x22].
Proof. exists k_sends. eexists. repeat (split; [vm_compute; reflexivity|]). vm_compute. reflexivity. Qed.
Print Assumptions C78_no_meta_refuted.
Theorem C78_mixed_refuted :
  exists K w' m, copy_to K 10 1 (path_of [$"d"; $"a"]) (path_of [$"d"; $"c"]) true true (start cm_fs [] k_none_fails) = (Err CacheExistsErr, w') /\
    content cm_fs [$"d"; $"c"] = Some [x23; x24; x25] /\ content (w_fs w') [$"d"; $"c"] = Some [x20; x21] /\
    recorded K $"c" (look cm_fs [$"d"; $"c"]) = Ok (Some m) /\ m_size m = PSize 3 /\ recorded K $"c" (look (w_fs w') [$"d"; $"c"]) = Ok (Some m).
Proof. exists k_sends. do 2 eexists. repeat (split; [vm_compute; reflexivity|]). vm_compute. reflexivity. Qed.
Print Assumptions C78_mixed_refuted.
(** Forced over a link, the file it leads to is overwritten; then it raises. *)
Theorem C78_link_refuted :
  exists K e w', copy_to K 10 1 (path_of [$"d"; $"a"]) (path_of [$"d"; $"l"]) true true (start cm_fs [] k_none_fails) = (Err e, w') /\
    content cm_fs [$"e"; $"t"] = Some [x26] /\ content (w_fs w') [$"e"; $"t"] = Some [x20; x21] /\ look (w_fs w') [$"d"; $"l"] = Some (ALink $"/e/t").
Proof. exists k_sends. do 2 eexists. repeat (split; [vm_compute; reflexivity|]). vm_compute. reflexivity. Qed.
Print Assumptions C78_link_refuted.
(** Attributes that are not of the fields are not copied. *)
Theorem C78_attribute_refuted :
  exists K w', copy_to K 10 1 (path_of [$"d"; $"a"]) (path_of [$"d"; $"n"]) false true (start cm_fs [] k_none_fails) = (Ok tt, w') /\
    xget $"user.colour" (file_xattrs cm_fs [$"d"; $"a"]) = Some [x01] /\ xget $"user.colour" (file_xattrs (w_fs w') [$"d"; $"n"]) = None.
Proof. exists k_sends. eexists. repeat (split; [vm_compute; reflexivity|]). vm_compute. reflexivity. Qed.
Print Assumptions C78_attribute_refuted.
