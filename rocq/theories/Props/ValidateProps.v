(** * C59, C60: choosing between two caches of one thing, checking a file against its metadata *)
From Coq Require Import String Strings.Byte NArith ZArith Bool List Lia.
From Verif Require Import Model.Py Model.PurePath Model.Meta Model.MetaEncode Model.MetaXattr Model.MetaUpdate Model.Fs Model.PathOps Model.Etag Model.Cache Model.Validate
  Spec.FsSpec Spec.LoopSpec Spec.EtagSpec Spec.CacheSpec Spec.ValidateSpec Proofs.GoodFs Proofs.CacheLemmas Proofs.ValidateProofs Props.CacheProps.
Import ListNotations.

(** ** C59 *)

(** What is picked is not the older one. *)
Theorem C59_newest :
  forall dateparse a b x, dedupe dateparse a b = Ok x -> ~ older dateparse (won x a b) (lost x a b).
Proof. exact dedupe_newest. Qed.
Print Assumptions C59_newest.

(** Whichever of the two is asked, the newer one is picked.  Missing from the full
    statement: two of which neither is older. *)
Theorem C59_partial :
  forall dateparse a b t, older dateparse a b -> py_eq (d_id a) (d_id b) = true -> py_eq (d_id b) (d_id a) = true ->
    update_meta dateparse (d_meta a) (d_meta b) = Ok t -> dedupe dateparse a b = Ok Theirs /\ dedupe dateparse b a = Ok Mine.
Proof. exact dedupe_older. Qed.
Print Assumptions C59_partial.

(** Caches of different things *)
Theorem C59_ids :
  forall dateparse a b, py_eq (d_id a) (d_id b) = false -> dedupe dateparse a b = Err ValueError.
Proof. exact dedupe_ids. Qed.
Print Assumptions C59_ids.

(** Metadata without a time is not compared. *)
Theorem C59_undated :
  forall dateparse a b ma mb, d_meta a = Some ma -> d_meta b = Some mb ->
    (exists u, get_updated dateparse ma = Ok u) -> (exists v, get_updated dateparse mb = Ok v) ->
    get_updated dateparse ma = Ok PNone \/ get_updated dateparse mb = Ok PNone -> py_eq (d_id a) (d_id b) = true -> dedupe dateparse a b = Err TypeError.
Proof. exact dedupe_undated. Qed.
Print Assumptions C59_undated.

Definition v_side (day : N) (size : Z) (local : pyval) : side :=
  mkSide (PStr $"N:1") (Some (k_meta $"N:1" day size (PBytes [x01; x20]) PNone)) local.
(** With times that are the same each of the two keeps itself, though their sizes
    differ. *)
Theorem C59_refuted :
  exists a b, dedupe k_date a b = Ok Mine /\ dedupe k_date b a = Ok Mine /\ a <> b.
Proof. exists (v_side 1 2 PNone), (v_side 1 3 PNone). split; [vm_compute; reflexivity|]. split; [vm_compute; reflexivity|]. discriminate. Qed.
Print Assumptions C59_refuted.

Example C59_case :
  older k_date (v_side 1 2 PNone) (v_side 2 3 PNone) /\
  older k_date (v_side 2 2 PNone) (v_side 2 3 (k_day 1)) /\ older k_date (v_side 2 2 (k_day 1)) (v_side 2 3 (k_day 2)) /\
  (exists t, update_meta k_date (d_meta (v_side 1 2 PNone)) (d_meta (v_side 2 3 PNone)) = Ok t) /\
  dedupe k_date (v_side 1 2 PNone) (v_side 2 3 PNone) = Ok Theirs /\
  dedupe k_date (v_side 2 2 (k_day 2)) (v_side 2 2 (k_day 1)) = Ok Mine /\
  dedupe k_date (mkSide (PStr $"N:2") None PNone) (v_side 2 2 (k_day 1)) = Err ValueError /\
  dedupe k_date (mkSide (PStr $"N:1") (Some k_none) PNone) (v_side 2 2 (k_day 1)) = Err TypeError.
Proof.
  split; [eexists _, _, _, _; split; [reflexivity|]; split; [reflexivity|]; split; [vm_compute; reflexivity|]; split; [vm_compute; reflexivity|]; left; vm_compute; reflexivity|].
  split; [eexists _, _, _, _; split; [reflexivity|]; split; [reflexivity|]; split; [vm_compute; reflexivity|]; split; [vm_compute; reflexivity|]; right; split;
    [split; vm_compute; reflexivity|left; left; split; [reflexivity|discriminate]]|].
  split; [eexists _, _, _, _; split; [reflexivity|]; split; [reflexivity|]; split; [vm_compute; reflexivity|]; split; [vm_compute; reflexivity|]; right; split;
    [split; vm_compute; reflexivity|left; right; split; [discriminate|split; [discriminate|vm_compute; reflexivity]]]|].
  split; [eexists; vm_compute; reflexivity|]. repeat split.
Qed.

(** ** C60 *)

(** The check changes nothing at any moment, whatever fails. *)
Theorem C60_changes_nothing :
  forall K md5 chunk p fs cwd fault r w', validate_file K md5 chunk p (start fs cwd fault) = (r, w') -> Forall (eq fs) (states w').
Proof. exact validate_reads. Qed.
Print Assumptions C60_changes_nothing.

(** With an etag: it says whether the etag is that of the data. *)
Theorem C60_etag :
  forall K md5 chunk D x fs cwd fault d xs m size b n r w',
    0 < chunk -> good_fs fs -> look fs (D ++ [x]) = Some (AFile d xs) -> recorded K x (Some (AFile d xs)) = Ok (Some m) -> honest fault ->
    m_etag m = PEtag b n -> m_chunksize m = PInt (Z.of_nat size) \/ m_chunksize m = PSize (Z.of_nat size) -> 0 < size ->
    validate_file K md5 (Z.of_nat chunk) (path_of (D ++ [x])) (start fs cwd fault) = (r, w') ->
    (exists e t, r = Err e /\ fault t = Some e) \/
    (r = Ok [] /\ is_etag md5 size d (b, n)) \/ (r = Ok [EtagDiffers] /\ ~ is_etag md5 size d (b, n)).
Proof. exact etag_checked. Qed.
Print Assumptions C60_etag.

(** With a checksum and no etag: it returns only when the checksum is that of the data.
    Missing from the full statement: as C29, and that the mismatch is recorded. *)
Theorem C60_checksum_partial :
  forall K md5 chunk D x fs cwd fault d xs m cy r w',
    good_fs fs -> look fs (D ++ [x]) = Some (AFile d xs) -> recorded K x (Some (AFile d xs)) = Ok (Some m) -> honest fault ->
    truthy (m_etag m) = false -> truthy (m_checksum m) = true -> algorithm K m cy -> c_known K cy = true -> (c_cypher K = default_cypher \/ cy <> default_cypher) ->
    validate_file K md5 (Z.of_nat chunk) (path_of (D ++ [x])) (start fs cwd fault) = (r, w') ->
    (r = Ok [] -> py_eq (PBytes (c_digest K cy d)) (m_checksum m) = true) /\
    (py_eq (PBytes (c_digest K cy d)) (m_checksum m) = true -> r = Ok [] \/ exists e t, r = Err e /\ fault t = Some e) /\
    (py_eq (PBytes (c_digest K cy d)) (m_checksum m) = false -> exists e, r = Err e).
Proof. exact checksum_checked. Qed.
Print Assumptions C60_checksum_partial.

(** With neither: the size is checked if there is one, and it says so. *)
Theorem C60_size :
  forall K md5 chunk D x fs cwd fault d xs m r w',
    good_fs fs -> look fs (D ++ [x]) = Some (AFile d xs) -> recorded K x (Some (AFile d xs)) = Ok (Some m) -> honest fault ->
    truthy (m_etag m) = false -> truthy (m_checksum m) = false ->
    validate_file K md5 (Z.of_nat chunk) (path_of (D ++ [x])) (start fs cwd fault) = (r, w') ->
    (exists e t, r = Err e /\ fault t = Some e) \/ (r = Ok [NoSize] /\ m_size m = PNone) \/
    (m_size m <> PNone /\ r = Ok [NoChecksum] /\ py_eq (PInt (Z.of_nat (length d))) (m_size m) = true) \/
    (m_size m <> PNone /\ r = Err SizeErr /\ py_eq (PInt (Z.of_nat (length d))) (m_size m) = false).
Proof. exact size_checked. Qed.
Print Assumptions C60_size.

Definition v_fs (m : pathmeta) : node := Dir [] [($"a", File [x20; x21] (k_attrs m))].
Definition v_run (m : pathmeta) : res (list note) := fst (validate_file k_sends (firstn 2) 4 (path_of [$"a"]) (start (v_fs m) [] k_none_fails)).
Definition v_meta (etag chunksize size sum cy : pyval) : pathmeta :=
  match meta_init (set_arg Fid (PStr $"N:1") (set_arg Fetag etag (set_arg Fchunksize chunksize (set_arg Fsize size
     (set_arg Fchecksum sum (set_arg Fchecksum_cypher cy no_args)))))) with Ok m => m | Err _ => k_none end.
(** A checksum that does not match is not recorded: an AttributeError comes first, as
    the metadata cannot be assigned. *)
Theorem C60_recorded_refuted :
  exists fs m w', validate_file k_sends (firstn 2) 4 (path_of [$"a"]) (start fs [] k_none_fails) = (Err AttributeError, w') /\
    recorded k_sends $"a" (look (w_fs w') [$"a"]) = Ok (Some m) /\ m_errors m = [] /\
    exists d xs, look fs [$"a"] = Some (AFile d xs) /\ py_eq (PBytes (c_digest k_sends $"sha256" d)) (m_checksum m) = false.
Proof.
  exists (v_fs (v_meta PNone PNone (PInt 2) (PBytes [x01; x20]) PNone)). eexists _, _. split; [vm_compute; reflexivity|].
  split; [vm_compute; reflexivity|]. split; [vm_compute; reflexivity|]. eexists _, _. split; vm_compute; reflexivity.
Qed.
Print Assumptions C60_recorded_refuted.

(** A class with another algorithm than blake2b refuses a file whose blake2b checksum
    is right. *)
Theorem C60_algorithm_refuted :
  exists fs m d xs, look fs [$"a"] = Some (AFile d xs) /\ recorded k_sends $"a" (look fs [$"a"]) = Ok (Some m) /\
    algorithm k_sends m default_cypher /\ py_eq (PBytes (c_digest k_sends default_cypher d)) (m_checksum m) = true /\
    fst (validate_file k_sends (firstn 2) 4 (path_of [$"a"]) (start fs [] k_none_fails)) = Err AttributeError.
Proof.
  exists (v_fs (v_meta PNone PNone (PInt 2) (PBytes [x02; x21; x20]) (PStr default_cypher))). eexists _, _, _. split; [vm_compute; reflexivity|].
  split; [vm_compute; reflexivity|]. split; [right; vm_compute; reflexivity|]. split; vm_compute; reflexivity.
Qed.
Print Assumptions C60_algorithm_refuted.

Example C60_case :
  good_fs (v_fs (v_meta PNone PNone (PInt 2) PNone PNone)) /\
  (exists m d xs, look (v_fs (v_meta (PEtag [x20; x21] 2) (PInt 1) PNone PNone PNone)) [$"a"] = Some (AFile d xs) /\
     recorded k_sends $"a" (Some (AFile d xs)) = Ok (Some m) /\ m_etag m = PEtag [x20; x21] 2 /\ m_chunksize m = PInt 1) /\
  v_run (v_meta (PEtag [x20; x21] 2) (PInt 1) PNone PNone PNone) = Ok [] /\
  v_run (v_meta (PEtag [x20; x22] 2) (PInt 1) PNone PNone PNone) = Ok [EtagDiffers] /\
  v_run (v_meta PNone PNone (PInt 2) (PBytes [x01; x21; x20]) PNone) = Ok [] /\
  v_run (v_meta PNone PNone (PInt 2) PNone PNone) = Ok [NoChecksum] /\
  v_run (v_meta PNone PNone (PInt 3) PNone PNone) = Err SizeErr /\
  v_run (v_meta PNone PNone PNone PNone PNone) = Ok [NoSize].
Proof.
  split; [now apply good_fs_b_ok|]. split; [eexists _, _, _; split; [vm_compute; reflexivity|]; split; [vm_compute; reflexivity|]; split; reflexivity|].
  repeat (split; [vm_compute; reflexivity|]). vm_compute. reflexivity.
Qed.
