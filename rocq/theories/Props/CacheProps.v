(** * C26-C31, C46: caches, the trash, fetching and moving *)
From Coq Require Import String Strings.Byte NArith ZArith Bool List.
From Verif Require Import Model.Py Model.PurePath Model.Meta Model.MetaEncode Model.MetaXattr Model.MetaSymlink Model.MetaUpdate Model.Fs Model.PathOps Model.Cache
  Spec.FsSpec Spec.LoopSpec Spec.CopySpec Spec.CacheSpec Spec.XattrSpec Proofs.GoodFs Proofs.MetaXattrProofs Proofs.CacheLemmas Proofs.CacheFinal.
Import ListNotations.

(** ** What the cases are about: a file and a link with metadata, and a trash *)
Definition k_day (n : N) : pyval := PDt (mkDT 2020 1 n 0 0 0 0 None).
Definition k_date (v : pyval) : res pyval := match v with PDt _ => Ok v | PStr s => Ok (k_day (nth 9 s 48%N - 48)%N) | _ => Err TypeError end.
Definition k_digest (cy : str) (d : bytes) : bytes := (if str_eqb cy $"sha256" then x01 else x02) :: rev d.
Definition k_conf (r : remote) : conf :=
  mkConf k_date (fun _ => Err ValueError) (Some $"ssh") (pp_parse $"/trash") (pp_parse $"/objects") $"sha256" (fun _ => true) k_digest r (fun _ => ret tt).
Definition k_none : pathmeta :=
  mkMeta PNone PNone PNone None PNone None PNone PNone PNone PNone PNone PNone PNone PNone PNone PNone PNone PNone [] [].
Definition k_meta (i : str) (upd : N) (size : Z) (sum cy : pyval) : pathmeta :=
  match meta_init (set_arg Fid (PStr i) (set_arg Ffile_id (PInt 7) (set_arg Fupdated (k_day upd) (set_arg Fsize (PInt size)
     (set_arg Fchecksum sum (set_arg Fchecksum_cypher cy no_args)))))) with Ok m => m | Err _ => k_none end.
Definition k_attrs (m : pathmeta) : Fs.xattrs := match as_xattrs k_date m (Some $"ssh") with Ok l => setall l [] | Err _ => [] end.
Definition k_link (x : str) (m : pathmeta) : str := match as_symlink k_date m (Some x) with Ok q => pp_str q | Err _ => [] end.
Definition k_old : pathmeta := k_meta $"N:1" 1 2 (PBytes [x01; x21; x20]) PNone.
Definition k_new : pathmeta := k_meta $"N:1" 2 3 (PBytes [x01; x32; x31; x30]) PNone.
Definition k_fs : node :=
  Dir [] [($"d", Dir [] [($"a", File [x20; x21] (k_attrs k_old)); ($"l", Link (k_link $"l" k_new))]); ($"trash", Dir [] [($"z", File [x10] [])])].
Definition k_sends : conf := k_conf (mkRemote false true [[x30]; [x31; x32]] None).
Definition k_breaks : conf := k_conf (mkRemote false true [[x30]; [x31; x32]] (Some (OSErr EIO))).
Definition k_dir : conf := k_conf (mkRemote true false [] None).
Definition k_none_fails : nat -> option exn := fun _ => None.
Definition k_fails (e : exn) (k : nat) : nat -> option exn := fun t => if Nat.eqb t k then Some e else None.

Ltac honest_tac := let t := fresh in let e := fresh in let H := fresh in intros t e H; unfold k_none_fails, k_fails in H; try discriminate H;
  match type of H with (if ?b then _ else _) = _ => destruct b end; [|discriminate H]; injection H as H; subst e;
  first [left; reflexivity | right; eexists; repeat split; discriminate].
Ltac name_tac := repeat split; try discriminate; cbn; let H := fresh in intro H; repeat (destruct H as [H|H]; [discriminate H|]); contradiction.
Ltac trash_tac := split; [reflexivity|split; [eexists; vm_compute; reflexivity|let q := fresh in let H := fresh in intros (q & H); discriminate H]].

(** ** C26 *)

(** At every moment of an update the content is at the path, or the file is in the
    trash. *)
Theorem C26_nothing_lost :
  forall K D x TR fs cwd fault d xs pm f r w',
    good_name x -> good_fs fs -> look fs (D ++ [x]) = Some (AFile d xs) -> trash_at K fs TR (D ++ [x]) -> usable_id K x (Some (AFile d xs)) ->
    confined (D ++ [x]) (c_refresh K (path_of (D ++ [x]))) -> honest fault ->
    meta_updater K (path_of (D ++ [x])) pm f (start fs cwd fault) = (r, w') ->
    forall s, In s (states w') -> content s (D ++ [x]) = Some d \/ exists y, look s (TR ++ [y]) = Some (AFile d xs).
Proof. exact update_safe. Qed.
Print Assumptions C26_nothing_lost.

(** When it raises, the file was not moved, or it is back and all is as it was but
    for the entry in the trash.  Missing from the full statement: the remote is not a
    directory, no name was too long, and the restoring itself did not fail. *)
Theorem C26_restored_partial :
  forall K D x TR fs cwd fault d xs pm f e w',
    good_name x -> good_fs fs -> look fs (D ++ [x]) = Some (AFile d xs) -> trash_at K fs TR (D ++ [x]) -> usable_id K x (Some (AFile d xs)) ->
    confined (D ++ [x]) (c_refresh K (path_of (D ++ [x]))) -> honest fault ->
    r_is_dir (c_remote K) = false -> (forall t, fault t <> Some (OSErr ENAMETOOLONG)) -> fault (pred (w_tick w')) = None ->
    meta_updater K (path_of (D ++ [x])) pm f (start fs cwd fault) = (Err e, w') ->
    (forall s, In s (states w') -> content s (D ++ [x]) = Some d /\ only_at (D ++ [x]) fs s) \/
    (exists y, ~ is_dir_at fs (TR ++ [y]) /\ look (w_fs w') (TR ++ [y]) = None /\ forall q, q <> TR ++ [y] -> look (w_fs w') q = look fs q).
Proof. exact update_restored. Qed.
Print Assumptions C26_restored_partial.

(** It is false without these: where the remote is a directory now nothing has to
    fail for the file to stay in the trash; where its id is too long for a name the
    file stays there when the remote breaks off. *)
Theorem C26_refuted :
  (exists K e w', meta_updater K (path_of [$"d"; $"a"]) (Some k_new) true (start k_fs [] k_none_fails) = (Err e, w') /\
     is_dir_at (w_fs w') [$"d"; $"a"] /\ look (w_fs w') [$"trash"; $"N-1"] = look k_fs [$"d"; $"a"]) /\
  (exists fault e w', honest fault /\ meta_updater k_breaks (path_of [$"d"; $"a"]) (Some k_new) true (start k_fs [] fault) = (Err e, w') /\
     content (w_fs w') [$"d"; $"a"] = Some [x30; x31; x32] /\ look (w_fs w') [$"trash"; $"a"] = look k_fs [$"d"; $"a"]).
Proof.
  split.
  - exists k_dir. eexists _, _. split; [vm_compute; reflexivity|]. split; [eexists; vm_compute; reflexivity|vm_compute; reflexivity].
  - exists (k_fails (OSErr ENAMETOOLONG) 16). eexists _, _. split; [honest_tac|]. split; [vm_compute; reflexivity|]. split; vm_compute; reflexivity.
Qed.
Print Assumptions C26_refuted.

Example C26_case :
  good_name $"a" /\ good_fs k_fs /\ look k_fs ([$"d"] ++ [$"a"]) = Some (AFile [x20; x21] (k_attrs k_old)) /\
  trash_at k_breaks k_fs [$"trash"] ([$"d"] ++ [$"a"]) /\ usable_id k_breaks $"a" (Some (AFile [x20; x21] (k_attrs k_old))) /\
  confined ([$"d"] ++ [$"a"]) (c_refresh k_breaks (path_of ([$"d"] ++ [$"a"]))) /\ honest k_none_fails /\ r_is_dir (c_remote k_breaks) = false /\
  (let r := meta_updater k_breaks (path_of [$"d"; $"a"]) (Some k_new) true (start k_fs [] k_none_fails) in
   fst r = Err (OSErr EIO) /\ look (w_fs (snd r)) [$"d"; $"a"] = look k_fs [$"d"; $"a"] /\ length (states (snd r)) = 15%nat) /\
  (let r := meta_updater k_sends (path_of [$"d"; $"a"]) (Some k_new) true (start k_fs [] k_none_fails) in
   fst r = Ok true /\ content (w_fs (snd r)) [$"d"; $"a"] = Some [x30; x31; x32] /\
   look (w_fs (snd r)) [$"trash"; $"N-1"] = look k_fs [$"d"; $"a"]).
Proof.
  split; [name_tac|]. split; [now apply good_fs_b_ok|]. split; [vm_compute; reflexivity|]. split; [trash_tac|]. split.
  { intros m i R E. vm_compute in R. injection R as <-. injection E as <-. cbn. name_tac. }
  split; [apply confined_ret|]. split; [intros t e H; discriminate|]. split; [reflexivity|].
  split; vm_compute; repeat split; reflexivity.
Qed.

(** ** C27 *)

(** What is moved to the trash comes to be under one of two names there; what had
    that name is gone, all else stays. *)
Theorem C27_only_the_name :
  forall K D x TR fs cwd fault v r w',
    good_name x -> good_fs fs -> look fs (D ++ [x]) = Some v -> cached_leaf x v -> trash_at K fs TR (D ++ [x]) -> honest fault ->
    crumple K (path_of (D ++ [x])) (start fs cwd fault) = (r, w') ->
    (forall s, In s (states w') -> s = fs) \/
    exists y, trash_name K x (Some v) y /\ forall s, In s (states w') -> s = fs \/
      (look s (TR ++ [y]) = Some v /\ look s (D ++ [x]) = None /\ forall q, q <> D ++ [x] -> q <> TR ++ [y] -> look s q = look fs q).
Proof. exact trash_keeps. Qed.
Print Assumptions C27_only_the_name.
(** So nothing is lost where the names are free. *)
Theorem C27_partial :
  forall K D x TR fs cwd fault v r w',
    good_name x -> good_fs fs -> look fs (D ++ [x]) = Some v -> cached_leaf x v -> trash_at K fs TR (D ++ [x]) -> honest fault ->
    (forall y, trash_name K x (Some v) y -> look fs (TR ++ [y]) = None) ->
    crumple K (path_of (D ++ [x])) (start fs cwd fault) = (r, w') ->
    forall s q, In s (states w') -> q <> D ++ [x] -> look fs q <> None -> look s q = look fs q.
Proof. exact trash_free. Qed.
Print Assumptions C27_partial.

(** Where they are not: a file with another id that is the same once made safe, and
    any earlier version, are replaced. *)
Definition k_full : node :=
  Dir [] [($"d", Dir [] [($"a", File [x20; x21] (k_attrs k_old))]);
          ($"trash", Dir [] [($"N-1", File [x10] (k_attrs (k_meta $"N-1" 1 1 PNone PNone)))])].
Theorem C27_refuted :
  exists K p fs t m n w', good_fs fs /\ recorded K $"N-1" (look fs [$"trash"; $"N-1"]) = Ok (Some m) /\ m_id m = PStr $"N-1" /\
    recorded K $"a" (look fs [$"d"; $"a"]) = Ok (Some n) /\ m_id n = PStr $"N:1" /\
    content fs [$"trash"; $"N-1"] = Some [x10] /\
    crumple K p (start fs [] k_none_fails) = (Ok t, w') /\ content (w_fs w') [$"trash"; $"N-1"] = Some [x20; x21] /\
    forall q, content (w_fs w') q <> Some [x10].
Proof.
  exists k_sends, (path_of [$"d"; $"a"]), k_full. eexists _, _, _, _. split; [now apply good_fs_b_ok|].
  split; [vm_compute; reflexivity|]. split; [reflexivity|]. split; [vm_compute; reflexivity|]. split; [reflexivity|]. split; [reflexivity|].
  split; [vm_compute; reflexivity|]. split; [vm_compute; reflexivity|].
  intros q H. unfold content in H. destruct (look _ q) as [[d xs| |]|] eqn:L; try discriminate. apply look_things in L. injection H as ->.
  vm_compute in L. repeat (destruct L as [L|L]; [discriminate|]). contradiction.
Qed.
Print Assumptions C27_refuted.

Example C27_case :
  good_name $"l" /\ good_fs k_fs /\ look k_fs ([$"d"] ++ [$"l"]) = Some (ALink (k_link $"l" k_new)) /\ cached_leaf $"l" (ALink (k_link $"l" k_new)) /\
  trash_at k_sends k_fs [$"trash"] ([$"d"] ++ [$"l"]) /\
  (forall y, trash_name k_sends $"l" (Some (ALink (k_link $"l" k_new))) y -> look k_fs ([$"trash"] ++ [y]) = None) /\
  (let r := crumple k_sends (path_of [$"d"; $"l"]) (start k_fs [] k_none_fails) in
   fst r = Ok (pp_parse $"/trash/N-1") /\ look (w_fs (snd r)) [$"d"; $"l"] = None /\
   look (w_fs (snd r)) [$"trash"; $"N-1"] = Some (ALink (k_link $"l" k_new)) /\ content (w_fs (snd r)) [$"trash"; $"z"] = Some [x10]) /\
  (let r := crumple k_sends (path_of [$"d"; $"l"]) (start k_fs [] (k_fails (OSErr ENAMETOOLONG) 6)) in
   fst r = Ok (pp_parse $"/trash/N-1") /\ look (w_fs (snd r)) [$"trash"; $"N-1"] = None /\
   look (w_fs (snd r)) [$"trash"; $"l"] = Some (ALink (k_link $"l" k_new))).
Proof.
  split; [name_tac|]. split; [now apply good_fs_b_ok|]. split; [vm_compute; reflexivity|]. split; [eexists; vm_compute; reflexivity|].
  split; [trash_tac|]. split.
  { intros y [->|(m & i & R & E & ->)]; [reflexivity|]. vm_compute in R. injection R as <-. injection E as <-. reflexivity. }
  split; vm_compute; repeat split; reflexivity.
Qed.

(** ** C28 *)

(** Missing from the full statement: a checksum was recorded, by the algorithm of the
    class; the update makes a difference and does not bring the checksum of the local
    content. *)
Theorem C28_partial :
  forall K D x fs cwd fault d xs old new u r w',
    good_fs fs -> look fs (D ++ [x]) = Some (AFile d xs) -> honest fault ->
    recorded K x (Some (AFile d xs)) = Ok (Some old) -> update_meta (c_dateparse K) (Some old) (Some new) = Ok (true, Some u) ->
    truthy (m_checksum old) = true -> py_eq (PBytes (c_digest K (c_cypher K) d)) (m_checksum old) = false ->
    py_eq (PBytes (c_digest K (c_cypher K) d)) (m_checksum new) = false ->
    meta_updater K (path_of (D ++ [x])) (Some new) true (start fs cwd fault) = (r, w') ->
    (forall s, In s (states w') -> s = fs) /\ (r = Err LocalChangesError \/ exists e t, r = Err e /\ fault t = Some e).
Proof. exact local_changes. Qed.
Print Assumptions C28_partial.

(** Without fetching, and where the metadata does not change, the content stays. *)
Theorem C28_stays :
  forall K D x TR fs cwd fault d xs pm f r w',
    good_name x -> good_fs fs -> look fs (D ++ [x]) = Some (AFile d xs) -> trash_at K fs TR (D ++ [x]) -> usable_id K x (Some (AFile d xs)) ->
    confined (D ++ [x]) (c_refresh K (path_of (D ++ [x]))) -> honest fault ->
    f = false \/ (forall m u, recorded K x (Some (AFile d xs)) = Ok (Some m) -> update_meta (c_dateparse K) (Some m) pm <> Ok (true, u)) ->
    meta_updater K (path_of (D ++ [x])) pm f (start fs cwd fault) = (r, w') ->
    forall s, In s (states w') -> content s (D ++ [x]) = Some d /\ only_at (D ++ [x]) fs s.
Proof. exact update_stays. Qed.
Print Assumptions C28_stays.

(** Where the new metadata has the checksum of the local content this is replaced by
    what the remote sends, whatever that is. *)
Definition k_changed : node := Dir [] [($"d", Dir [] [($"a", File [x20; x22] (k_attrs k_old))]); ($"trash", Dir [] [])].
Theorem C28_refuted :
  exists K old new w', recorded K $"a" (look k_changed [$"d"; $"a"]) = Ok (Some old) /\ content k_changed [$"d"; $"a"] = Some [x20; x22] /\
    py_eq (PBytes (c_digest K (c_cypher K) [x20; x22])) (m_checksum old) = false /\ truthy (m_checksum old) = true /\
    meta_updater K (path_of [$"d"; $"a"]) (Some new) true (start k_changed [] k_none_fails) = (Ok true, w') /\
    content (w_fs w') [$"d"; $"a"] = Some [x30; x31; x32].
Proof.
  exists k_sends. eexists. exists (k_meta $"N:1" 2 3 (PBytes [x01; x22; x20]) PNone). eexists. split; [vm_compute; reflexivity|].
  repeat (apply conj; [vm_compute; reflexivity|]); vm_compute; reflexivity.
Qed.
Print Assumptions C28_refuted.

Example C28_case :
  good_fs k_changed /\
  (exists old u, recorded k_sends $"a" (look k_changed [$"d"; $"a"]) = Ok (Some old) /\
     update_meta k_date (Some old) (Some k_new) = Ok (true, Some u) /\ truthy (m_checksum old) = true /\
     py_eq (PBytes (c_digest k_sends (c_cypher k_sends) [x20; x22])) (m_checksum old) = false) /\
  py_eq (PBytes (c_digest k_sends (c_cypher k_sends) [x20; x22])) (m_checksum k_new) = false /\
  fst (meta_updater k_sends (path_of [$"d"; $"a"]) (Some k_new) true (start k_changed [] k_none_fails)) = Err LocalChangesError /\
  (let r := meta_updater k_sends (path_of [$"d"; $"a"]) (Some k_new) false (start k_changed [] k_none_fails) in
   fst r = Ok true /\ content (w_fs (snd r)) [$"d"; $"a"] = Some [x20; x22] /\ look (w_fs (snd r)) [$"d"; $"a"] <> look k_changed [$"d"; $"a"]).
Proof. split; [now apply good_fs_b_ok|]. split; [eexists _, _; repeat (apply conj; [vm_compute; reflexivity|]); vm_compute; reflexivity|].
  vm_compute. repeat split; discriminate. Qed.

(** ** C29 *)

(** Missing from the full statement: a class whose algorithm is not blake2b, for
    metadata whose checksum is one of blake2b. *)
Theorem C29_partial :
  forall K D x fs cwd fault v m limit w',
    good_name x -> good_fs fs -> look fs (D ++ [x]) = Some v -> cached_leaf x v -> recorded K x (Some v) = Ok (Some m) -> m_file_id m <> PNone -> honest fault ->
    (c_cypher K = default_cypher \/ forall cm, recorded K x (look (w_fs w') (D ++ [x])) = Ok (Some cm) -> ~ algorithm K cm default_cypher) ->
    fetch K (path_of (D ++ [x])) limit (start fs cwd fault) = (Ok tt, w') ->
    (forall q, look (w_fs w') q = look fs q) \/
    exists d xs, look (w_fs w') (D ++ [x]) = Some (AFile d xs) /\ d = concat (r_chunks (c_remote K)) /\ r_break (c_remote K) = None /\
      only_at (D ++ [x]) fs (w_fs w') /\ py_eq (PInt (Z.of_nat (length d))) (m_size m) = true /\
      (says_mismatch K x (look (w_fs w') (D ++ [x])) \/
       exists cm cy, recorded K x (look (w_fs w') (D ++ [x])) = Ok (Some cm) /\ algorithm K cm cy /\
         (m_checksum m = PNone \/ py_eq (PBytes (c_digest K cy d)) (m_checksum m) = true)).
Proof. exact fetch_valid. Qed.
Print Assumptions C29_partial.

(** There the algorithm of the class is used: a checksum that does not match goes
    unnoticed. *)
Definition k_blake : pathmeta := k_meta $"N:1" 2 3 (PBytes [x01; x32; x31; x30]) (PStr default_cypher).
Definition k_blake_fs : node := Dir [] [($"l", Link (k_link $"l" k_blake))].
Theorem C29_refuted :
  exists K w' m d xs, fetch K (path_of [$"l"]) None (start k_blake_fs [] k_none_fails) = (Ok tt, w') /\
    recorded K $"l" (look k_blake_fs [$"l"]) = Ok (Some m) /\ algorithm K m default_cypher /\
    look (w_fs w') [$"l"] = Some (AFile d xs) /\ py_eq (PBytes (c_digest K default_cypher d)) (m_checksum m) = false /\
    exists m', recorded K $"l" (look (w_fs w') [$"l"]) = Ok (Some m') /\ m_errors m' = [].
Proof.
  exists k_sends. eexists _, _, _, _. split; [vm_compute; reflexivity|]. split; [vm_compute; reflexivity|]. split; [right; vm_compute; reflexivity|].
  split; [vm_compute; reflexivity|]. split; [vm_compute; reflexivity|]. eexists. split; vm_compute; reflexivity.
Qed.
Print Assumptions C29_refuted.

Definition k_wrong_fs : node := Dir [] [($"l", Link (k_link $"l" (k_meta $"N:1" 2 3 (PBytes [x01; x02]) PNone)))].
Example C29_case :
  good_name $"l" /\ good_fs k_fs /\ cached_leaf $"l" (ALink (k_link $"l" k_new)) /\
  (exists m, recorded k_sends $"l" (look k_fs [$"d"; $"l"]) = Ok (Some m) /\ m_file_id m = PInt 7 /\ m_size m = PSize 3) /\
  (exists w', fetch k_sends (path_of [$"d"; $"l"]) None (start k_fs [] k_none_fails) = (Ok tt, w') /\
     content (w_fs w') [$"d"; $"l"] = Some [x30; x31; x32] /\
     (forall cm, recorded k_sends $"l" (look (w_fs w') [$"d"; $"l"]) = Ok (Some cm) -> ~ algorithm k_sends cm default_cypher)) /\
  (exists w' m, fetch k_sends (path_of [$"l"]) None (start k_wrong_fs [] k_none_fails) = (Ok tt, w') /\
     recorded k_sends $"l" (look (w_fs w') [$"l"]) = Ok (Some m) /\ m_errors m = [$"checksum-mismatch"]).
Proof.
  split; [name_tac|]. split; [now apply good_fs_b_ok|]. split; [eexists; vm_compute; reflexivity|].
  split; [eexists; split; [vm_compute; reflexivity|split; reflexivity]|]. split.
  - eexists. split; [vm_compute; reflexivity|]. split; [vm_compute; reflexivity|]. intros cm R. vm_compute in R. injection R as <-.
    intros [(_ & H)|H]; discriminate.
  - eexists _, _. split; [vm_compute; reflexivity|]. split; vm_compute; reflexivity.
Qed.

(** ** C30 *)

(** Where there is a file its attributes stay, and what is read from them has the same
    values, at every moment.  Missing from the full statement: where there is only a
    link. *)
Theorem C30_partial :
  forall K D x fs cwd fault d xs m limit r w',
    good_name x -> good_fs fs -> look fs (D ++ [x]) = Some (AFile d xs) -> recorded K x (Some (AFile d xs)) = Ok (Some m) -> m_file_id m <> PNone ->
    honest fault -> prefix_ok (c_prefix K) -> gives_dates K -> fetch K (path_of (D ++ [x])) limit (start fs cwd fault) = (r, w') ->
    forall s, In s (states w') -> only_at (D ++ [x]) fs s /\ exists d' xs' m', look s (D ++ [x]) = Some (AFile d' xs') /\
      (forall k, xget k xs <> None -> xget k xs' <> None) /\ recorded K x (look s (D ++ [x])) = Ok (Some m') /\
      forall f, plain f = true -> getf (c_dateparse K) m' f = getf (c_dateparse K) m f.
Proof. exact fetch_metadata. Qed.
Print Assumptions C30_partial.

(** The link is removed before anything else is made: for a moment there is nothing,
    then an empty file without metadata. *)
Theorem C30_refuted :
  exists K w' s s', fetch K (path_of [$"d"; $"l"]) None (start k_fs [] k_none_fails) = (Ok tt, w') /\
    (exists m, recorded K $"l" (look k_fs [$"d"; $"l"]) = Ok (Some m)) /\
    In s (states w') /\ look s [$"d"; $"l"] = None /\
    In s' (states w') /\ look s' [$"d"; $"l"] = Some (AFile [] []) /\ recorded K $"l" (look s' [$"d"; $"l"]) = Ok None.
Proof.
  exists k_sends. eexists. exists (del k_fs [$"d"; $"l"]), (put (del k_fs [$"d"; $"l"]) [$"d"; $"l"] (File [] [])).
  split; [vm_compute; reflexivity|]. split; [eexists; vm_compute; reflexivity|].
  split; [vm_compute; repeat first [left; reflexivity | right]|]. split; [vm_compute; reflexivity|].
  split; [vm_compute; repeat first [left; reflexivity | right]|]. split; vm_compute; reflexivity.
Qed.
Print Assumptions C30_refuted.

Example C30_case :
  prefix_ok (c_prefix k_breaks) /\ gives_dates k_breaks /\
  exists m, recorded k_breaks $"a" (look k_fs [$"d"; $"a"]) = Ok (Some m) /\ m_file_id m = PInt 7 /\ m_size m = PSize 2 /\
  (let r := fetch k_breaks (path_of [$"d"; $"a"]) None (start k_fs [] k_none_fails) in
   fst r = Err (OSErr EIO) /\ content (w_fs (snd r)) [$"d"; $"a"] = Some [x30; x31; x32] /\
   recorded k_breaks $"a" (look (w_fs (snd r)) [$"d"; $"a"]) = Ok (Some m)).
Proof.
  split; [apply MetaXattrProofs.encodable_scalar; reflexivity|]. split.
  - split; [|discriminate]. intros v w. cbn. destruct v; intro H; try discriminate; injection H as <-; unfold k_day; eauto.
  - eexists. split; [vm_compute; reflexivity|]. vm_compute. repeat split; reflexivity.
Qed.

(** ** C31 *)

(** The file is at the old or the new path at every moment; nothing else changes but
    [.unlink-<name>] beside the target, and that only where it or the target is a link.
    The source must not be that. *)
Theorem C31_partial :
  forall K D x E y fs cwd fault d xs b r w',
    good_name x -> good_name y -> good_fs fs -> look fs (D ++ [x]) = Some (AFile d xs) -> is_dir_at fs E ->
    D ++ [x] <> E ++ [y] -> D ++ [x] <> E ++ [$".unlink-" ++ y] -> honest fault ->
    move K (path_of (D ++ [x])) (path_of (E ++ [y])) b (start fs cwd fault) = (r, w') ->
    forall s, In s (states w') ->
      (look s (D ++ [x]) = Some (AFile d xs) \/ look s (E ++ [y]) = Some (AFile d xs)) /\
      (forall q, q <> D ++ [x] -> q <> E ++ [y] -> q <> E ++ [$".unlink-" ++ y] -> look s q = look fs q) /\
      ((forall t, look fs (E ++ [y]) <> Some (ALink t)) -> (forall t, look fs (E ++ [$".unlink-" ++ y]) <> Some (ALink t)) ->
       look s (E ++ [$".unlink-" ++ y]) = look fs (E ++ [$".unlink-" ++ y])).
Proof. exact move_safe. Qed.
Print Assumptions C31_partial.
(** It is moved where nothing is in the way and nothing fails. *)
Theorem C31_moves :
  forall K D x E y fs cwd d xs b r w',
    good_name x -> good_name y -> good_fs fs -> look fs (D ++ [x]) = Some (AFile d xs) -> is_dir_at fs E ->
    D ++ [x] <> E ++ [y] -> D ++ [x] <> E ++ [$".unlink-" ++ y] -> look fs (E ++ [y]) = None -> ~ is_dir_at fs (E ++ [$".unlink-" ++ y]) ->
    move K (path_of (D ++ [x])) (path_of (E ++ [y])) b (start fs cwd (fun _ => None)) = (r, w') ->
    r = Ok (path_of (E ++ [y])) /\ look (w_fs w') (D ++ [x]) = None /\ look (w_fs w') (E ++ [y]) = Some (AFile d xs).
Proof. exact move_moves. Qed.
Print Assumptions C31_moves.
(** Something with another id is not replaced. *)
Theorem C31_refuses :
  forall K D x E y fs cwd fault d xs b r w' mp mt,
    good_name x -> good_name y -> good_fs fs -> look fs (D ++ [x]) = Some (AFile d xs) -> is_dir_at fs E ->
    D ++ [x] <> E ++ [y] -> honest fault ->
    look fs (E ++ [y]) <> None -> (forall t, look fs (E ++ [y]) = Some (ALink t) -> starts_with_name y t) ->
    recorded K x (Some (AFile d xs)) = Ok mp -> recorded K y (look fs (E ++ [y])) = Ok mt -> py_eq (stored_id mt) (stored_id mp) = false ->
    move K (path_of (D ++ [x])) (path_of (E ++ [y])) b (start fs cwd fault) = (r, w') ->
    (exists e, r = Err e) /\ forall s, In s (states w') -> s = fs.
Proof. exact move_keeps_other. Qed.
Print Assumptions C31_refuses.

(** A file of that name is lost when moved onto a link with its own metadata. *)
Definition k_unlink : node := Dir [] [($".unlink-l", File [x20; x21] (k_attrs k_old)); ($"l", Link (k_link $"l" k_old)); ($"trash", Dir [] [])].
Theorem C31_refuted :
  exists K w' t, good_fs k_unlink /\ content k_unlink [$".unlink-l"] = Some [x20; x21] /\
    move K (path_of [$".unlink-l"]) (path_of [$"l"]) true (start k_unlink [] k_none_fails) = (Ok t, w') /\
    forall q, content (w_fs w') q = None.
Proof.
  exists k_sends. eexists _, _. split; [now apply good_fs_b_ok|]. split; [reflexivity|]. split; [vm_compute; reflexivity|].
  intros q. unfold content. destruct (look _ q) as [[d xs| |]|] eqn:L; try reflexivity. apply look_things in L.
  vm_compute in L. repeat (destruct L as [L|L]; [discriminate|]). contradiction.
Qed.
Print Assumptions C31_refuted.
(** An interrupted rename is not reported: it returns as if the file had been moved. *)
Theorem C31_returns_refuted :
  exists K fault w', honest fault /\
    move K (path_of [$"d"; $"a"]) (path_of [$"trash"; $"q"]) true (start k_fs [] fault) = (Ok (path_of [$"trash"; $"q"]), w') /\ w_fs w' = k_fs.
Proof.
  exists k_sends, (k_fails KeyboardInterrupt 4). eexists. split; [honest_tac|]. split; vm_compute; reflexivity.
Qed.
Print Assumptions C31_returns_refuted.

Definition k_move : node :=
  Dir [] [($"d", Dir [] [($"a", File [x20; x21] (k_attrs k_old))]);
          ($"e", Dir [] [($"l", Link (k_link $"l" k_old)); ($"o", Link (k_link $"o" (k_meta $"N:2" 1 1 PNone PNone)))])].
Example C31_case :
  good_fs k_move /\ look k_move [$"d"; $"a"] = Some (AFile [x20; x21] (k_attrs k_old)) /\
  (exists m, recorded k_sends $"a" (look k_move [$"d"; $"a"]) = Ok (Some m) /\ stored_id (Some m) = PStr $"N:1") /\
  (exists m, recorded k_sends $"o" (look k_move [$"e"; $"o"]) = Ok (Some m) /\ stored_id (Some m) = PStr $"N:2") /\
  (let r := move k_sends (path_of [$"d"; $"a"]) (path_of [$"e"; $"l"]) true (start k_move [] k_none_fails) in
   fst r = Ok (pp_parse $"/e/l") /\ look (w_fs (snd r)) [$"e"; $"l"] = look k_move [$"d"; $"a"] /\ look (w_fs (snd r)) [$"e"; $".unlink-l"] = None /\
   length (states (snd r)) = 5%nat) /\
  (let r := move k_sends (path_of [$"d"; $"a"]) (path_of [$"e"; $"o"]) true (start k_move [] k_none_fails) in
   fst r = Err WhyDidntThisGetMovedErr /\ w_fs (snd r) = k_move) /\
  (let r := move k_sends (path_of [$"d"; $"a"]) (path_of [$"e"; $"n"]) true (start k_move [] k_none_fails) in
   fst r = Ok (pp_parse $"/e/n") /\ look (w_fs (snd r)) [$"e"; $"n"] = look k_move [$"d"; $"a"]).
Proof.
  split; [now apply good_fs_b_ok|]. split; [vm_compute; reflexivity|].
  split; [eexists; split; vm_compute; reflexivity|]. split; [eexists; split; vm_compute; reflexivity|]. vm_compute. repeat split; reflexivity.
Qed.

(** ** C46 *)

(** A link with metadata of another id is replaced only by newer metadata, and it is
    in the trash from then on.  Missing from the full statement: no call says that
    something exists which does not. *)
Theorem C46_partial :
  forall K D x TR fs cwd fault t old m r w',
    good_name x -> good_fs fs -> look fs (D ++ [x]) = Some (ALink t) -> starts_with_name x t -> trash_at K fs TR (D ++ [x]) ->
    from_symlink x t false false = Ok old -> honest fault -> (forall k, fault k <> Some (OSErr EEXIST)) ->
    cache_set K (path_of (D ++ [x])) (Some m) (start fs cwd fault) = (r, w') ->
    forall s, In s (states w') -> s = fs \/
      ((py_eq (m_id old) (m_id m) = true \/ newer K old m) /\
       (look s (D ++ [x]) = None \/ exists q, as_symlink (c_dateparse K) m (Some x) = Ok q /\ look s (D ++ [x]) = Some (ALink (pp_str q))) /\
       exists y, trash_name K x (Some (ALink t)) y /\ look s (TR ++ [y]) = Some (ALink t) /\
         forall q, q <> D ++ [x] -> q <> TR ++ [y] -> look s q = look fs q).
Proof. exact set_newer. Qed.
Print Assumptions C46_partial.
(** Newer metadata is taken, unless it would lose the size. *)
Theorem C46_takes :
  forall K D x TR fs cwd fault t old m w',
    good_name x -> good_fs fs -> look fs (D ++ [x]) = Some (ALink t) -> starts_with_name x t -> trash_at K fs TR (D ++ [x]) ->
    from_symlink x t false false = Ok old -> honest fault -> (forall k, fault k <> Some (OSErr EEXIST)) ->
    meta_bool m = true -> meta_eq old m = Ok false -> newer K old m -> (m_size old = PNone \/ m_size m <> PNone) ->
    cache_set K (path_of (D ++ [x])) (Some m) (start fs cwd fault) = (Ok tt, w') ->
    exists q, as_symlink (c_dateparse K) m (Some x) = Ok q /\ look (w_fs w') (D ++ [x]) = Some (ALink (pp_str q)).
Proof. exact set_is_newer. Qed.
Print Assumptions C46_takes.

(** A FileExistsError on the way to the trash makes the setter remove the link. *)
Theorem C46_refuted :
  exists K fault m w', honest fault /\ cache_set K (path_of [$"d"; $"l"]) (Some m) (start k_fs [] fault) = (Ok tt, w') /\
    look (w_fs w') [$"d"; $"l"] <> look k_fs [$"d"; $"l"] /\ forall q, look (w_fs w') q <> look k_fs [$"d"; $"l"].
Proof.
  exists k_sends, (k_fails (OSErr EEXIST) 16), (k_meta $"N:2" 3 3 PNone PNone). eexists. split; [honest_tac|]. split; [vm_compute; reflexivity|].
  split; [vm_compute; discriminate|]. intros q H. change (look k_fs [$"d"; $"l"]) with (Some (ALink (k_link $"l" k_new))) in H.
  apply look_things in H. vm_compute in H. repeat (destruct H as [H|H]; [discriminate|]). contradiction.
Qed.
Print Assumptions C46_refuted.

Example C46_case :
  good_name $"l" /\ starts_with_name $"l" (k_link $"l" k_new) /\ trash_at k_sends k_fs [$"trash"] ([$"d"] ++ [$"l"]) /\
  exists old, from_symlink $"l" (k_link $"l" k_new) false false = Ok old /\
    let newer_m := k_meta $"N:2" 3 3 PNone PNone in let older_m := k_meta $"N:2" 1 3 PNone PNone in
    newer k_sends old newer_m /\ ~ newer k_sends old older_m /\ meta_eq old newer_m = Ok false /\
    (let r := cache_set k_sends (path_of [$"d"; $"l"]) (Some newer_m) (start k_fs [] k_none_fails) in
     fst r = Ok tt /\ look (w_fs (snd r)) [$"d"; $"l"] = Some (ALink (k_link $"l" newer_m)) /\
     look (w_fs (snd r)) [$"trash"; $"N-1"] = look k_fs [$"d"; $"l"]) /\
    (let r := cache_set k_sends (path_of [$"d"; $"l"]) (Some older_m) (start k_fs [] k_none_fails) in fst r = Ok tt /\ w_fs (snd r) = k_fs).
Proof.
  split; [name_tac|]. split; [eexists; vm_compute; reflexivity|]. split; [trash_tac|]. eexists. split; [vm_compute; reflexivity|]. cbn zeta. split.
  - eexists _, _. split; [vm_compute; reflexivity|]. split; [vm_compute; reflexivity|]. left. vm_compute. reflexivity.
  - split.
    + intros (u & v & Eu & Ev & H). vm_compute in Eu, Ev. injection Eu as <-. injection Ev as <-. destruct H as [H|(_ & H & _)]; vm_compute in H; discriminate.
    + split; [vm_compute; reflexivity|]. split; vm_compute; repeat split; reflexivity.
Qed.
