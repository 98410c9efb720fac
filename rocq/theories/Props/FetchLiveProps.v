(** * C72: what broke off can be completed *)
From Coq Require Import String Strings.Byte NArith ZArith Bool List.
From Verif Require Import Model.Py Model.PurePath Model.Meta Model.MetaUpdate Model.Fs Model.PathOps Model.Cache
  Spec.FsSpec Spec.LoopSpec Spec.CopySpec Spec.XattrSpec Spec.CacheSpec Spec.FetchSpec Proofs.GoodFs Proofs.CacheLemmas Proofs.AttrLemmas Proofs.MetaXattrProofs Proofs.FetchLive Props.CacheProps Props.UpdateProps.
Import ListNotations.

(** A file that has metadata with a file id is fetched where nothing fails and the other
    end sends what the metadata tell of: the content is that, the attributes stay, nothing
    else changes. *)
Theorem C72_file :
  forall K D x fs cwd fault d xs m limit,
    good_fs fs -> (forall t, fault t = None) -> look fs (D ++ [x]) = Some (AFile d xs) -> recorded K x (Some (AFile d xs)) = Ok (Some m) -> m_file_id m <> PNone ->
    sends_all K -> fits K m (concat (r_chunks (c_remote K))) -> (forall l, limit = Some l -> within m l) ->
    exists w', fetch K (path_of (D ++ [x])) limit (start fs cwd fault) = (Ok tt, w') /\
      look (w_fs w') (D ++ [x]) = Some (AFile (concat (r_chunks (c_remote K))) xs) /\ forall q, q <> D ++ [x] -> look (w_fs w') q = look fs q.
Proof. exact fetch_completes. Qed.
Print Assumptions C72_file.

(** So is a link whose metadata can be kept in attributes. *)
Theorem C72_link :
  forall K D x fs cwd fault t m xs limit,
    good_name x -> good_fs fs -> (forall n, fault n = None) -> look fs (D ++ [x]) = Some (ALink t) -> starts_with_name x t -> recorded K x (Some (ALink t)) = Ok (Some m) -> m_file_id m <> PNone ->
    storable K x m xs -> sends_all K -> fits K m (concat (r_chunks (c_remote K))) -> (forall l, limit = Some l -> within m l) ->
    exists w', fetch K (path_of (D ++ [x])) limit (start fs cwd fault) = (Ok tt, w') /\
      look (w_fs w') (D ++ [x]) = Some (AFile (concat (r_chunks (c_remote K))) xs) /\ forall q, q <> D ++ [x] -> look (w_fs w') q = look fs q.
Proof. exact fetch_link_completes. Qed.
Print Assumptions C72_link.

(** However a fetch of a file broke off, at whatever moment and whatever the other end
    sent, the next one completes it.  Partial: not for a link, not for an update (below). *)
Theorem C72_resumes_partial :
  forall K bad D x fs cwd fault d xs m limit r w' s cwd2 fault2,
    good_name x -> good_fs fs -> look fs (D ++ [x]) = Some (AFile d xs) -> recorded K x (Some (AFile d xs)) = Ok (Some m) -> m_file_id m <> PNone ->
    prefix_ok (c_prefix K) -> gives_dates K -> honest fault ->
    fetch (other_end K bad) (path_of (D ++ [x])) limit (start fs cwd fault) = (r, w') -> In s (states w') ->
    sends_all K -> fits K m (concat (r_chunks (c_remote K))) -> (forall t, fault2 t = None) ->
    exists w2, fetch K (path_of (D ++ [x])) None (start s cwd2 fault2) = (Ok tt, w2) /\
      content (w_fs w2) (D ++ [x]) = Some (concat (r_chunks (c_remote K))) /\ forall q, q <> D ++ [x] -> look (w_fs w2) q = look fs q.
Proof. exact fetch_resumes. Qed.
Print Assumptions C72_resumes_partial.

Definition f_fs : node := Dir [] [($"d", Dir [] [($"a", File [x20; x21] (k_attrs k_new)); ($"l", Link (k_link $"l" k_new))])].
Definition f_bad : remote := mkRemote false true [[x39]; [x38]; [x37]] (Some (OSErr EIO)).
Lemma f_gives : gives_dates v_sends.
Proof. split; [|discriminate]. intros v w H. cbn in H. destruct v; try discriminate; injection H as <-; eexists; reflexivity. Qed.
Lemma f_fits m : m_size m = PSize 3 -> m_checksum_cypher m = PNone -> m_checksum m = PBytes [x01; x32; x31; x30] -> fits v_sends m (concat (r_chunks (c_remote v_sends))).
Proof.
  intros E1 E2 E3. split; [rewrite E1; reflexivity|]. exists $"sha256". split; [left; now split|]. split; [reflexivity|]. split; [discriminate|]. right. rewrite E3. reflexivity.
Qed.
Lemma f_part (A : Type) n k (l : list A) a : In a (firstn n (skipn k l)) -> In a l.
Proof. intro Q. apply firstn_In in Q. rewrite <- (firstn_skipn k l). apply in_or_app. right. exact Q. Qed.
(** A file is fetched; from an other end that breaks off and sends something else; at any
    moment of which the data can be fetched; and a link is fetched. *)
Example C72_case :
  good_name $"a" /\ good_name $"l" /\ good_fs f_fs /\ prefix_ok (c_prefix v_sends) /\ gives_dates v_sends /\ sends_all v_sends /\
  (exists m, recorded v_sends $"a" (look f_fs [$"d"; $"a"]) = Ok (Some m) /\ m_file_id m = PInt 7 /\ fits v_sends m (concat (r_chunks (c_remote v_sends))) /\ within m 1) /\
  (exists m t xs, look f_fs [$"d"; $"l"] = Some (ALink t) /\ starts_with_name $"l" t /\ recorded v_sends $"l" (Some (ALink t)) = Ok (Some m) /\ m_file_id m = PInt 7 /\
     storable v_sends $"l" m xs /\ fits v_sends m (concat (r_chunks (c_remote v_sends)))) /\
  (let r := fetch (other_end v_sends f_bad) (path_of [$"d"; $"a"]) None (start f_fs [] k_none_fails) in
   fst r = Err (OSErr EIO) /\ map (fun s => content s [$"d"; $"a"]) (states (snd r)) =
     [Some [x39; x38; x37]; Some [x39; x38; x37]; Some [x39; x38]; Some [x39]; Some []; Some [x20; x21]] /\
   map (fun s => content (w_fs (snd (fetch v_sends (path_of [$"d"; $"a"]) None (start s [] k_none_fails)))) [$"d"; $"a"]) (states (snd r)) = repeat (Some [x30; x31; x32]) 6).
Proof.
  split; [name_tac|]. split; [name_tac|]. split; [now apply good_fs_b_ok|]. split; [apply MetaXattrProofs.encodable_scalar; reflexivity|]. split; [exact f_gives|]. split; [split; [reflexivity|discriminate]|].
  split. { eexists. split; [vm_compute; reflexivity|]. split; [reflexivity|]. split; [now apply f_fits|]. eexists. split; [reflexivity|]. split; reflexivity. }
  split. { eexists _, _, _. split; [reflexivity|]. split; [vm_compute; eexists; reflexivity|]. split; [vm_compute; reflexivity|]. split; [reflexivity|]. split; [|now apply f_fits].
    eexists _, _. split; [vm_compute; reflexivity|]. split; [reflexivity|]. split; [vm_compute; reflexivity|]. reflexivity. }
  vm_compute. repeat split; reflexivity.
Qed.

(** A fetch of a link that broke off after the link was removed cannot be completed: what
    was known of the file is lost. *)
Theorem C72_link_refuted :
  exists K fs t m w' s, look fs [$"d"; $"l"] = Some (ALink t) /\ recorded K $"l" (Some (ALink t)) = Ok (Some m) /\ m_file_id m = PInt 7 /\ good_fs fs /\ sends_all K /\ fits K m (concat (r_chunks (c_remote K))) /\
    fetch K (path_of [$"d"; $"l"]) None (start fs [] k_none_fails) = (Ok tt, w') /\ In s (states w') /\
    recorded K $"l" (look s [$"d"; $"l"]) = Ok None /\
    exists w2, fetch K (path_of [$"d"; $"l"]) None (start s [] k_none_fails) = (Err NoCachedMetadataError, w2) /\ forall q, look (w_fs w2) q = look s q.
Proof.
  exists v_sends, f_fs. eexists _, _, _, _. split; [reflexivity|]. split; [vm_compute; reflexivity|]. split; [reflexivity|]. split; [now apply good_fs_b_ok|]. split; [split; [reflexivity|discriminate]|].
  split; [now apply f_fits|]. split; [vm_compute; reflexivity|]. split; [do 10 right; left; reflexivity|]. split; [vm_compute; reflexivity|]. eexists. split; [vm_compute; reflexivity|]. reflexivity.
Qed.
Print Assumptions C72_link_refuted.

(** An update that broke off after the old file was moved to the trash is not made good:
    with the same metadata the next one says that there is no change, and leaves no file,
    or an empty one, or one that is cut. *)
Theorem C72_update_refuted :
  exists K fs new w' l, good_fs fs /\ content fs [$"d"; $"a"] = Some [x20; x21] /\ sends_all K /\ fits K new (concat (r_chunks (c_remote K))) /\
    meta_updater K (path_of [$"d"; $"a"]) (Some new) true (start fs [] k_none_fails) = (Ok true, w') /\ content (w_fs w') [$"d"; $"a"] = Some [x30; x31; x32] /\
    (forall s, In s l -> In s (states w')) /\ l <> [] /\
    map (fun s => let r := meta_updater K (path_of [$"d"; $"a"]) (Some new) true (start s [] k_none_fails) in (fst r, content (w_fs (snd r)) [$"d"; $"a"])) l =
      [(Ok false, Some [x30]); (Ok false, Some []); (Ok false, Some []); (Ok false, Some []); (Ok false, Some []); (Ok false, Some []); (Ok false, Some []); (Ok false, Some []);
       (Ok false, None); (Ok false, None); (Ok false, None)].
Proof.
  exists v_sends, k_fs, k_new. eexists _, (firstn 11 (skipn 2 (states (snd (meta_updater v_sends (path_of [$"d"; $"a"]) (Some k_new) true (start k_fs [] k_none_fails)))))).
  split; [now apply good_fs_b_ok|]. split; [reflexivity|]. split; [split; [reflexivity|discriminate]|]. split; [now apply f_fits|].
  split; [vm_compute; reflexivity|]. split; [vm_compute; reflexivity|]. split.
  { intros s Is. apply f_part in Is. exact Is. }
  split; [vm_compute; discriminate|]. vm_compute. reflexivity.
Qed.
Print Assumptions C72_update_refuted.

(** An empty file cannot be fetched: the other end has nothing to send, and its size is
    right. *)
Theorem C72_empty_refuted :
  exists K fs m w', recorded K $"a" (look fs [$"a"]) = Ok (Some m) /\ m_file_id m = PInt 7 /\ good_fs fs /\ r_break (c_remote K) = None /\ fits K m (concat (r_chunks (c_remote K))) /\
    fetch K (path_of [$"a"]) None (start fs [] k_none_fails) = (Err StopIteration, w') /\ content (w_fs w') [$"a"] = Some [x20].
Proof.
  exists (other_end v_sends (mkRemote false true [] None)), (Dir [] [($"a", File [x20] (k_attrs (k_meta $"N:1" 2 0 (PBytes [x01]) PNone)))]). eexists _, _.
  split; [vm_compute; reflexivity|]. split; [reflexivity|]. split; [now apply good_fs_b_ok|]. split; [reflexivity|]. split.
  { split; [reflexivity|]. exists $"sha256". split; [left; now split|]. split; [reflexivity|]. split; [discriminate|]. right. reflexivity. }
  split; vm_compute; reflexivity.
Qed.
Print Assumptions C72_empty_refuted.
