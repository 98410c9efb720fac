(** * C97: limits of sizes when fetching *)
From Coq Require Import String Strings.Byte NArith ZArith Bool List.
From Verif Require Import Model.Py Model.PurePath Model.Meta Model.Fs Model.PathOps Model.Copy Model.Sparse Model.Cache
  Spec.FsSpec Spec.LoopSpec Spec.CopySpec Spec.CacheSpec Spec.ReadlinkSpec Spec.FetchSpec Proofs.GoodFs Proofs.FetchLive Props.CacheProps Props.UpdateProps.
Import ListNotations.

(** Below the limit, a fetch is one without limit, whatever fails. *)
Theorem C97_below_partial :
  forall K p w m limit, fst (cache_meta K p w) = Ok (Some m) -> within m limit ->
    fetch K p (Some limit) w = fetch K p None w.
Proof. exact fetch_within. Qed.
Print Assumptions C97_below_partial.

(** At the limit and above it, or where no size is told, nothing is changed at any moment,
    and nothing is raised.  Missing: where there is no file id ([C97_no_id_refuted]). *)
Theorem C97_beyond_partial :
  forall K p w m limit, fst (cache_meta K p w) = Ok (Some m) -> m_file_id m <> PNone -> beyond m limit ->
    let out := fetch K p (Some limit) w in
    w_fs (snd out) = w_fs w /\ w_cwd (snd out) = w_cwd w /\ w_hist (snd out) = w_hist w /\
    (no_fault w -> (forall q, opens (w_fs w) (w_cwd w) p q -> ~ is_dir_at (w_fs w) q) -> fst out = Ok tt).
Proof. exact fetch_beyond. Qed.
Print Assumptions C97_beyond_partial.

Definition l_meta (size : Z) (id : pyval) : pathmeta :=
  match meta_init (set_arg Fid (PStr $"N:1") (set_arg Ffile_id id (set_arg Fsize (PInt size) no_args))) with Ok m => m | Err _ => k_none end.
Definition l_fs (id : pyval) : node :=
  Dir [] [($"a", File [x20] (k_attrs (l_meta 1048575 id))); ($"b", File [x20] (k_attrs (l_meta 1048576 id)));
          ($"c", Link (k_link $"c" (l_meta 9000000000000000000 id))); ($"d", File [x20] (k_attrs k_new))].
Definition l_w (id : pyval) : world := start (l_fs id) [] k_none_fails.
(** What [remote.refresh] does when it is asked for the data *)
Definition l_conf : conf :=
  mkConf k_date (fun _ => Err ValueError) (Some $"ssh") (pp_parse $"/trash") (pp_parse $"/objects") $"sha256" (fun _ => true) k_digest (c_remote k_sends)
    (fun p => write_chunks p (remote_feed [[x30]] None)).

(** Where there is no file id no limit counts: a file of a megabyte is fetched although
    the limit is none at all. *)
Theorem C97_no_id_refuted :
  (forall K p w m l l', fst (cache_meta K p w) = Ok (Some m) -> m_file_id m = PNone -> fetch K p l w = fetch K p l' w) /\
  (exists m, fst (cache_meta l_conf (pp_parse $"/b") (l_w PNone)) = Ok (Some m) /\ m_size m = PSize 1048576 /\ m_file_id m = PNone) /\
  content (w_fs (snd (fetch l_conf (pp_parse $"/b") (Some 0%N) (l_w PNone)))) [$"b"] = Some [x30].
Proof.
  split; [exact fetch_no_id|]. split; [eexists; split; [vm_compute; reflexivity|split; reflexivity]|]. vm_compute. reflexivity.
Qed.
Print Assumptions C97_no_id_refuted.

(** One byte less than the limit is fetched, the limit is not; nor is a link that tells of
    much. *)
Example C97_case :
  (exists m, fst (cache_meta l_conf (pp_parse $"/a") (l_w (PInt 7))) = Ok (Some m) /\ m_file_id m = PInt 7 /\ within m 1 /\ ~ within m 0) /\
  (exists m, fst (cache_meta l_conf (pp_parse $"/b") (l_w (PInt 7))) = Ok (Some m) /\ m_file_id m = PInt 7 /\ beyond m 1 /\ within m 2) /\
  (exists m, fst (cache_meta l_conf (pp_parse $"/c") (l_w (PInt 7))) = Ok (Some m) /\ m_file_id m = PInt 7 /\ beyond m 8589934592%N) /\
  no_fault (l_w (PInt 7)) /\ (forall q, opens (l_fs (PInt 7)) [] (pp_parse $"/b") q -> ~ is_dir_at (l_fs (PInt 7)) q) /\
  content (w_fs (snd (fetch l_conf (pp_parse $"/a") (Some 1%N) (l_w (PInt 7))))) [$"a"] = Some [x30; x31; x32] /\
  content (w_fs (snd (fetch l_conf (pp_parse $"/b") (Some 1%N) (l_w (PInt 7))))) [$"b"] = Some [x20] /\
  fst (fetch l_conf (pp_parse $"/d") (Some 1%N) (l_w (PInt 7))) = Ok tt /\
  content (w_fs (snd (fetch l_conf (pp_parse $"/d") (Some 1%N) (l_w (PInt 7))))) [$"d"] = Some [x30; x31; x32].
Proof.
  split. { eexists. split; [vm_compute; reflexivity|]. split; [reflexivity|]. split; [eexists; split; [reflexivity|split; reflexivity]|].
    intros (n & E & _ & L). cbn in E. injection E as <-. discriminate L. }
  split. { eexists. split; [vm_compute; reflexivity|]. split; [reflexivity|]. split; [|eexists; split; [reflexivity|split; reflexivity]].
    right. eexists. split; [reflexivity|]. split; vm_compute; discriminate. }
  split. { eexists. split; [vm_compute; reflexivity|]. split; [reflexivity|]. right. eexists. split; [reflexivity|]. split; vm_compute; discriminate. }
  split; [intro t; reflexivity|]. split.
  { intros q [n W] [xs D]. vm_compute in W. injection W as <- <-. vm_compute in D. discriminate D. }
  repeat (split; [vm_compute; reflexivity|]). vm_compute. reflexivity.
Qed.
