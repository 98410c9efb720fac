(** * C65: what an update returns is true of the file *)
From Coq Require Import String Strings.Byte NArith ZArith Bool List.
From Verif Require Import Model.Py Model.PurePath Model.Meta Model.MetaUpdate Model.Fs Model.PathOps Model.Cache
  Spec.FsSpec Spec.LoopSpec Spec.CopySpec Spec.CacheSpec Proofs.GoodFs Proofs.CacheLemmas Proofs.CacheFinal Proofs.UpdateLive Proofs.MergeTwice Spec.MetaSpec Spec.MergeSpec Props.CacheProps.
Import ListNotations.

(** An update with fetching that returns: it returns whether the metadata tells of a
    change; where it does the file has the content of the other end, where it does not its
    own. *)
Theorem C65_returns :
  forall K D x TR fs cwd fault d xs pm b w',
    good_name x -> good_fs fs -> look fs (D ++ [x]) = Some (AFile d xs) -> trash_at K fs TR (D ++ [x]) -> usable_id K x (Some (AFile d xs)) ->
    confined (D ++ [x]) (c_refresh K (path_of (D ++ [x]))) ->
    (forall w a v, c_refresh K (path_of (D ++ [x])) w = (Ok a, v) -> content (w_fs v) (D ++ [x]) = Some (concat (r_chunks (c_remote K)))) ->
    honest fault ->
    meta_updater K (path_of (D ++ [x])) pm true (start fs cwd fault) = (Ok b, w') ->
    (exists om u, recorded K x (Some (AFile d xs)) = Ok om /\ update_meta (c_dateparse K) om pm = Ok (b, u)) /\
    content (w_fs w') (D ++ [x]) = Some (if b then concat (r_chunks (c_remote K)) else d).
Proof. exact update_returns. Qed.
Print Assumptions C65_returns.

(** Updating with the same metadata once more tells of no change, and the metadata stays. *)
Theorem C65_again :
  forall dp o n old new d m,
    describes dp o old -> describes dp n new -> kinds old -> kinds new -> meta_bool n = true ->
    update_meta dp (Some o) (Some n) = Ok (d, Some m) ->
    exists m2, update_meta dp (Some m) (Some n) = Ok (false, Some m2) /\
      (meta_bool m = true -> forall f, getf dp m2 f = getf dp m f).
Proof. exact merge_twice. Qed.
Print Assumptions C65_again.

Definition v_sends : conf :=
  mkConf k_date (fun _ => Err ValueError) (Some $"ssh") (pp_parse $"/trash") (pp_parse $"/objects") $"sha256" (fun _ => true) k_digest (c_remote k_sends) (fun _ => raise NotImplementedExn).
(** The file is replaced, and with the metadata it has then nothing is to be done. *)
Example C65_case :
  good_name $"a" /\ good_fs k_fs /\ look k_fs ([$"d"] ++ [$"a"]) = Some (AFile [x20; x21] (k_attrs k_old)) /\
  trash_at v_sends k_fs [$"trash"] ([$"d"] ++ [$"a"]) /\ usable_id v_sends $"a" (Some (AFile [x20; x21] (k_attrs k_old))) /\
  confined ([$"d"] ++ [$"a"]) (c_refresh v_sends (path_of ([$"d"] ++ [$"a"]))) /\
  (forall w a v, c_refresh v_sends (path_of ([$"d"] ++ [$"a"])) w = (Ok a, v) -> content (w_fs v) ([$"d"] ++ [$"a"]) = Some (concat (r_chunks (c_remote v_sends)))) /\ honest k_none_fails /\
  (let r := meta_updater v_sends (path_of [$"d"; $"a"]) (Some k_new) true (start k_fs [] k_none_fails) in
   fst r = Ok true /\ content (w_fs (snd r)) [$"d"; $"a"] = Some [x30; x31; x32] /\
   let r2 := meta_updater v_sends (path_of [$"d"; $"a"]) (Some k_new) true (start (w_fs (snd r)) [] k_none_fails) in
   fst r2 = Ok false /\ w_fs (snd r2) = w_fs (snd r)) /\
  (exists m, describes k_date k_old (fun f => match getf k_date k_old f with Ok v => v | Err _ => PNone end) /\ meta_bool k_new = true /\
     update_meta k_date (Some k_old) (Some k_new) = Ok (true, Some m) /\ meta_bool m = true).
Proof.
  split; [name_tac|]. split; [now apply good_fs_b_ok|]. split; [vm_compute; reflexivity|]. split; [trash_tac|]. split.
  { intros m i R E. vm_compute in R. injection R as <-. injection E as <-. cbn. name_tac. }
  split; [apply confined_raise|]. split; [intros w a v H; discriminate H|]. split; [intros t e H; discriminate|]. split; [vm_compute; repeat split; reflexivity|].
  eexists. split; [intros []; vm_compute; reflexivity|]. split; [reflexivity|]. split; vm_compute; reflexivity.
Qed.
