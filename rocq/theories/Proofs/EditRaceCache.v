(** * An undisturbed update does what Model.Cache does *)
From Coq Require Import String Strings.Byte NArith ZArith Bool List Lia.
From Verif Require Import Model.Py Model.PurePath Model.Meta Model.MetaUpdate Model.Access Model.Fs Model.PathOps Model.Cache Model.FetchRace Model.EditRace
  Spec.FsSpec Spec.LoopSpec Spec.CopySpec Spec.CacheSpec Spec.EditRaceSpec Proofs.CacheLemmas Proofs.CacheFinal Proofs.UpdateLive Proofs.EditRaceAlone.
Import ListNotations.

Lemma agrees_update K D x TR fs cwd fault d xs pm w' :
    good_name x -> good_fs fs -> look fs (D ++ [x]) = Some (AFile d xs) -> trash_at K fs TR (D ++ [x]) -> usable_id K x (Some (AFile d xs)) ->
    confined (D ++ [x]) (c_refresh K (path_of (D ++ [x]))) ->
    (forall w a v, c_refresh K (path_of (D ++ [x])) w = (Ok a, v) -> content (w_fs v) (D ++ [x]) = Some (concat (r_chunks (c_remote K)))) ->
    honest fault -> r_chunks (c_remote K) <> [] -> r_break (c_remote K) = None ->
    meta_updater K (path_of (D ++ [x])) pm true (start fs cwd fault) = (Ok true, w') ->
    let got := r_chunks (c_remote K) in
    let s := urun d (concat got) got (r_break (c_remote K)) (u_start d) (repeat (Turn None) (20 + length got)) in
    u_pc s = UDone (Ok tt) /\ content (w_fs w') (D ++ [x]) = u_content s /\
    (u_content s = u_trashed s \/ exists y, look (w_fs w') (TR ++ [y]) = Some (AFile d xs) /\ u_trashed s = Some d).
Proof.
  intros Gx G L T I C Rf Ho N B H got s.
  destruct (undisturbed d (concat got) got (r_break (c_remote K)) eq_refl N B) as (S1 & S2 & S3). fold s in S1, S2, S3.
  destruct (update_returns _ _ _ _ _ _ _ _ _ _ _ _ Gx G L T I C Rf Ho H) as (_ & E). cbn [andb] in E. fold got in E.
  split; [exact S1|]. split; [now rewrite E, S2|].
  assert (In (w_fs w') (states w')) as W by now left.
  destruct (update_safe _ _ _ _ _ _ _ _ _ _ _ _ _ Gx G L T I C Ho H _ W) as [Q|(y & Q)].
  - left. rewrite S2, S3. rewrite E in Q. congruence.
  - right. now exists y.
Qed.
