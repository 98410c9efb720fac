(** C106: a file that is edited while it is updated. *)
From Coq Require Import String Strings.Byte NArith ZArith Bool List Lia.
From Verif Require Import Model.Py Model.PurePath Model.Meta Model.MetaUpdate Model.Access Model.Fs Model.PathOps Model.Cache Model.FetchRace Model.EditRace
  Spec.FsSpec Spec.LoopSpec Spec.CopySpec Spec.CacheSpec Spec.EditRaceSpec Proofs.GoodFs Proofs.CacheLemmas Proofs.CacheFinal
  Proofs.EditRaceProofs Proofs.EditRaceAlone Proofs.EditRaceCompared Proofs.EditRaceCache Props.CacheProps Props.UpdateProps.
Import ListNotations.

(** When nobody saves while the file is in the trash: at every moment, whatever raises, what was saved last is at the path or in the trash.
    Missing from the full statement: who saves in between. *)
Theorem C106_kept_partial :
  forall O D got brk l c, outside O D got brk l -> saved_last O D got brk l c ->
    let s := urun O D got brk (u_start O) l in
    u_content s = Some c \/ u_trashed s = Some c.
Proof. exact kept. Qed.
Print Assumptions C106_kept_partial.

(** And when the update raised, and the file could be put back, it is at the path. *)
Theorem C106_back_partial :
  forall O D got brk l c, outside O D got brk l -> restores O D got brk l -> saved_last O D got brk l c ->
    let s := urun O D got brk (u_start O) l in
    u_raised s -> u_content s = Some c.
Proof. exact back. Qed.
Print Assumptions C106_back_partial.

(** What is at the path when it is moved, saved before or after it was compared, stays in the trash or is put back, whoever saves
    when and whatever raises. *)
Theorem C106_moved :
  forall O D got brk l1 l2 c,
    let s := urun O D got brk (u_start O) l1 in
    u_pc s = UMove -> u_content s = Some c ->
    let after l := urun O D got brk (u_start O) (l1 ++ Turn None :: l) in
    u_trashed (after l2) = Some c \/
    exists a b, l2 = a ++ Turn None :: b /\ u_content (after (a ++ [Turn None])) = Some c /\ u_raised (after (a ++ [Turn None])).
Proof. exact moved. Qed.
Print Assumptions C106_moved.

(** It is moved only after a step in which what was there was the recorded content, or that of the remote. *)
Theorem C106_compared :
  forall O D got brk l,
    let at_ a := urun O D got brk (u_start O) a in
    u_pc (at_ l) = UMove \/ in_window (at_ l) ->
    exists a b, l = a ++ Turn None :: b /\
      (u_pc (at_ a) = UDiff /\ u_content (at_ a) = Some O \/ u_pc (at_ a) = URe /\ u_content (at_ a) = Some D).
Proof. exact compared. Qed.
Print Assumptions C106_compared.

(** With other content, the update raises and the file stays: LocalChangesError, unless a new file without metadata was put in its place. *)
Theorem C106_changes :
  forall O D got brk l c,
    let at_ a := urun O D got brk (u_start O) a in
    u_pc (at_ l) = UDiff -> u_content (at_ l) = Some c -> c <> O -> c <> D ->
    let s := at_ (l ++ [Turn None; Turn None]) in
    u_content s = Some c /\ u_trashed s = None /\
    exists e, u_pc s = UDone (Err e) /\ ((forall x, ~ In (Save x) l) -> e = LocalChangesError).
Proof. exact changes. Qed.
Print Assumptions C106_changes.

(** Where nobody saves and nothing fails the update returns, with the new content at the path and the old in the trash. *)
Theorem C106_alone :
  forall O D got brk, concat got = D -> got <> [] -> brk = None ->
    let s := urun O D got brk (u_start O) (repeat (Turn None) (20 + length got)) in
    u_pc s = UDone (Ok tt) /\ u_content s = Some D /\ u_trashed s = Some O.
Proof. exact undisturbed. Qed.
Print Assumptions C106_alone.

(** Where [meta_updater], the model of the whole of it (C26, C65), returns that the file is different, the content at the path is that of these steps,
    and what these steps leave in the trash is in the trash. *)
Theorem C106_update :
  forall K D x TR fs cwd fault d xs pm w',
    good_name x -> good_fs fs -> look fs (D ++ [x]) = Some (AFile d xs) -> trash_at K fs TR (D ++ [x]) -> usable_id K x (Some (AFile d xs)) ->
    confined (D ++ [x]) (c_refresh K (path_of (D ++ [x]))) ->
    (forall w a v, c_refresh K (path_of (D ++ [x])) w = (Ok a, v) -> content (w_fs v) (D ++ [x]) = Some (concat (r_chunks (c_remote K)))) ->
    honest fault -> r_chunks (c_remote K) <> [] -> r_break (c_remote K) = None ->
    meta_updater K (path_of (D ++ [x])) pm true (start fs cwd fault) = (Ok true, w') ->
    let got := r_chunks (c_remote K) in
    let s := urun d (concat got) got (r_break (c_remote K)) (u_start d) (repeat (Turn None) (20 + length got)) in
    u_pc s = UDone (Ok tt) /\ content (w_fs w') (D ++ [x]) = u_content s /\
    (u_content s = u_trashed s \/ exists y, look (w_fs w') (TR ++ [y]) = Some (AFile d xs) /\ u_trashed s = Some d).
Proof. exact agrees_update. Qed.
Print Assumptions C106_update.

(** A file saved after the old one was moved is overwritten by the fetch, and the update returns as if nothing had been. *)
Theorem C106_overwritten_refuted :
  exists O D got brk l c, concat got = D /\ brk = None /\ saved_last O D got brk l c /\
    let s := urun O D got brk (u_start O) l in
    u_pc s = UDone (Ok tt) /\ u_content s <> Some c /\ u_trashed s <> Some c.
Proof.
  exists [x01], [x02; x03], [[x02]; [x03]], None, (repeat (Turn None) 4 ++ [Save [x09]] ++ repeat (Turn None) 20), [x09].
  split; [reflexivity|]. split; [reflexivity|]. split.
  - right. exists (repeat (Turn None) 4), (Save [x09]), (repeat (Turn None) 20). split; [reflexivity|]. split; [now left|].
    intros a e b x E [->|(-> & _)]; 
      assert (F : forall y, In y (repeat (Turn None) 20) -> y = Turn None) by (intro y; apply repeat_spec);
      rewrite E in F; specialize (F _ (in_elt _ a b)); discriminate.
  - cbv zeta. repeat split; vm_compute; congruence.
Qed.
Print Assumptions C106_overwritten_refuted.

(** When the remote fails, putting the old file back replaces it. *)
Theorem C106_replaced_refuted :
  exists O D got brk l c, saved_last O D got brk l c /\
    let s := urun O D got brk (u_start O) l in
    u_raised s /\ u_content s = Some O /\ u_content s <> Some c /\ u_trashed s = None.
Proof.
  exists [x01], [x02; x03], [], (Some RemoteFail), (repeat (Turn None) 4 ++ [Save [x09]] ++ repeat (Turn None) 20), [x09]. split.
  - right. exists (repeat (Turn None) 4), (Save [x09]), (repeat (Turn None) 20). split; [reflexivity|]. split; [now left|].
    intros a e b x E [->|(-> & _)];
      assert (F : forall y, In y (repeat (Turn None) 20) -> y = Turn None) by (intro y; apply repeat_spec);
      rewrite E in F; specialize (F _ (in_elt _ a b)); discriminate.
  - cbv zeta. split; [eexists; vm_compute; reflexivity|]. repeat split; vm_compute; congruence.
Qed.
Print Assumptions C106_replaced_refuted.

(** One who saves after the comparison and before the move: the update returns, and what was saved is in the trash.  One who
    saves before it: the update raises and leaves the file. *)
Example C106_case :
  (let l := repeat (Turn None) 3 ++ [Write [x09]] in
   let s := urun [x01] [x02; x03] [[x02]; [x03]] None (u_start [x01]) l in
   u_pc s = UMove /\ u_content s = Some [x09] /\ outside [x01] [x02; x03] [[x02]; [x03]] None l /\
   saved_last [x01] [x02; x03] [[x02]; [x03]] None l [x09] /\ restores [x01] [x02; x03] [[x02]; [x03]] None l /\
   let s' := urun [x01] [x02; x03] [[x02]; [x03]] None s (repeat (Turn None) 20) in
   u_pc s' = UDone (Ok tt) /\ u_content s' = Some [x02; x03] /\ u_trashed s' = Some [x09]) /\
  (let s := urun [x01] [x02; x03] [[x02]; [x03]] None (u_start [x01]) ([Turn None; Write [x09]] ++ repeat (Turn None) 9) in
   u_pc s = UDone (Err LocalChangesError) /\ u_content s = Some [x09] /\ u_trashed s = None) /\
  (let s := urun [x01] [x02; x03] [[x02]; [x03]] None (u_start [x01]) (repeat (Turn None) 18 ++ [Turn (Some RemoteFail); Turn None]) in
   u_raised s /\ u_content s = Some [x01] /\ u_trashed s = None).
Proof.
  split; [|split; [repeat split; vm_compute; reflexivity|split; [eexists; vm_compute; reflexivity|repeat split; vm_compute; reflexivity]]].
  cbv zeta. split; [vm_compute; reflexivity|]. split; [vm_compute; reflexivity|]. split; [|split; [|split; [|repeat split; vm_compute; reflexivity]]].
  - intros a e b E T. destruct a as [|a0 [|a1 [|a2 [|a3 a]]]]; cbn in E; injection E as; subst; try (destruct (T None); reflexivity); try (now destruct a).
    vm_compute. tauto.
  - right. exists (repeat (Turn None) 3), (Write [x09]), []. split; [reflexivity|]. split; [|intros a e b x E; now destruct a].
    right. split; [reflexivity|]. vm_compute. discriminate.
  - intros a e b E x. destruct a as [|a0 [|a1 [|a2 [|a3 a]]]]; cbn in E; try discriminate. injection E as. now destruct a.
Qed.

(** The hypotheses of C106_changes, saved in place and by a new file *)
Example C106_changes_case :
  (let s := urun [x01] [x02; x03] [[x02]; [x03]] None (u_start [x01]) [Turn None; Turn None; Write [x09]] in
   u_pc s = UDiff /\ u_content s = Some [x09] /\ u_pc (uturn [x01] [x02; x03] [[x02]; [x03]] None s) = URe) /\
  (let s := urun [x01] [x02; x03] [[x02]; [x03]] None (u_start [x01]) [Turn None; Save [x09]; Turn None] in
   u_pc s = UDiff /\ u_content s = Some [x09] /\ u_pc (uturn [x01] [x02; x03] [[x02]; [x03]] None s) = UDone (Err AttributeError)).
Proof. repeat split; vm_compute; reflexivity. Qed.

(** The hypotheses of C106_update are those of C65, with a remote that has data. *)
Example C106_update_case :
  r_chunks (c_remote v_sends) <> [] /\ r_break (c_remote v_sends) = None /\
  trash_at v_sends k_fs [$"trash"] ([$"d"] ++ [$"a"]) /\ confined ([$"d"] ++ [$"a"]) (c_refresh v_sends (path_of ([$"d"] ++ [$"a"]))) /\
  let r := meta_updater v_sends (path_of [$"d"; $"a"]) (Some k_new) true (start k_fs [] k_none_fails) in
  fst r = Ok true /\ content (w_fs (snd r)) [$"d"; $"a"] = Some [x30; x31; x32] /\ content (w_fs (snd r)) [$"trash"; $"N-1"] = Some [x20; x21].
Proof.
  split; [vm_compute; discriminate|]. split; [reflexivity|]. split; [trash_tac|]. split; [apply confined_raise|]. vm_compute. repeat split; reflexivity.
Qed.
