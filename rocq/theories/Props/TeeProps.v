(** * C79: writing files in a chain of generators *)
From Coq Require Import String Strings.Byte NArith ZArith Bool List.
From Verif Require Import Model.Py Model.PurePath Model.Fs Model.PathOps Model.Copy Model.Tee Spec.FsSpec Spec.LoopSpec Spec.CopySpec Spec.TeeSpec
  Proofs.GoodFs Proofs.TeeProofs.
Import ListNotations.

(** At any time, whatever fails and whenever the consumer stops, only the files of the chain
    are touched, and each is as it was or has a beginning of the content after what it
    started with.  The consumer gets a beginning of the content, in chunks. *)
Theorem C79_states :
  forall size fuel n self fs cwd fault S d ts k cs r w', good_fs fs -> reads fs cwd self S -> content fs S = Some d -> apart fs cwd S ts ->
    (0 < n)%nat -> (length d < fuel)%nat ->
    consume k (chain size (map asked ts) (data_gen fuel n self)) (start fs cwd fault) = ((cs, r), w') ->
    (forall s, In s (states w') -> only_in (map where_ ts) fs s /\ forall p a T, In (p, a, T) ts -> written fs d a T s) /\
    concat cs = firstn (length (concat cs)) d /\ Forall (fun c => 0 < length c <= n)%nat cs.
Proof. exact tee_states. Qed.
Print Assumptions C79_states.

(** One who takes all and is not told of a failure got all, and every file has all. *)
Theorem C79_all :
  forall size fuel n self fs cwd fault S d ts cs w', good_fs fs -> reads fs cwd self S -> content fs S = Some d -> apart fs cwd S ts ->
    (0 < n)%nat -> (length d < fuel)%nat ->
    consume None (chain size (map asked ts) (data_gen fuel n self)) (start fs cwd fault) = ((cs, Ok tt), w') ->
    concat cs = d /\ forall p a T, In (p, a, T) ts -> has_all fs d a T (w_fs w').
Proof. exact tee_all. Qed.
Print Assumptions C79_all.

(** One who stops after [j] chunks and is not told of a failure: the last file of the
    chain has what was taken.  The others have it when nothing failed. *)
Theorem C79_stop_partial :
  forall size fuel n self fs cwd fault S d ts j cs w', good_fs fs -> reads fs cwd self S -> content fs S = Some d -> apart fs cwd S ts ->
    (0 < n)%nat -> (length d < fuel)%nat -> (0 < j)%nat ->
    consume (Some j) (chain size (map asked ts) (data_gen fuel n self)) (start fs cwd fault) = ((cs, Ok tt), w') ->
    concat cs = firstn (j * n) d /\ (forall p a T ts', ts = (p, a, T) :: ts' -> has_all fs (firstn (j * n) d) a T (w_fs w')) /\
    ((forall t, fault t = None) -> forall p a T, In (p, a, T) ts -> has_all fs (firstn (j * n) d) a T (w_fs w')).
Proof. exact tee_stop. Qed.
Print Assumptions C79_stop_partial.

(** What is raised is a failure of the system, or the source is empty. *)
Theorem C79_fails :
  forall size fuel n self fs cwd fault S d ts k cs e w', good_fs fs -> reads fs cwd self S -> content fs S = Some d -> apart fs cwd S ts ->
    (0 < n)%nat -> (length d < fuel)%nat ->
    consume k (chain size (map asked ts) (data_gen fuel n self)) (start fs cwd fault) = ((cs, Err e), w') ->
    (exists t, fault t = Some e) \/ (d = [] /\ ts <> [] /\ e = RuntimeErr).
Proof. exact tee_fails. Qed.
Print Assumptions C79_fails.
Theorem C79_returns_partial :
  forall size fuel n self fs cwd fault S d ts k cs r w', good_fs fs -> reads fs cwd self S -> content fs S = Some d -> apart fs cwd S ts ->
    (0 < n)%nat -> (length d < fuel)%nat -> d <> [] -> (forall t, fault t = None) ->
    consume k (chain size (map asked ts) (data_gen fuel n self)) (start fs cwd fault) = ((cs, r), w') -> r = Ok tt.
Proof. exact tee_returns. Qed.
Print Assumptions C79_returns_partial.

(** From an empty source no file is made and none is emptied: it raises. *)
Theorem C79_empty_refuted :
  forall size fuel n self fs cwd fault S ts k cs r w', good_fs fs -> reads fs cwd self S -> content fs S = Some [] -> apart fs cwd S ts ->
    (0 < n)%nat -> (0 < fuel)%nat -> ts <> [] -> k <> Some 0%nat -> (forall t, fault t = None) ->
    consume k (chain size (map asked ts) (data_gen fuel n self)) (start fs cwd fault) = ((cs, r), w') ->
    cs = [] /\ r = Err RuntimeErr /\ forall s, In s (states w') -> s = fs.
Proof. exact tee_empty. Qed.
Print Assumptions C79_empty_refuted.

Definition c79_fs : node :=
  Dir [] [($"src", File [x01; x02; x03; x04; x05] []); ($"e", File [] []);
          ($"d", Dir [] [($"log", File [x09] [($"user.k", [x07])]); ($"full", File [x01; x02; x03; x04; x05] [])]); ($"l", Link $"d/log")].
Definition c79_ts : list part :=
  [(pp_parse $"new", false, [$"d"; $"new"]); (pp_parse $"/l", true, [$"d"; $"log"]); (pp_parse $"full", false, [$"d"; $"full"])].
Lemma c79_apart S : S = [$"src"] \/ S = [$"e"] -> apart c79_fs [$"d"] S c79_ts.
Proof.
  intro H. split; [|split].
  - repeat constructor; cbn; intuition discriminate.
  - intros I. destruct H; subst S; cbn in I; intuition discriminate.
  - intros p a T I. cbn in I. destruct I as [E|[E|[E|[]]]]; injection E as <- <- <-; [right; now eexists _, _|left; now eexists _, _|left; now eexists _, _].
Qed.
Example C79_case :
  good_fs c79_fs /\ reads c79_fs [$"d"] (pp_parse $"/src") [$"src"] /\ content c79_fs [$"src"] = Some [x01; x02; x03; x04; x05] /\ apart c79_fs [$"d"] [$"src"] c79_ts /\
  (let r := consume None (chain 3 (map asked c79_ts) (data_gen 10 2 (pp_parse $"/src"))) (start c79_fs [$"d"] (fun _ => None)) in
   fst r = ([[x01; x02]; [x03; x04]; [x05]], Ok tt) /\
   look (w_fs (snd r)) [$"d"; $"new"] = Some (AFile [x01; x02; x03; x04; x05] []) /\
   look (w_fs (snd r)) [$"d"; $"log"] = Some (AFile [x09; x01; x02; x03; x04; x05] [($"user.k", [x07])]) /\
   look (w_fs (snd r)) [$"d"; $"full"] = Some (AFile [x01; x02; x03; x04; x05] [])) /\
  (let r := consume (Some 2%nat) (chain 3 (map asked c79_ts) (data_gen 10 2 (pp_parse $"/src"))) (start c79_fs [$"d"] (fun _ => None)) in
   fst r = ([[x01; x02]; [x03; x04]], Ok tt) /\ look (w_fs (snd r)) [$"d"; $"full"] = Some (AFile [x01; x02; x03; x04] [])).
Proof.
  split; [now apply good_fs_b_ok|]. split; [now eexists _, _|]. split; [reflexivity|]. split; [apply c79_apart; now left|]. vm_compute. repeat split.
Qed.
Example C79_empty_case :
  reads c79_fs [$"d"] (pp_parse $"/e") [$"e"] /\ content c79_fs [$"e"] = Some [] /\ apart c79_fs [$"d"] [$"e"] c79_ts.
Proof. split; [now eexists _, _|]. split; [reflexivity|]. apply c79_apart; now right. Qed.

(** One who stops is not told that a file could not be written when that is not the last
    of the chain: two chunks were taken, the log has none of them, no error. *)
Theorem C79_silent_refuted :
  exists fs cwd self S d ts fault p a T, good_fs fs /\ reads fs cwd self S /\ content fs S = Some d /\ apart fs cwd S ts /\ In (p, a, T) ts /\
    match consume (Some 2%nat) (chain 8 (map asked ts) (data_gen 10 2 self)) (start fs cwd fault) with
    | ((cs, r), w') => r = Ok tt /\ concat cs = firstn 4 d /\ look (w_fs w') T = look fs T /\ a = true
    end.
Proof.
  exists c79_fs, [$"d"], (pp_parse $"/src"), [$"src"], [x01; x02; x03; x04; x05], c79_ts, (fun t => if Nat.eqb t 7 then Some (OSErr ENOSPC) else None), (pp_parse $"/l"), true, [$"d"; $"log"].
  split; [now apply good_fs_b_ok|]. split; [now eexists _, _|]. split; [reflexivity|]. split; [apply c79_apart; now left|]. split; [right; now left|]. vm_compute. repeat split.
Qed.
Print Assumptions C79_silent_refuted.

(** A file that had all of the content has less of it after one who stopped early. *)
Theorem C79_cut_refuted :
  exists fs cwd self S d ts p T, good_fs fs /\ reads fs cwd self S /\ content fs S = Some d /\ apart fs cwd S ts /\ In (p, false, T) ts /\ content fs T = Some d /\
    match consume (Some 1%nat) (chain 8 (map asked ts) (data_gen 10 2 self)) (start fs cwd (fun _ => None)) with
    | ((cs, r), w') => r = Ok tt /\ content (w_fs w') T = Some (firstn 2 d) /\ (2 < length d)%nat
    end.
Proof.
  exists c79_fs, [$"d"], (pp_parse $"/src"), [$"src"], [x01; x02; x03; x04; x05], c79_ts, (pp_parse $"full"), [$"d"; $"full"].
  split; [now apply good_fs_b_ok|]. split; [now eexists _, _|]. split; [reflexivity|]. split; [apply c79_apart; now left|]. split; [right; right; now left|]. split; [reflexivity|]. vm_compute. repeat split; repeat constructor.
Qed.
Print Assumptions C79_cut_refuted.
