(** C105: programs that fetch the same file at the same time. *)
From Coq Require Import String Strings.Byte NArith ZArith Bool List Lia.
From Verif Require Import Model.Py Model.PurePath Model.Meta Model.Access Model.Fs Model.Cache Model.FetchRace
  Spec.FsSpec Spec.LoopSpec Spec.CopySpec Spec.CacheSpec Spec.FetchRaceSpec Proofs.GoodFs Proofs.FetchRaceProofs Proofs.FetchRaceCache Props.CacheProps.
Import ListNotations.

(** When all that began have returned, the file is there with all its data and with metadata, whatever the
    order of turns and however the data was cut up for each. *)
Theorem C105_returned :
  forall D got brk l, (forall i, sends D (got i) (brk i)) ->
    let s := frun D got brk f_fresh l in
    (exists i, f_began s i) -> (forall i, f_began s i -> f_returned s i) ->
    content_at s = Some D /\ meta_at s <> None.
Proof. exact fetched. Qed.
Print Assumptions C105_returned.

(** One alone returns, and its metadata is as it was.  Missing from the full statement: others. *)
Theorem C105_alone_partial :
  forall D got brk, concat (got 0) = D -> got 0 <> [] -> brk 0 = None ->
    let s := frun D got brk f_fresh (repeat 0 (14 + length (got 0))) in
    f_returned s 0 /\ content_at s = Some D /\ meta_at s = Some false.
Proof. exact one_alone. Qed.
Print Assumptions C105_alone_partial.

(** At every moment, whatever raises: the file at the path has no more bytes than the data, and each is that of the
    data or zero. *)
Theorem C105_bytes :
  forall D got brk l, (forall i, sends D (got i) (brk i)) ->
    forall c, content_at (frun D got brk f_fresh l) = Some c ->
      length c <= length D /\ forall j x, nth_error c j = Some x -> nth_error D j = Some x \/ x = x00.
Proof. exact every_moment. Qed.
Print Assumptions C105_bytes.

(** One after the other all return, and there is no error in the metadata.  Missing from the full statement: other orders. *)
Theorem C105_serial_partial :
  forall D got brk is,
    (forall i, In i is -> concat (got i) = D /\ got i <> [] /\ brk i = None) -> NoDup is -> is <> [] ->
    let s := frun D got brk f_fresh (flat_map (fun i => repeat i (14 + length (got i))) is) in
    (forall i, In i is -> f_returned s i) /\ content_at s = Some D /\ meta_at s = Some false.
Proof. exact in_order. Qed.
Print Assumptions C105_serial_partial.

(** Where [fetch], the model of C29, returns and does not leave all as it was (the size is over the limit), it
    leaves what a program leaves that has all its turns at once. *)
Theorem C105_fetch :
  forall K D x fs cwd fault v m limit w',
    good_name x -> good_fs fs -> look fs (D ++ [x]) = Some v -> cached_leaf x v -> recorded K x (Some v) = Ok (Some m) -> m_file_id m <> PNone -> honest fault ->
    (c_cypher K = default_cypher \/ forall cm, recorded K x (look (w_fs w') (D ++ [x])) = Ok (Some cm) -> ~ algorithm K cm default_cypher) ->
    r_chunks (c_remote K) <> [] ->
    fetch K (path_of (D ++ [x])) limit (start fs cwd fault) = (Ok tt, w') ->
    let got := r_chunks (c_remote K) in
    let s := frun (concat got) (fun _ => got) (fun _ => r_break (c_remote K)) f_fresh (repeat 0 (14 + length got)) in
    (forall q, look (w_fs w') q = look fs q) \/ f_returned s 0 /\ content (w_fs w') (D ++ [x]) = content_at s.
Proof. exact agrees_fetch. Qed.
Print Assumptions C105_fetch.

(** ** Cases *)
Definition race_data : bytes := [x01; x02; x03].
Definition race_got (i : nat) : list bytes := match i with 0 => [[x01]; [x02; x03]] | 1 => [[x01; x02]; [x03]] | _ => [race_data] end.
Definition race_brk (i : nat) : option exn := None.
(** To the second the remote gives nothing. *)
Definition race_got0 (i : nat) : list bytes := match i with 1 => [] | _ => race_got i end.
Definition race_brk1 (i : nat) : option exn := match i with 1 => Some RemoteFail | _ => None end.

Lemma race_sends : forall i, sends race_data (race_got i) (race_brk i).
Proof. intros [|[|i]]; exists []; now split. Qed.
Lemma race_sends1 : forall i, sends race_data (race_got0 i) (race_brk1 i).
Proof. intros [|[|i]]; [exists []; now split|exists race_data; now split|exists []; now split]. Qed.

(** The second asks when the first has made the file and not yet set the metadata: it raises, though the
    metadata was there before and the first returns. *)
Theorem C105_window_refuted :
  exists D got brk l, (forall i, sends D (got i) (brk i)) /\ (forall i, brk i = None /\ got i <> []) /\
    let s := frun D got brk f_fresh l in
    f_returned s 0 /\ f_raised s 1 NoCachedMetadataError /\ content_at s = Some D.
Proof.
  exists race_data, race_got, race_brk, (repeat 0 6 ++ repeat 1 2 ++ repeat 0 10). split; [exact race_sends|].
  split; [intros [|[|i]]; split; easy|]. cbv zeta. repeat split; vm_compute; reflexivity.
Qed.
Print Assumptions C105_window_refuted.

(** The second has seen the link when the first fetches and returns; then it unlinks the file, makes an empty
    one, and its remote fails: the file that was fetched is empty. *)
Theorem C105_empty_refuted :
  exists D got brk l, (forall i, sends D (got i) (brk i)) /\ D <> [] /\
    let s := frun D got brk f_fresh l in
    f_returned s 0 /\ f_raised s 1 RemoteFail /\ content_at s = Some [] /\ meta_at s = Some false.
Proof.
  exists race_data, race_got0, race_brk1, (repeat 1 4 ++ repeat 0 16 ++ repeat 1 5). split; [exact race_sends1|].
  split; [discriminate|]. cbv zeta. repeat split; vm_compute; reflexivity.
Qed.
Print Assumptions C105_empty_refuted.

(** The second opens the file when the first is about to look at the checksum: both return, the file is
    whole, and its metadata says that the checksum does not match. *)
Theorem C105_mismatch_refuted :
  exists D got brk l, (forall i, sends D (got i) (brk i)) /\ (forall i, brk i = None /\ got i <> []) /\
    let s := frun D got brk f_fresh l in
    f_returned s 0 /\ f_returned s 1 /\ content_at s = Some D /\ meta_at s = Some true.
Proof.
  exists race_data, race_got, race_brk, (repeat 0 8 ++ repeat 1 4 ++ repeat 0 7 ++ [1] ++ [0; 0] ++ repeat 1 10). split; [exact race_sends|].
  split; [intros [|[|i]]; split; easy|]. cbv zeta. repeat split; vm_compute; reflexivity.
Qed.
Print Assumptions C105_mismatch_refuted.

(** The second opens the file before the first looks at its size: the first raises ValueError though all of
    the data came. *)
Theorem C105_size_refuted :
  exists D got brk l, (forall i, sends D (got i) (brk i)) /\ (forall i, brk i = None /\ got i <> []) /\
    let s := frun D got brk f_fresh l in
    f_raised s 0 ValueError /\ f_returned s 1 /\ content_at s = Some D.
Proof.
  exists race_data, race_got, race_brk, (repeat 0 8 ++ repeat 1 4 ++ repeat 0 6 ++ [1] ++ [0] ++ repeat 1 10). split; [exact race_sends|].
  split; [intros [|[|i]]; split; easy|]. cbv zeta. repeat split; vm_compute; reflexivity.
Qed.
Print Assumptions C105_size_refuted.

(** Three: the second writes while the first does, and the third unlinks what they wrote and writes it again. *)
Example C105_case :
  (forall i, sends race_data (race_got i) (race_brk i)) /\
  (let s := frun race_data race_got race_brk f_fresh (repeat 2 5) in f_began s 2 /\ content_at s = None) /\
  (let l := repeat 2 4 ++ repeat 0 11 ++ repeat 1 5 ++ [0; 1; 0; 1] ++ repeat 1 5 ++ repeat 0 4 ++ repeat 2 15 in
   let s := frun race_data race_got race_brk f_fresh l in
   f_returned s 0 /\ f_returned s 1 /\ f_returned s 2 /\ (forall i, f_began s i -> f_returned s i) /\
   content_at s = Some race_data).
Proof.
  split; [exact race_sends|]. split; [cbv zeta; split; [intro H; vm_compute in H; discriminate|vm_compute; reflexivity]|].
  cbv zeta. split; [vm_compute; reflexivity|]. split; [vm_compute; reflexivity|]. split; [vm_compute; reflexivity|]. split; [|vm_compute; reflexivity].
  intros [|[|[|i]]] B; try (vm_compute; reflexivity). exfalso. apply B. vm_compute. reflexivity.
Qed.

(** Two that write at once, in between: a byte is missing; and three one after the other. *)
Example C105_bytes_case :
  content_at (frun race_data race_got race_brk f_fresh (repeat 0 11 ++ repeat 1 5 ++ [0])) = Some [x00; x02; x03] /\
  (forall i, In i [2; 0; 1] -> concat (race_got i) = race_data /\ race_got i <> [] /\ race_brk i = None) /\ NoDup [2; 0; 1].
Proof.
  split; [vm_compute; reflexivity|]. split; [intros i [<-|[<-|[<-|[]]]]; now repeat split|].
  repeat constructor; cbn; intuition discriminate.
Qed.

(** The hypotheses of C105_fetch are those of C29. *)
Example C105_fetch_case :
  good_name $"l" /\ good_fs k_fs /\ cached_leaf $"l" (ALink (k_link $"l" k_new)) /\ r_chunks (c_remote k_sends) <> [] /\
  (exists m, recorded k_sends $"l" (look k_fs [$"d"; $"l"]) = Ok (Some m) /\ m_file_id m = PInt 7) /\
  exists w', fetch k_sends (path_of [$"d"; $"l"]) None (start k_fs [] k_none_fails) = (Ok tt, w') /\
    content (w_fs w') [$"d"; $"l"] = Some [x30; x31; x32] /\ look (w_fs w') [$"d"; $"l"] <> look k_fs [$"d"; $"l"] /\
    (forall cm, recorded k_sends $"l" (look (w_fs w') [$"d"; $"l"]) = Ok (Some cm) -> ~ algorithm k_sends cm default_cypher).
Proof.
  split; [name_tac|]. split; [now apply good_fs_b_ok|]. split; [eexists; vm_compute; reflexivity|]. split; [vm_compute; discriminate|].
  split; [eexists; split; [vm_compute; reflexivity|reflexivity]|].
  eexists. split; [vm_compute; reflexivity|]. split; [vm_compute; reflexivity|]. split; [vm_compute; discriminate|]. intros cm R. vm_compute in R. injection R as <-.
  intros [(_ & H)|H]; discriminate.
Qed.
