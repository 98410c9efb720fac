(** * A program alone does what Model.Cache does *)
From Coq Require Import String Strings.Byte NArith ZArith Bool List Lia.
From Verif Require Import Model.Py Model.PurePath Model.Meta Model.Access Model.Fs Model.Cache Model.FetchRace
  Spec.FsSpec Spec.LoopSpec Spec.CopySpec Spec.CacheSpec Spec.FetchRaceSpec Proofs.FetchRaceProofs Proofs.CacheFinal.
Import ListNotations.

Lemma agrees_fetch K D x fs cwd fault v m limit w' :
    good_name x -> good_fs fs -> look fs (D ++ [x]) = Some v -> cached_leaf x v -> recorded K x (Some v) = Ok (Some m) -> m_file_id m <> PNone -> honest fault ->
    (c_cypher K = default_cypher \/ forall cm, recorded K x (look (w_fs w') (D ++ [x])) = Ok (Some cm) -> ~ algorithm K cm default_cypher) ->
    r_chunks (c_remote K) <> [] ->
    fetch K (path_of (D ++ [x])) limit (start fs cwd fault) = (Ok tt, w') ->
    let got := r_chunks (c_remote K) in
    let s := frun (concat got) (fun _ => got) (fun _ => r_break (c_remote K)) f_fresh (repeat 0 (14 + length got)) in
    (forall q, look (w_fs w') q = look fs q) \/ f_returned s 0 /\ content (w_fs w') (D ++ [x]) = content_at s.
Proof.
  intros Gx G L C R F Ho Cy N H got s.
  destruct (fetch_valid _ _ _ _ _ _ _ _ _ _ Gx G L C R F Ho Cy H) as [U|(d & xs & Lw & Ed & Eb & _)]; [now left|right].
  destruct (one_alone (concat got) (fun _ => got) (fun _ => r_break (c_remote K)) eq_refl N Eb) as (R1 & R2 & _).
  split; [exact R1|]. transitivity (Some (concat got)); [|symmetry; exact R2]. unfold content. now rewrite Lw, Ed.
Qed.
