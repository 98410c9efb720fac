(** * C22: removal of empty directories *)
From Coq Require Import String NArith ZArith Bool List.
From Verif Require Import Model.Py Model.PurePath Model.Fs Model.PathOps Model.Rmdirtree Spec.FsSpec Spec.RmdirtreeSpec
  Proofs.RmdirtreeProofs.
Import ListNotations.

(** In every state of every run, whatever calls fail: what is not as it was at the
    start is a directory below the path with only directories below it. *)
Theorem C22_safe :
  forall fs cwd fault new p r w', good_fs fs -> honest fault -> p_rmdirtree new p (start fs cwd fault) = (r, w') ->
    forall s q, In s (states w') -> look s q = look fs q \/
      (look s q = None /\ (exists R, leads fs cwd p R /\ below R q) /\ dirs_only fs q).
Proof. exact (fun fs cwd fault new p r w' G Ho H => proj1 (rmdirtree_safe fs cwd fault new p r w' G Ho H)). Qed.
Print Assumptions C22_safe.

(** When no call fails, exactly these directories are gone. *)
Theorem C22_exact :
  forall fs cwd fault new R, good_fs fs -> (forall t, fault t = None) -> R <> [] -> is_dir_at fs R ->
    exists w', p_rmdirtree new (path_of R) (start fs cwd fault) = (Ok tt, w') /\ forall q,
      (below R q /\ dirs_only fs q -> look (w_fs w') q = None) /\
      (~ (below R q /\ dirs_only fs q) -> look (w_fs w') q = look fs q).
Proof. exact rmdirtree_exact. Qed.
Print Assumptions C22_exact.

(** A path that leads to a link is refused. *)
Theorem C22_link :
  forall fs cwd fault new p R t, (forall t, fault t = None) -> leads fs cwd p R -> look fs R = Some (ALink t) ->
    exists w', p_rmdirtree new p (start fs cwd fault) = (Err (OSErr ENOTDIR), w') /\ w_fs w' = fs.
Proof. exact rmdirtree_link. Qed.
Print Assumptions C22_link.

(** A path that leads to a file or to nothing: nothing happens. *)
Theorem C22_other :
  forall fs cwd fault new p, (forall t, fault t = None) ->
    (forall q t, leads fs cwd p q -> look fs q <> Some (ALink t)) -> (forall q, leads fs cwd p q -> ~ is_dir_at fs q) ->
    exists w', p_rmdirtree new p (start fs cwd fault) = (Ok tt, w') /\ w_fs w' = fs.
Proof. exact rmdirtree_other. Qed.
Print Assumptions C22_other.

(** /r with a tree of empty directories, one with a file deep in it, one with a
    link to an empty directory, one with a broken link. *)
Definition c22_fs : node :=
  Dir [] [($"r", Dir [] [($"a", Dir [] [($"b", Dir [] []); ($"c", Dir [] [($"d", Dir [] [])])]);
                         ($"f", Dir [] [($"g", Dir [] [($"h", File [] [])]); ($"i", Dir [] [])]);
                         ($"l", Dir [] [($"m", Link $"../a"); ($"n", Dir [] [])]);
                         ($"o", Dir [] [($"p", Link $"nowhere")])]);
          ($"z", Link $"r")].
Example C22_case :
  good_fs c22_fs /\ is_dir_at c22_fs [$"r"] /\ dirs_only c22_fs [$"r"; $"a"; $"c"] /\
  (forall new, w_fs (snd (p_rmdirtree new (path_of [$"r"]) (start c22_fs [] (fun _ => None)))) =
    Dir [] [($"r", Dir [] [($"f", Dir [] [($"g", Dir [] [($"h", File [] [])])]);
                           ($"l", Dir [] [($"m", Link $"../a")]);
                           ($"o", Dir [] [($"p", Link $"nowhere")])]);
            ($"z", Link $"r")]) /\
  leads c22_fs [] (pp_parse $"/z") [$"z"] /\ ~ is_dir_at c22_fs [$"r"; $"f"; $"g"; $"h"].
Proof.
  split.
  - split; [|now eexists _, _].
    repeat (constructor; [repeat constructor; cbn; intuition discriminate
      |cbn; intros ? H; repeat (destruct H as [<-|H]); try contradiction; repeat split; try discriminate; cbn; intuition discriminate
      |cbn; intros ? ? H; repeat (destruct H as [H|H]); try contradiction; injection H as <- <-; try apply good_link; try apply good_file]).
  - split; [now exists []|]. split; [split; [now exists []|]|].
    + intros q (r & ->). destruct r as [|x r]; [right; now exists []|]. unfold is_dir_at.
      change (look c22_fs (_ ++ x :: r)) with (look (Dir [] [($"d", Dir [] [])]) (x :: r)). unfold look, get, entry, find, fst.
      destruct (str_eqb $"d" x); [|now left]. destruct r as [|y r]; [right; now exists []|now left].
    + split; [intros []; vm_compute; reflexivity|]. split; [now eexists|]. intros (xs & H). discriminate.
Qed.
