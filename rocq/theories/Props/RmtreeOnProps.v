(** * C92: rmtree with [onerror] *)
From Coq Require Import String NArith ZArith Bool List.
From Verif Require Import Model.Py Model.PurePath Model.Fs Model.PathOps Model.RmtreeOn
  Spec.FsSpec Spec.LoopSpec Spec.RmtreeSpec Spec.RmtreeOnSpec Proofs.GoodFs Proofs.RmtreeProofs Proofs.RmtreeOnProofs Props.RmtreeProps.
Import ListNotations.

(** [onerror] is not called, and it returns, exactly when rmtree without it returns, and then
    both have done the same; whatever calls fail. *)
Theorem C92_as_usual :
  forall onerror dz p w w', p_rmtree false dz p w = (Ok tt, w') <-> p_rmtree_on onerror dz p w = (Ok tt, [], w').
Proof. exact on_as_usual. Qed.
Print Assumptions C92_as_usual.

(** So when [onerror] was told of nothing all is gone. *)
Theorem C92_gone :
  forall onerror fs cwd fault dz p w', good_fs fs -> honest fault ->
    p_rmtree_on onerror dz p (start fs cwd fault) = (Ok tt, [], w') ->
    exists R, leads fs cwd p R /\ forall q, below R q -> look (w_fs w') q = None.
Proof. exact on_gone. Qed.
Print Assumptions C92_gone.

(** It is told of the path and of what is below it only. *)
Theorem C92_within :
  forall onerror dz p w r l w', p_rmtree_on onerror dz p w = (r, l, w') -> forall f q e, In (f, q, e) l -> within p q.
Proof. exact on_within. Qed.
Print Assumptions C92_within.

(** With an [onerror] that only looks on: in every state of every run what is not below the path
    is as it was, and what is below is as it was or gone. *)
Theorem C92_confined :
  forall onerror fs cwd fault dz p r l w', watches onerror -> good_fs fs -> honest fault ->
    p_rmtree_on onerror dz p (start fs cwd fault) = (r, l, w') ->
    forall s q, In s (states w') -> look s q = look fs q \/ (look s q = None /\ exists R, leads fs cwd p R /\ below R q).
Proof. exact on_confined. Qed.
Print Assumptions C92_confined.

(** When it returns and something is left, the last that [onerror] was told of is the path or
    an entry of it.  Missing from the full statement: that it is told of all that is left. *)
Theorem C92_last_partial :
  forall onerror fs cwd fault dz p l w', watches onerror -> good_fs fs -> honest fault ->
    p_rmtree_on onerror dz p (start fs cwd fault) = (Ok tt, l, w') ->
    (exists R, leads fs cwd p R /\ forall q, below R q -> look (w_fs w') q = None) \/
    exists l0 f q e, l = l0 ++ [(f, q, e)] /\ at_or_in p q.
Proof. exact on_last. Qed.
Print Assumptions C92_last_partial.

(** It ends, and the errors there can be. *)
Theorem C92_errors :
  forall onerror fs cwd fault dz p e l w', watches onerror -> good_fs fs -> honest fault ->
    p_rmtree_on onerror dz p (start fs cwd fault) = (Err e, l, w') ->
    e = WillNotRemovePathError \/ e = UnboundLocalError \/ e = KeyboardInterrupt \/ exists n, e = OSErr n.
Proof. exact on_errors. Qed.
Print Assumptions C92_errors.

(** Of a link that leads to a directory [onerror] is not told: the variable [path] has no value
    yet, and UnboundLocalError is raised. *)
Theorem C92_link_refuted :
  forall onerror fs cwd R t, good_fs fs -> look fs R = Some (ALink t) -> fst (p_is_dir (path_of R) (start fs cwd (fun _ => None))) = Ok true ->
    exists w', p_rmtree_on onerror (ABool true) (path_of R) (start fs cwd (fun _ => None)) = (Err UnboundLocalError, [], w') /\
      forall s, In s (states w') -> s = fs.
Proof. exact on_link. Qed.
Print Assumptions C92_link_refuted.

(** Nor of a directory that cannot be listed. *)
Theorem C92_listing_refuted :
  forall onerror fs cwd R fault xs e, good_fs fs -> look fs R = Some (ADir xs) -> fault 0 = None -> fault 1 = None -> fault 2 = Some e ->
    e = KeyboardInterrupt \/ (exists n, e = OSErr n) ->
    exists w', p_rmtree_on onerror (ABool true) (path_of R) (start fs cwd fault) = (Err UnboundLocalError, [], w') /\
      forall s, In s (states w') -> s = fs.
Proof. exact on_listing. Qed.
Print Assumptions C92_listing_refuted.

Definition o_watch : func -> ppath -> exn -> M unit := fun _ _ _ => ret tt.
Definition o_fs : node := Dir [] [($"t", Dir [] [($"l", Link $"/k"); ($"f", File [] []); ($"d", Dir [] [($"g", File [] [])])]); ($"k", Dir [] [])].
Definition o_run (at_ : nat) (e : exn) := p_rmtree_on o_watch (ABool true) (path_of [$"t"]) (start o_fs [] (fun t => if Nat.eqb t at_ then Some e else None)).
(** When a link in it cannot be removed [onerror] is told to use rmdir for it if it leads to a
    directory; the rest of the directory is left and [onerror] is not told of it.  The same
    for an interrupt, which then is over. *)
Theorem C92_rest_refuted :
  fst (o_run 4 (OSErr EACCES)) = (Ok tt, [(Rmdir, path_of [$"t"; $"l"], OSErr EACCES)]) /\
  w_fs (snd (o_run 4 (OSErr EACCES))) = o_fs /\ fst (o_run 4 KeyboardInterrupt) = (Ok tt, [(Rmdir, path_of [$"t"; $"l"], KeyboardInterrupt)]).
Proof. repeat (split; [now vm_compute|]). now vm_compute. Qed.
Print Assumptions C92_rest_refuted.

(** A file that cannot be removed is told of, then the directory it is in; the rest is removed. *)
Example C92_case :
  watches o_watch /\ good_fs o_fs /\ honest (fun t => if Nat.eqb t 7 then Some (OSErr EACCES) else None) /\
  fst (o_run 7 (OSErr EACCES)) = (Ok tt, [(Unlink, path_of [$"t"; $"f"], OSErr EACCES); (Rmdir, path_of [$"t"], OSErr ENOTEMPTY)]) /\
  look (w_fs (snd (o_run 7 (OSErr EACCES)))) [$"t"; $"d"] = None /\ look (w_fs (snd (o_run 7 (OSErr EACCES)))) [$"t"; $"f"] <> None /\
  fst (o_run 100 (OSErr EACCES)) = (Ok tt, []) /\
  fst (p_is_dir (path_of [$"t"; $"l"]) (start o_fs [] (fun _ => None))) = Ok true.
Proof.
  split; [intros f q e w; exists w; now repeat split|]. split; [now apply good_fs_b_ok|].
  split; [intros t e H; destruct (Nat.eqb t 7); [injection H as <-; right; now eexists|discriminate]|].
  repeat (split; [now vm_compute|]). now vm_compute.
Qed.
