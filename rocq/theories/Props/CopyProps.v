(** * C25: copies *)
From Coq Require Import String Strings.Byte NArith ZArith Bool List.
From Verif Require Import Model.Py Model.PurePath Model.Fs Model.PathOps Model.Copy Spec.FsSpec Spec.LoopSpec Spec.CopySpec
  Proofs.GoodFs Proofs.CopyProofs.
Import ListNotations.

(** Without [force] nothing is written over, not even a link that leads nowhere. *)
Theorem C25_refuses :
  forall fuel n self target fs cwd fault r w', honest fault -> occupied fs cwd target ->
    p_copy_to fuel n self target false (start fs cwd fault) = (r, w') ->
    (exists e, r = Err e) /\ (forall s, In s (states w') -> s = fs) /\ ((forall t, fault t = None) -> r = Err PathExistsErr).
Proof. exact copy_refuses. Qed.
Print Assumptions C25_refuses.

(** When it returns the target has the content of the source; all else, the
    source and the attributes of the target included, is as it was. *)
Theorem C25_copies :
  forall fuel n self target force fs cwd fault S T d w', good_fs fs -> reads fs cwd self S -> writes fs cwd target T -> S <> T ->
    content fs S = Some d -> (0 < n)%nat -> p_copy_to fuel n self target force (start fs cwd fault) = (Ok tt, w') ->
    only_at T fs (w_fs w') /\ look (w_fs w') T = Some (AFile d (file_xattrs fs T)).
Proof. exact copy_ok. Qed.
Print Assumptions C25_copies.

(** At any time, whatever fails, only the target is touched; it is as it was or has
    a beginning of the content. *)
Theorem C25_confined :
  forall fuel n self target force fs cwd fault S T d r w', good_fs fs -> reads fs cwd self S -> writes fs cwd target T -> S <> T ->
    content fs S = Some d -> (0 < n)%nat -> p_copy_to fuel n self target force (start fs cwd fault) = (r, w') ->
    forall s, In s (states w') -> only_at T fs s /\ (look s T = look fs T \/ exists m, look s T = Some (AFile (firstn m d) (file_xattrs fs T))).
Proof. exact copy_confined. Qed.
Print Assumptions C25_confined.

(** It returns when nothing fails and the content is not empty. *)
Theorem C25_returns_partial :
  forall fuel n self target force fs cwd S T d r w', good_fs fs -> reads fs cwd self S -> writes fs cwd target T -> S <> T ->
    content fs S = Some d -> (0 < n)%nat -> d <> [] -> (length d < fuel)%nat -> force = true \/ ~ occupied fs cwd target ->
    p_copy_to fuel n self target force (start fs cwd (fun _ => None)) = (r, w') -> r = Ok tt.
Proof. exact copy_returns. Qed.
Print Assumptions C25_returns_partial.

(** What is not a file cannot be copied, the target is not touched. *)
Theorem C25_no_source :
  forall fuel n self target force fs cwd fault r w', (forall S, ~ reads fs cwd self S) ->
    p_copy_to fuel n self target force (start fs cwd fault) = (r, w') -> (exists e, r = Err e) /\ forall s, In s (states w') -> s = fs.
Proof. exact copy_no_source. Qed.
Print Assumptions C25_no_source.

(** Into a directory *)
Theorem C25_outto :
  forall fuel n self target force fs cwd fault S T d p w', good_fs fs -> reads fs cwd self S -> writes fs cwd (child target (pp_name self)) T -> S <> T ->
    content fs S = Some d -> (0 < n)%nat -> p_copy_outto fuel n self target force (start fs cwd fault) = (Ok p, w') ->
    p = child target (pp_name self) /\ only_at T fs (w_fs w') /\ look (w_fs w') T = Some (AFile d (file_xattrs fs T)).
Proof. exact outto_ok. Qed.
Print Assumptions C25_outto.
Theorem C25_outto_refuses :
  forall fuel n self target force fs cwd fault r w', (forall q xs es, walk fs cwd true target <> Found q (Dir xs es)) ->
    p_copy_outto fuel n self target force (start fs cwd fault) = (r, w') ->
    (exists e, r = Err e) /\ (forall s, In s (states w') -> s = fs) /\ ((forall t, fault t = None) -> r = Err (OSErr ENOTDIR)).
Proof. exact outto_refuses. Qed.
Print Assumptions C25_outto_refuses.

Definition c25_fs : node :=
  Dir [] [($"d", Dir [] [($"src", File [x01; x02; x03; x04; x05] [($"user.a", [x07])]); ($"old", File [x09] [($"user.b", [x08])])]);
          ($"l", Link $"d/src"); ($"broken", Link $"d/made"); ($"e", File [] [])].
Example C25_case :
  good_fs c25_fs /\ reads c25_fs [$"d"] (pp_parse $"../l") [$"d"; $"src"] /\ content c25_fs [$"d"; $"src"] = Some [x01; x02; x03; x04; x05] /\
  writes c25_fs [$"d"] (pp_parse $"/broken") [$"d"; $"made"] /\ occupied c25_fs [$"d"] (pp_parse $"/broken") /\
  writes c25_fs [$"d"] (pp_parse $"old") [$"d"; $"old"] /\ ~ occupied c25_fs [$"d"] (pp_parse $"new") /\
  let w := start c25_fs [$"d"] (fun _ => None) in
  fst (p_copy_to 10 2 (pp_parse $"../l") (pp_parse $"/broken") false w) = Err PathExistsErr /\
  (let r := p_copy_to 10 2 (pp_parse $"../l") (pp_parse $"/broken") true w in
   fst r = Ok tt /\ look (w_fs (snd r)) [$"d"; $"made"] = Some (AFile [x01; x02; x03; x04; x05] []) /\ length (states (snd r)) = 6%nat) /\
  (let r := p_copy_to 10 2 (pp_parse $"src") (pp_parse $"old") true w in
   fst r = Ok tt /\ look (w_fs (snd r)) [$"d"; $"old"] = Some (AFile [x01; x02; x03; x04; x05] [($"user.b", [x08])])) /\
  (let r := p_copy_outto 10 2 (pp_parse $"../l") (pp_parse $"/d") false w in
   fst r = Ok (pp_parse $"/d/l") /\ look (w_fs (snd r)) [$"d"; $"l"] = Some (AFile [x01; x02; x03; x04; x05] [])) /\
  fst (p_copy_outto 10 2 (pp_parse $"src") (pp_parse $"/l") false w) = Err (OSErr ENOTDIR) /\
  fst (p_copy_to 10 2 (pp_parse $"/d") (pp_parse $"new") false w) = Err (OSErr EISDIR).
Proof.
  split; [now apply good_fs_b_ok|]. split; [now eexists _, _|]. split; [reflexivity|]. split; [right; now eexists _, _|].
  split; [now eexists _, _|]. split; [left; now eexists _, _|]. split; [intros (q & m & W); vm_compute in W; discriminate|].
  vm_compute. repeat split.
Qed.

(** An empty file cannot be copied: StopIteration, no target. *)
Theorem C25_empty_refuted :
  exists fs self target S T, good_fs fs /\ reads fs [] self S /\ content fs S = Some [] /\ writes fs [] target T /\ ~ occupied fs [] target /\
    match p_copy_to 10 4096 self target false (start fs [] (fun _ => None)) with
    | (r, w') => r = Err StopIteration /\ look (w_fs w') T = None
    end.
Proof.
  exists c25_fs, (pp_parse $"/e"), (pp_parse $"/new"), [$"e"], [$"new"]. split; [now apply good_fs_b_ok|]. split; [now eexists _, _|]. split; [reflexivity|].
  split; [right; now eexists _, _|]. split; [intros (q & m & W); vm_compute in W; discriminate|]. vm_compute. now split.
Qed.
Print Assumptions C25_empty_refuted.

(** A file copied to itself with [force] is cut after the first chunk: the source
    is lost and the call returns. *)
Theorem C25_self_refuted :
  exists fs self target S d d', good_fs fs /\ reads fs [] self S /\ writes fs [] target S /\ content fs S = Some d /\
    match p_copy_to 10 2 self target true (start fs [] (fun _ => None)) with
    | (r, w') => r = Ok tt /\ content (w_fs w') S = Some d' /\ (length d' < length d)%nat
    end.
Proof.
  exists c25_fs, (pp_parse $"/d/src"), (pp_parse $"/l"), [$"d"; $"src"], [x01; x02; x03; x04; x05], [x01; x02].
  split; [now apply good_fs_b_ok|]. split; [now eexists _, _|]. split; [left; now eexists _, _|]. split; [reflexivity|]. vm_compute. repeat split; repeat constructor.
Qed.
Print Assumptions C25_self_refuted.
