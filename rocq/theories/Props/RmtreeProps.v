(** * C19, C20, C21: rmtree *)
From Coq Require Import String NArith ZArith Bool List.
From Verif Require Import Model.Py Model.PurePath Model.Fs Model.PathOps
  Spec.FsSpec Spec.LoopSpec Spec.RmtreeSpec Proofs.RmtreeProofs.
Import ListNotations.

(** In every state of every run, whatever calls fail: what is not below the place
    the path leads to (without following a link at its end) is as it was; what is
    below is as it was or gone.  In particular links are not followed: what a link
    points to is not below it. *)
Theorem C19_confined :
  forall fs cwd fault ig dz p r w', good_fs fs -> honest fault ->
    p_rmtree ig dz p (start fs cwd fault) = (r, w') ->
    forall s q, In s (states w') ->
      look s q = look fs q \/ (look s q = None /\ exists R, leads fs cwd p R /\ below R q).
Proof. exact rmtree_confined. Qed.
Print Assumptions C19_confined.

(** When it returns without ignoring errors everything is gone. *)
Theorem C19_gone :
  forall fs cwd fault dz p w', good_fs fs -> honest fault ->
    p_rmtree false dz p (start fs cwd fault) = (Ok tt, w') ->
    exists R, leads fs cwd p R /\ forall q, below R q -> look (w_fs w') q = None.
Proof. exact rmtree_gone. Qed.
Print Assumptions C19_gone.

(** It ends, and the errors there can be (in particular the fuel is enough). *)
Theorem C19_errors :
  forall fs cwd fault ig dz p e w', good_fs fs -> honest fault ->
    p_rmtree ig dz p (start fs cwd fault) = (Err e, w') ->
    e = WillNotRemovePathError \/ e = KeyboardInterrupt \/ exists n, e = OSErr n.
Proof. exact rmtree_errors. Qed.
Print Assumptions C19_errors.

(** When no call fails and there is nothing to refuse it does remove the tree. *)
Theorem C19_removes :
  forall fs cwd fault ig dz R n w', good_fs fs -> (forall t, fault t = None) -> R <> [] ->
    look fs R = Some n -> (forall t, n <> ALink t) ->
    dz = ABool true \/
      ((2 <= length R)%nat /\ ~ (length R = 2%nat /\ In $"home" R) /\ is_dir_at fs cwd /\ ~ below R cwd) ->
    snd (p_rmtree ig dz (path_of R) (start fs cwd fault)) = w' ->
    fst (p_rmtree ig dz (path_of R) (start fs cwd fault)) = Ok tt /\
    (forall q, look (w_fs w') q = if is_prefix R q then None else look fs q) /\ w_fs w' = del fs R.
Proof. exact rmtree_removes'. Qed.
Print Assumptions C19_removes.

(** A tree with links to its inside and its outside. *)
Definition c19_fs : node :=
  Dir [] [($"home", Dir [] [($"u", Dir [] [($"t", Dir [] [($"out", Link $"/home/u/keep"); ($"d", Dir [] [($"f", File [] [])]);
                                                         ($"up", Link $".."); ($"in", Link $"d/f")]);
                                           ($"keep", Dir [] [($"f", File [] [])])])]);
          ($"a", Dir [] []); ($"l", Link $"home/u")].

Lemma c19_good : good_fs c19_fs.
Proof.
  split; [|now eexists _, _].
  repeat (constructor; [repeat constructor; cbn; intuition discriminate
    |cbn; intros ? H; repeat (destruct H as [<-|H]); try contradiction; repeat split; try discriminate; cbn; intuition discriminate
    |cbn; intros ? ? H; repeat (destruct H as [H|H]); try contradiction; injection H as <- <-; try apply good_link; try apply good_file]).
Qed.

Example C19_case :
  good_fs c19_fs /\
  let r := p_rmtree false (ABool false) (pp_parse $"/home/u/t") (start c19_fs [$"a"] (fun _ => None)) in
  fst r = Ok tt /\ length (states (snd r)) = 8%nat /\
  look (w_fs (snd r)) [$"home"; $"u"; $"t"] = None /\
  look (w_fs (snd r)) [$"home"; $"u"; $"keep"; $"f"] = Some (AFile [] []) /\
  (* the fifteenth call fails *)
  let r := p_rmtree true (ABool false) (pp_parse $"/l/t")
             (start c19_fs [$"a"] (fun t => if Nat.eqb t 15 then Some (OSErr EACCES) else None)) in
  fst r = Ok tt /\ look (w_fs (snd r)) [$"home"; $"u"; $"t"; $"out"] = None /\
  look (w_fs (snd r)) [$"home"; $"u"; $"t"; $"d"] = Some (ADir []).
Proof. split; [exact c19_good|]. now vm_compute. Qed.

(** ** C20 *)

(** Called by its own name, a protected place is not touched: for every file
    system, every value of the argument but [True], whatever calls fail. *)
Theorem C20_protected_partial :
  forall ig dz R w r w', dz <> ABool true -> protected (w_cwd w) R ->
    p_rmtree ig dz (path_of R) w = (r, w') ->
    untouched w w' /\ r <> Ok tt /\
    (no_fault w -> is_dir_at (w_fs w) (w_cwd w) -> r = Err WillNotRemovePathError).
Proof. exact rmtree_protected. Qed.
Print Assumptions C20_protected_partial.

(** Also refused by its text alone: *)
Theorem C20_text :
  forall ig dz p w, dz <> ABool true ->
    pp_abs p = false \/ (length (parts p) <= 2)%nat \/ ((length (parts p) <= 3)%nat /\ In $"home" (parts p)) ->
    p_rmtree ig dz p w = (Err WillNotRemovePathError, w).
Proof. exact rmtree_refuses'. Qed.
Print Assumptions C20_text.
(** relative paths even with [True] *)
Theorem C20_relative :
  forall ig dz p w, pp_abs p = false -> p_rmtree ig dz p w = (Err WillNotRemovePathError, w).
Proof. exact rmtree_relative. Qed.
Print Assumptions C20_relative.

(** The statement is false in general: the text is compared and not the place, so
    a home directory is removed by a path with ".." or by a link. *)
Theorem C20_home_refuted :
  exists fs cwd R p p', good_fs fs /\ is_dir_at fs cwd /\ protected cwd R /\
    leads fs cwd p R /\ leads fs cwd p' R /\
    let r := p_rmtree false (ABool false) p (start fs cwd (fun _ => None)) in
    let r' := p_rmtree false (ABool false) p' (start fs cwd (fun _ => None)) in
    fst r = Ok tt /\ look (w_fs (snd r)) R = None /\ fst r' = Ok tt /\ look (w_fs (snd r')) R = None.
Proof.
  exists (Dir [] (($"h", Link $"/home") :: match c19_fs with Dir _ es => es | _ => [] end)), [$"a"], [$"home"; $"u"],
    (pp_parse $"/home/u/../u"), (pp_parse $"/h/u").
  split; [|split; [now exists []|split; [right; left; now eexists|split; [now eexists|split; [now eexists|now vm_compute]]]]].
  destruct c19_good as [G _]. inversion G as [| |? ? A B C]; subst. split; [|now eexists _, _]. constructor.
  - cbn. constructor; [cbn; intuition discriminate|exact A].
  - cbn [map fst]. intros x [<-|H]; [repeat split; try discriminate; cbn; intuition discriminate|now apply B].
  - intros x c [H|H]; [injection H as <- <-; apply good_link|now apply (C x)].
Qed.
Print Assumptions C20_home_refuted.

(** and all that is in the root *)
Theorem C20_root_refuted :
  exists fs cwd p, good_fs fs /\ leads fs cwd p [] /\
    let r := p_rmtree false (ABool false) p (start fs cwd (fun _ => None)) in
    fst r <> Err WillNotRemovePathError /\ look (w_fs (snd r)) [$"home"] = None /\ is_dir_at fs [$"home"; $"u"; $"t"] /\
    get (w_fs (snd r)) [] = Some (Dir [] []).
Proof.
  exists (Dir [] [($"home", Dir [] [($"u", Dir [] [($"t", Dir [] [])])]); ($"z", Dir [] [])]), [$"z"], (pp_parse $"/z/..").
  split; [|split; [now eexists|vm_compute; split; [discriminate|split; [reflexivity|split; [now exists []|reflexivity]]]]].
  split; [|now eexists _, _].
  repeat (constructor; [repeat constructor; cbn; intuition discriminate
    |cbn; intros ? H; repeat (destruct H as [<-|H]); try contradiction; repeat split; try discriminate; cbn; intuition discriminate
    |cbn; intros ? ? H; repeat (destruct H as [H|H]); try contradiction; injection H as <- <-; try apply good_link; try apply good_file]).
Qed.
Print Assumptions C20_root_refuted.

Example C20_case :
  protected [$"a"] [$"home"; $"u"] /\ protected [$"a"] [] /\ AOther (PInt 1) <> ABool true /\
  p_rmtree true (AOther (PInt 1)) (pp_parse $"/home/u") (start c19_fs [$"a"] (fun _ => None))
    = (Err WillNotRemovePathError, start c19_fs [$"a"] (fun _ => None)) /\
  fst (p_rmtree true (ABool true) (pp_parse $"/home/u") (start c19_fs [$"a"] (fun _ => None))) = Ok tt.
Proof.
  split; [right; left; now eexists|]. split; [left; cbn; now repeat constructor|]. split; [discriminate|]. now vm_compute.
Qed.

(** ** C21 *)

(** When the tree is called by its own name: in every state of every run, whatever
    calls fail, all that is in the current directory and all directories that lead
    to it are as they were; without ignoring errors there is an error. *)
Theorem C21_cwd_stays_partial :
  forall fs cwd fault ig dz R r w', good_fs fs -> honest fault -> is_dir_at fs cwd -> below R cwd ->
    dz <> ABool true -> p_rmtree ig dz (path_of R) (start fs cwd fault) = (r, w') ->
    (forall s q, In s (states w') -> below cwd q \/ below q cwd -> look s q = look fs q) /\
    (ig = false -> r <> Ok tt).
Proof. exact rmtree_keeps_cwd'. Qed.
Print Assumptions C21_cwd_stays_partial.

(** When no call fails the refusal gets out, even when errors are ignored. *)
Theorem C21_refuses_partial :
  forall fs cwd fault ig dz R, good_fs fs -> (forall t, fault t = None) -> is_dir_at fs cwd -> below R cwd ->
    dz <> ABool true -> fst (p_rmtree ig dz (path_of R) (start fs cwd fault)) = Err WillNotRemovePathError.
Proof. exact rmtree_cwd_raises. Qed.
Print Assumptions C21_refuses_partial.

Example C21_case :
  let cwd := [$"home"; $"u"; $"t"; $"d"] in
  is_dir_at c19_fs cwd /\ below [$"home"; $"u"; $"t"] cwd /\
  let r := p_rmtree false (ABool false) (pp_parse $"/home/u/t") (start c19_fs cwd (fun _ => None)) in
  fst r = Err WillNotRemovePathError /\ look (w_fs (snd r)) [$"home"; $"u"; $"t"; $"out"] = None /\
  look (w_fs (snd r)) (cwd ++ [$"f"]) = Some (AFile [] []).
Proof. split; [now exists []|]. split; [exists [$"d"]; reflexivity|]. now vm_compute. Qed.

(** By another name the current directory is removed. *)
Theorem C21_alias_refuted :
  exists fs cwd p, good_fs fs /\ is_dir_at fs cwd /\ leads fs cwd p cwd /\
    let r := p_rmtree false (ABool false) p (start fs cwd (fun _ => None)) in
    fst r = Ok tt /\ look (w_fs (snd r)) cwd = None.
Proof.
  exists c19_fs, [$"home"; $"u"; $"t"], (pp_parse $"/l/t"). split; [exact c19_good|]. split; [now exists []|].
  split; [now eexists|]. now vm_compute.
Qed.
Print Assumptions C21_alias_refuted.
