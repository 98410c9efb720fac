(** * C32, C33: the current directory *)
From Coq Require Import String NArith ZArith Bool List.
From Verif Require Import Model.Py Model.PurePath Model.Fs Model.PathOps Model.Cwd Spec.FsSpec Spec.LoopSpec Spec.CwdSpec
  Proofs.CwdProofs.
Import ListNotations.

(** ** C32 *)

(** A balanced history comes back, with the stack it started with; or it stops at
    a push of something that is not a directory. *)
Theorem C32_balanced :
  forall l, balanced l -> forall stack w r stack' w', no_fault w -> good_fs (w_fs w) -> is_dir_at (w_fs w) (w_cwd w) ->
    history l stack w = (r, stack', w') ->
    (r = Ok tt /\ stack' = stack /\ moved (w_cwd w) w w') \/
    (r = Err (OSErr ENOTDIR) /\ w_fs w' = w_fs w /\ exists m, stack' = stack ++ m).
Proof. exact balanced_run. Qed.
Print Assumptions C32_balanced.

Theorem C32_pushd :
  forall p q stack w, no_fault w -> is_dir_at (w_fs w) (w_cwd w) -> dir_by (w_fs w) (w_cwd w) p q ->
    exists w', pushd p stack w = (Ok tt, stack ++ [path_of (w_cwd w)], w') /\ moved q w w'.
Proof. exact pushd_ok. Qed.
Print Assumptions C32_pushd.
Theorem C32_pushd_refuses :
  forall p stack w, no_fault w -> (forall q, ~ dir_by (w_fs w) (w_cwd w) p q) ->
    exists w', pushd p stack w = (Err (OSErr ENOTDIR), stack, w') /\ moved (w_cwd w) w w'.
Proof. exact (fun p stack w N Q => match pushd_not p stack w N Q with ex_intro _ w' (conj A B) => ex_intro _ w' (conj A (same_moved _ _ B)) end). Qed.
Print Assumptions C32_pushd_refuses.

(** [popd(n)] removes the entry with [n] entries on top of it and goes there. *)
Theorem C32_popd :
  forall n a e b q w, no_fault w -> length b = n -> dir_by (w_fs w) (w_cwd w) e q ->
    exists w', popd (Z.of_nat n) (a ++ e :: b) w = (Ok (Some e), a ++ b, w') /\ moved q w w'.
Proof. exact popd_ok. Qed.
Print Assumptions C32_popd.
Theorem C32_popd_short :
  forall n stack w, stack <> [] -> (length stack <= n)%nat -> popd (Z.of_nat n) stack w = (Err IndexError, stack, w).
Proof. exact popd_short. Qed.
Print Assumptions C32_popd_short.
Theorem C32_popd_empty : forall N w, popd N [] w = (Ok None, [], w).
Proof. exact popd_empty. Qed.
Print Assumptions C32_popd_empty.

Definition c32_fs : node :=
  Dir [] [($"a", Dir [] [($"b", Dir [] []); ($"f", File [] [])]); ($"l", Link $"a/b"); ($"c", Dir [] [])].
Example C32_case :
  balanced [Push (pp_parse $"a"); Push (pp_parse $"b"); Pop; Push (pp_parse $"/l"); Pop; Pop; Push (pp_parse $"c"); Pop] /\
  let w := start c32_fs [] (fun _ => None) in
  match history [Push (pp_parse $"a"); Push (pp_parse $"b"); Pop; Push (pp_parse $"/l"); Pop; Pop; Push (pp_parse $"c"); Pop] [pp_parse $"/c"] w with
  | (r, stack, w') => r = Ok tt /\ stack = [pp_parse $"/c"] /\ w_cwd w' = []
  end /\
  match history [Push (pp_parse $"a"); Push (pp_parse $"/l"); Pop] [] w with (_, stack, w') => stack = [pp_parse $"/"] /\ w_cwd w' = [$"a"] end /\
  dir_by c32_fs [$"c"] (pp_parse $"../l") [$"a"; $"b"] /\
  match popd 1 [pp_parse $"/l"; pp_parse $"/a"] w with (r, stack, w') => r = Ok (Some (pp_parse $"/l")) /\ stack = [pp_parse $"/a"] /\ w_cwd w' = [$"a"; $"b"] end.
Proof.
  split.
  - apply (bal_push _ [Push (pp_parse $"b"); Pop; Push (pp_parse $"/l"); Pop] [Push (pp_parse $"c"); Pop]).
    + apply (bal_push _ [] [Push (pp_parse $"/l"); Pop]); [apply bal_nil|]. apply (bal_push _ [] []); apply bal_nil.
    + apply (bal_push _ [] []); apply bal_nil.
  - split; [now vm_compute|]. split; [now vm_compute|]. split; [now eexists _, _|now vm_compute].
Qed.

(** When the directory cannot be entered (no permission, say) the push fails but
    the entry stays on the stack. *)
Theorem C32_failed_pushd_refuted :
  exists fs cwd p fault, good_fs fs /\ is_dir_at fs cwd /\ honest fault /\
    match pushd p [] (start fs cwd fault) with (r, stack, w') => r = Err (OSErr EACCES) /\ stack = [path_of cwd] /\ w_cwd w' = cwd end.
Proof.
  exists (Dir [] [($"a", Dir [] [])]), [], (pp_parse $"a"), (fun t => if Nat.eqb t 2 then Some (OSErr EACCES) else None).
  split; [|split; [now exists []|split; [|now vm_compute]]].
  - split; [|now eexists _, _].
    repeat (constructor; [repeat constructor; cbn; intuition discriminate
      |cbn; intros ? H; repeat (destruct H as [<-|H]); try contradiction; repeat split; try discriminate; cbn; intuition discriminate
      |cbn; intros ? ? H; repeat (destruct H as [H|H]); try contradiction; injection H as <- <-; try apply good_link; try apply good_file]).
  - intros t e H. destruct (Nat.eqb t 2); [|discriminate]. injection H as <-. right. eexists. split; [reflexivity|]. now repeat split.
Qed.
Print Assumptions C32_failed_pushd_refuted.

(** ** C33 *)

(** A block of a path or of a cache entered on a directory is left to the directory it was entered from,
    whatever was done inside and however the body ended, as long as the block's
    object is not used for another block inside and that directory is still there. *)
Theorem C33_restores :
  forall path_at cache o body s w q, no_fault w -> good_fs (w_fs w) -> is_dir_at (w_fs w) (w_cwd w) ->
    dir_by (w_fs w) (w_cwd w) (path_at o) q -> ~ uses o body ->
    exists s1 w1, moved q w w1 /\ forall r s2 w2, run path_at body s1 w1 = (r, s2, w2) ->
      no_fault w2 -> good_fs (w_fs w2) -> is_dir_at (w_fs w2) (w_cwd w) ->
      exists w3, run path_at (block cache o body) s w = (r, s2, w3) /\ moved (w_cwd w) w2 w3.
Proof. exact block_restores. Qed.
Print Assumptions C33_restores.

(** A path that is no directory and was not used before: the body is run where one is, and
    nothing else happens.  Of a cache that is no directory the body is not run: TypeError. *)
Theorem C33_no_dir :
  forall path_at o body s w, no_fault w -> (forall q, ~ dir_by (w_fs w) (w_cwd w) (path_at o) q) ->
    exists w1, moved (w_cwd w) w w1 /\
      (s o = None -> ~ uses o body -> run path_at (With o body) s w = run path_at body s w1) /\
      run path_at (WithCache o body) s w = (Err TypeError, s, w1).
Proof. exact no_dir_block. Qed.
Print Assumptions C33_no_dir.

Example C33_case :
  let path_at := fun o => match o with O => pp_parse $"/a" | S O => pp_parse $"b" | _ => pp_parse $"/l" end in
  let body := Seq (With 1 (WithCache 2 (Act (sys_chdir (pp_parse $"/c"))))) (Seq (Act (sys_mkdir (pp_parse $"b/new"))) (Act (raise KeyError))) in
  let w := start c32_fs [$"c"] (fun _ => None) in
  ~ uses 0 body /\ dir_by c32_fs [$"c"] (path_at 0%nat) [$"a"] /\
  match run path_at (With 0 body) (fun _ => None) w with (r, _, w') => r = Err KeyError /\ w_cwd w' = [$"c"] /\ is_dir_at (w_fs w') [$"a"; $"b"; $"new"] end /\
  (let f := fun _ : nat => pp_parse $"/a/f" in
   (forall q, ~ dir_by c32_fs [$"c"] (f 0%nat) q) /\
   fst (fst (run f (With 0 (Act (sys_mkdir (pp_parse $"new")))) (fun _ => None) w)) = Ok tt /\
   run f (WithCache 0 (Act (sys_mkdir (pp_parse $"new")))) (fun _ => None) w = (Err TypeError, fun _ => None, snd (p_is_dir (f 0%nat) w))).
Proof.
  split; [cbn; intuition discriminate|]. split; [now eexists _, _|]. split; [vm_compute; repeat split; now exists []|].
  split; [intros q (xs & es & E); vm_compute in E; discriminate E|]. split; vm_compute; reflexivity.
Qed.

(** The same object inside: the first directory is forgotten. *)
Theorem C33_nested_refuted :
  exists path_at fs cwd, good_fs fs /\ is_dir_at fs cwd /\
    match run path_at (With 0 (With 0 (Act (ret tt)))) (fun _ => None) (start fs cwd (fun _ => None)) with
    | (r, _, w') => r = Ok tt /\ w_cwd w' <> cwd
    end.
Proof.
  exists (fun _ => pp_parse $"/a"), (Dir [] [($"a", Dir [] [])]), []. split; [|split; [now exists []|vm_compute; split; [reflexivity|discriminate]]].
  split; [|now eexists _, _].
  repeat (constructor; [repeat constructor; cbn; intuition discriminate
    |cbn; intros ? H; repeat (destruct H as [<-|H]); try contradiction; repeat split; try discriminate; cbn; intuition discriminate
    |cbn; intros ? ? H; repeat (destruct H as [H|H]); try contradiction; injection H as <- <-; try apply good_link; try apply good_file]).
Qed.
Print Assumptions C33_nested_refuted.

(** An object that was once entered as a directory and is now used where it is
    none: the block ends in the directory of the earlier use. *)
Theorem C33_stale_refuted :
  exists path_at fs cwd, good_fs fs /\ is_dir_at fs cwd /\
    let p := Seq (With 0 (Act (ret tt))) (Seq (Act (sys_chdir (pp_parse $"/c"))) (With 0 (Act (ret tt)))) in
    match run path_at p (fun _ => None) (start fs cwd (fun _ => None)) with
    | (r, _, w') => r = Ok tt /\ w_cwd w' = cwd /\ cwd <> [$"c"]
    end.
Proof.
  exists (fun _ => pp_parse $"a"), (Dir [] [($"a", Dir [] []); ($"c", Dir [] [])]), []. split; [|split; [now exists []|vm_compute; now repeat split]].
  split; [|now eexists _, _].
  repeat (constructor; [repeat constructor; cbn; intuition discriminate
    |cbn; intros ? H; repeat (destruct H as [<-|H]); try contradiction; repeat split; try discriminate; cbn; intuition discriminate
    |cbn; intros ? ? H; repeat (destruct H as [H|H]); try contradiction; injection H as <- <-; try apply good_link; try apply good_file]).
Qed.
Print Assumptions C33_stale_refuted.
