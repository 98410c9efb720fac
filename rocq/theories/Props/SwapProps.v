(** * C23, C24: exchange of two paths *)
From Coq Require Import String Strings.Byte NArith ZArith Bool List.
From Verif Require Import Model.Py Model.PurePath Model.Fs Model.PathOps Model.Swap Spec.FsSpec Spec.LoopSpec Spec.SwapSpec Spec.XattrSpec
  Proofs.GoodFs Proofs.SwapProofs Proofs.SwapLive.
Import ListNotations.

(** ** C23 *)

(** Whatever calls fail, and wherever it stops: both trees are somewhere, whole. *)
Theorem C23_nothing_lost :
  forall names A B fs cwd fault r w', good_fs fs -> A <> [] -> B <> [] -> look fs A <> None -> look fs B <> None ->
    apart A B -> Forall good_name names -> p_swap_carefree names (path_of A) (path_of B) (start fs cwd fault) = (r, w') ->
    forall s, In s (states w') -> both_there fs A B s.
Proof. exact swap_carefree_states. Qed.
Print Assumptions C23_nothing_lost.

(** When it returns they are exchanged and all else is as it was. *)
Theorem C23_exchanges :
  forall names A B fs cwd fault w', good_fs fs -> A <> [] -> B <> [] -> look fs A <> None -> look fs B <> None ->
    apart A B -> Forall good_name names -> p_swap_carefree names (path_of A) (path_of B) (start fs cwd fault) = (Ok tt, w') ->
    exchanged fs A B (w_fs w').
Proof. exact swap_carefree_ok. Qed.
Print Assumptions C23_exchanges.

(** It returns when no call fails and one of the temporary names is free. *)
Theorem C23_returns :
  forall names A B fs cwd r w' x, good_fs fs -> A <> [] -> B <> [] -> look fs A <> None -> look fs B <> None ->
    apart A B -> Forall good_name names -> In x names -> look fs (removelast B ++ [x]) = None ->
    p_swap_carefree names (path_of A) (path_of B) (start fs cwd (fun _ => None)) = (r, w') -> r = Ok tt.
Proof. exact swap_carefree_works. Qed.
Print Assumptions C23_returns.

(** The target is a broken link, so that it comes to the fallback; then the same
    with a failure of the last rename; then renameat2 is missing. *)
Definition c23_fs : node :=
  Dir [] [($"a", Dir [] [($"f", File [x01] []); ($"l", Link $"gone")]); ($"d", Dir [] [($"b", Link $"nowhere"); ($"t1", File [] [])])].
Example C23_case :
  good_fs c23_fs /\ look c23_fs [$"a"] <> None /\ look c23_fs [$"d"; $"b"] <> None /\ apart [$"a"] [$"d"; $"b"] /\
  Forall good_name [$"t1"; $"t2"] /\ look c23_fs (removelast [$"d"; $"b"] ++ [$"t2"]) = None /\
  let w := start c23_fs [] (fun _ => None) in
  match p_swap_carefree [$"t1"; $"t2"] (path_of [$"a"]) (path_of [$"d"; $"b"]) w with
  | (r, w') => r = Ok tt /\ length (states w') = 7%nat /\ look (w_fs w') [$"a"] = Some (ALink $"nowhere") /\
      look (w_fs w') [$"d"; $"b"; $"f"] = Some (AFile [x01] []) /\ look (w_fs w') [$"d"; $"t2"] = None
  end /\
  let w := start c23_fs [] (fun t => match t with 6%nat => Some (OSErr EIO) | _ => None end) in
  match p_swap_carefree [$"t1"; $"t2"] (path_of [$"a"]) (path_of [$"d"; $"b"]) w with
  | (r, w') => r = Err (OSErr EIO) /\ look (w_fs w') [$"d"; $"t2"; $"b"] = Some (ALink $"nowhere") /\ look (w_fs w') [$"d"; $"b"; $"f"] = Some (AFile [x01] [])
  end /\
  let w := start c23_fs [] (fun t => match t with 6%nat => Some (OSErr EINVAL) | _ => None end) in
  match p_swap_carefree [$"t1"; $"t2"] (path_of [$"a"]) (path_of [$"d"; $"t1"]) w with
  | (r, w') => r = Ok tt /\ length (states w') = 7%nat /\ look (w_fs w') [$"a"] = Some (AFile [] [])
  end.
Proof.
  split; [now apply good_fs_b_ok|]. split; [discriminate|]. split; [discriminate|].
  split; [split; intros [r H]; discriminate H|].
  split; [repeat (constructor; [now apply good_name_b_ok|]); constructor|]. split; [reflexivity|].
  vm_compute. repeat split.
Qed.

(** For relative paths [swap] starts at the paths themselves (swap.py:38-41 give
    the descriptors of the paths as the directories): what is exchanged is in
    them. *)
Theorem C23_relative_refuted :
  exists fs, good_fs fs /\ look fs [$"a"] <> None /\ look fs [$"b"] <> None /\ apart [$"a"] [$"b"] /\
    match p_swap_carefree [$"t"] (pp_parse $"a") (pp_parse $"b") (start fs [] (fun _ => None)) with
    | (r, w') => r = Ok tt /\ look (w_fs w') [$"a"; $"x"] = look fs [$"a"; $"x"] /\ look fs [$"a"; $"x"] <> None /\
        ~ exchanged fs [$"a"] [$"b"] (w_fs w') /\ look (w_fs w') [$"a"; $"a"] = look fs [$"b"; $"b"] /\ w_fs w' <> fs
    end.
Proof.
  exists (Dir [] [($"a", Dir [] [($"a", File [x01] []); ($"x", File [x03] [])]); ($"b", Dir [] [($"b", File [x02] [])])]).
  split; [now apply good_fs_b_ok|]. split; [discriminate|]. split; [discriminate|].
  split; [split; intros [r H]; discriminate H|].
  vm_compute. split; [reflexivity|]. split; [reflexivity|]. split; [discriminate|]. split; [|split; [reflexivity|discriminate]].
  intros (H & _). specialize (H [$"x"]). vm_compute in H. discriminate.
Qed.
Print Assumptions C23_relative_refuted.

(** ** C24 *)

(** [swap] itself: when it raises nothing has changed at any time. *)
Theorem C24_swap :
  forall self target fs cwd fault e w', p_swap self target (start fs cwd fault) = (Err e, w') -> forall s, In s (states w') -> s = fs.
Proof. exact swap_atomic_fs. Qed.
Print Assumptions C24_swap.

(** When it returns both are exchanged, in one step. *)
Theorem C24_swap_exchanges :
  forall A B fs cwd fault w', good_fs fs -> A <> [] -> B <> [] -> look fs A <> None -> look fs B <> None -> apart A B ->
    p_swap (path_of A) (path_of B) (start fs cwd fault) = (Ok tt, w') ->
    exchanged fs A B (w_fs w') /\ forall s, In s (states w') -> s = fs \/ s = w_fs w'.
Proof. exact swap_returned. Qed.
Print Assumptions C24_swap_exchanges.

(** It returns when no call fails, both lead to something and are spelled in UTF-8. *)
Theorem C24_swap_returns :
  forall A B fs cwd, good_fs fs -> A <> [] -> B <> [] -> look fs A <> None -> look fs B <> None -> apart A B ->
    reaches fs cwd (path_of A) -> reaches fs cwd (path_of B) -> encodable (pp_str (path_of A)) -> encodable (pp_str (path_of B)) ->
    exists w', p_swap (path_of A) (path_of B) (start fs cwd (fun _ => None)) = (Ok tt, w') /\ exchanged fs A B (w_fs w') /\
      forall s, In s (states w') -> s = fs \/ s = w_fs w'.
Proof. exact swap_works. Qed.
Print Assumptions C24_swap_returns.

(** A path that is not UTF-8 is never exchanged by [swap]. *)
Theorem C24_swap_spelled_refuted :
  forall p q fs cwd, reaches fs cwd p -> reaches fs cwd q -> ~ encodable (pp_str p) \/ ~ encodable (pp_str q) ->
    exists w', p_swap p q (start fs cwd (fun _ => None)) = (Err UnicodeError, w') /\ forall s, In s (states w') -> s = fs.
Proof. exact swap_spelled. Qed.
Print Assumptions C24_swap_spelled_refuted.

(** A link to a directory and a file, exchanged; and a name with the byte 255. *)
Definition c24_fs : node := Dir [] [($"a", Link $"/d"); ($"d", Dir [] [($"b", File [x02] []); ([56575%N], File [x03] [])])].
Example C24_swap_case :
  good_fs c24_fs /\ apart [$"a"] [$"d"; $"b"] /\ reaches c24_fs [] (path_of [$"a"]) /\ reaches c24_fs [] (path_of [$"d"; $"b"]) /\
  reaches c24_fs [] (path_of [$"d"; [56575%N]]) /\ encodable (pp_str (path_of [$"d"; $"b"])) /\ ~ encodable (pp_str (path_of [$"d"; [56575%N]])) /\
  let (r, w') := p_swap (path_of [$"a"]) (path_of [$"d"; $"b"]) (start c24_fs [] (fun _ => None)) in
  r = Ok tt /\ look (w_fs w') [$"d"; $"b"] = Some (ALink $"/d") /\ look (w_fs w') [$"a"] = Some (AFile [x02] []) /\
  fst (p_swap (path_of [$"a"]) (path_of [$"d"; $"b"]) (start c24_fs [] (fun t => match t with 6%nat => Some (OSErr EINVAL) | _ => None end))) = Err (OSErr EIO).
Proof.
  split; [now apply good_fs_b_ok|]. split; [split; intros [r H]; discriminate H|].
  split; [do 2 eexists; vm_compute; reflexivity|]. split; [do 2 eexists; vm_compute; reflexivity|]. split; [do 2 eexists; vm_compute; reflexivity|].
  split; [|split].
  - intros c I. left. vm_compute in I. repeat (destruct I as [<-|I]; [reflexivity|]). destruct I.
  - intro H. destruct (H 56575%N) as [K|[K _]]; [vm_compute; auto|now vm_compute in K|now vm_compute in K].
  - vm_compute. repeat split.
Qed.

(** [swap_carefree]: when both exist, apart from each other, and no call fails by
    itself. *)
Theorem C24_partial :
  forall names A B fs cwd e w', good_fs fs -> A <> [] -> B <> [] -> look fs A <> None -> look fs B <> None ->
    apart A B -> Forall good_name names ->
    p_swap_carefree names (path_of A) (path_of B) (start fs cwd (fun _ => None)) = (Err e, w') ->
    forall s, In s (states w') -> s = fs.
Proof. exact swap_carefree_raises. Qed.
Print Assumptions C24_partial.

Example C24_case :
  fst (p_swap_carefree [$"t1"] (path_of [$"a"]) (path_of [$"d"; $"b"]) (start c23_fs [] (fun _ => None))) = Err (OSErr EEXIST) /\
  fst (p_swap (pp_parse $"/a") (pp_parse $"d/b") (start c23_fs [] (fun _ => None))) = Err (OSErr ENOENT) /\
  fst (p_swap (pp_parse $"/a") (pp_parse $"/d/t1") (start c23_fs [] (fun t => match t with 6%nat => Some KeyboardInterrupt | _ => None end))) = Err KeyboardInterrupt.
Proof. vm_compute. repeat split. Qed.

(** Not so in general, without any call that fails by itself: when [self] does
    not exist, or is in [target], the target is left in a temporary directory. *)
Theorem C24_refuted :
  exists fs, good_fs fs /\
    (forall self, In self [pp_parse $"/missing"; pp_parse $"/d/b/c"] ->
       match p_swap_carefree [$"t"] self (pp_parse $"/d/b") (start fs [] (fun _ => None)) with
       | (r, w') => r = Err (OSErr ENOENT) /\ look fs [$"d"; $"b"; $"c"] = Some (AFile [x01] []) /\
           look (w_fs w') [$"d"; $"b"] = None /\ look (w_fs w') [$"d"; $"t"; $"b"; $"c"] = Some (AFile [x01] [])
       end).
Proof.
  exists (Dir [] [($"d", Dir [] [($"b", Dir [] [($"c", File [x01] [])])])]). split; [now apply good_fs_b_ok|].
  intros self [<-|[<-|[]]]; vm_compute; now repeat split.
Qed.
Print Assumptions C24_refuted.
(** When the target does not exist, a temporary directory is left. *)
Theorem C24_target_refuted :
  exists fs, good_fs fs /\
    match p_swap_carefree [$"t"] (pp_parse $"/a") (pp_parse $"/b") (start fs [] (fun _ => None)) with
    | (r, w') => r = Err (OSErr ENOENT) /\ look fs [$"t"] = None /\ look (w_fs w') [$"t"] = Some (ADir [])
    end.
Proof. exists (Dir [] [($"a", File [] [])]). split; [now apply good_fs_b_ok|]. vm_compute. now repeat split. Qed.
Print Assumptions C24_target_refuted.
(** When a rename fails the target is left in the temporary directory. *)
Theorem C24_fault_refuted :
  exists t, match p_swap_carefree [$"t2"] (path_of [$"a"]) (path_of [$"d"; $"b"])
    (start c23_fs [] (fun k => if Nat.eqb k t then Some (OSErr EIO) else None)) with
    | (r, w') => r = Err (OSErr EIO) /\ look c23_fs [$"d"; $"b"] <> None /\ look (w_fs w') [$"d"; $"b"] = None
    end.
Proof. exists 4%nat. vm_compute. split; [reflexivity|]. split; [discriminate|reflexivity]. Qed.
Print Assumptions C24_fault_refuted.
