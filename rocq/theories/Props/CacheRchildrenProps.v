(** * C91: all that is below a cache comes to be here *)
From Coq Require Import String Strings.Byte NArith ZArith Bool List Lia.
From Verif Require Import Model.Py Model.PurePath Model.Meta Model.Fs Model.Cache Model.CacheChildren Model.MkdirRemote Model.RemoteInit Model.CacheRchildren
  Spec.FsSpec Spec.LoopSpec Spec.MetaSpec Spec.XattrSpec Spec.CacheSpec Spec.MkdirCacheSpec Spec.MkdirRemoteSpec Spec.RemoteInitSpec Spec.CacheRchildrenSpec
  Proofs.GoodFs Proofs.CacheLemmas Proofs.RchildrenProofs Props.CacheProps Props.MkdirCacheProps Props.MkdirRemoteProps Props.RemoteInitProps.
Import ListNotations.

(** When the remote lists directories before what is in them, and nothing of it is here yet:
    each comes to be here at its names, with its metadata, in the order listed, and nothing else
    is different.  Missing from the full statement: other orders, see below. *)
Theorem C91_first_partial :
  forall K A far l fs cwd,
    prefix_ok (c_prefix K) -> NoDup l -> (forall ps, In ps l -> proper far ps /\ look fs (A ++ ps) = None) -> outer_first far A fs l -> good_fs fs ->
    exists w', cache_rchildren K (path_of A) far l (start fs cwd (fun _ => None)) = (Ok (map (fun ps => path_of (A ++ ps)) l), w') /\
      (forall ps, In ps l -> stands K far A (w_fs w') ps) /\
      forall q, (forall ps, In ps l -> q <> A ++ ps) -> look (w_fs w') q = look fs q.
Proof. exact (fun K A far l fs cwd P => all_here K P A far l fs cwd). Qed.
Print Assumptions C91_first_partial.

(** A directory before the missing one that it is in: FileNotFoundError, after all that was
    listed before it is here, and nothing of the rest. *)
Theorem C91_inner_first_refuted :
  forall K A far l ps r k fs cwd,
    prefix_ok (c_prefix K) -> NoDup l -> (forall qs, In qs l -> proper far qs /\ look fs (A ++ qs) = None) -> outer_first far A fs l -> good_fs fs ->
    Forall good_name ps -> first_there fs A ps k -> ~ In (firstn (S k) ps) l -> S k < length ps -> (exists a, far_dir (far ps) a) ->
    exists w', cache_rchildren K (path_of A) far (l ++ ps :: r) (start fs cwd (fun _ => None)) = (Err (OSErr ENOENT), w') /\
      (forall qs, In qs l -> stands K far A (w_fs w') qs) /\
      forall q, (forall qs, In qs l -> q <> A ++ qs) -> look (w_fs w') q = look fs q.
Proof. exact (fun K A far l ps r k fs cwd P => some_here K P A far l ps r k fs cwd). Qed.
Print Assumptions C91_inner_first_refuted.

Definition r_run (l : list (list str)) := cache_rchildren k_sends (path_of [$"d"]) i_far l (start i_fs [] (fun _ => None)).

(** A file before the directory it is in: no error, but when the directory's turn comes it is
    there already, without metadata; then it is given some.  Never listed, it stays without. *)
Theorem C91_bare_refuted :
  fst (r_run [[$"a"; $"f"]]) = Ok [path_of [$"d"; $"a"; $"f"]] /\
  look (w_fs (snd (r_run [[$"a"; $"f"]]))) [$"d"; $"a"] = Some (ADir []) /\
  fst (r_run [[$"a"; $"f"]; [$"a"]]) = Ok [path_of [$"d"; $"a"; $"f"]; path_of [$"d"; $"a"]] /\
  d_id (w_fs (snd (r_run [[$"a"; $"f"]; [$"a"]]))) [$"d"; $"a"] = Ok (PStr $"N:21").
Proof. repeat (split; [now vm_compute|]). now vm_compute. Qed.
Print Assumptions C91_bare_refuted.

Definition r_list : list (list str) := [[$"a"]; [$"a"; $"f"]; [$"f"]; [$"a"; $"b"]].
Lemma r_dir ps i : r_is_dir (k_remote (i_far ps)) = true -> k_metadata (i_far ps) = Ok (Some (e_meta i)) -> i <> [] -> forallb (fun c => (c <? 128)%N) i = true -> far_dir (i_far ps) (d_args i).
Proof. intros D E N H. split; [exact D|]. eexists. split; [exact E|]. now apply e_told. Qed.

Example C91_case :
  prefix_ok (c_prefix k_sends) /\ NoDup r_list /\ (forall ps, In ps r_list -> proper i_far ps /\ look i_fs ([$"d"] ++ ps) = None) /\
  outer_first i_far [$"d"] i_fs r_list /\ good_fs i_fs /\ first_there i_fs [$"d"] [$"b"; $"c"] 0 /\ ~ In (firstn 1 [$"b"; $"c"]) r_list /\
  (exists a, far_dir (i_far [$"b"; $"c"]) a) /\
  fst (r_run r_list) = Ok (map (fun ps => path_of ([$"d"] ++ ps)) r_list) /\
  fst (r_run (r_list ++ [[$"b"; $"c"]; [$"b"]])) = Err (OSErr ENOENT) /\
  d_id (w_fs (snd (r_run r_list))) [$"d"; $"a"; $"b"] = Ok (PStr $"N:22").
Proof.
  assert (T : typed (d_args $"N:21") /\ typed (d_args $"N:22")) by (apply (conj (proj1 (proj2 (e_told $"N:21" ltac:(discriminate) eq_refl))) (proj1 (proj2 (e_told $"N:22" ltac:(discriminate) eq_refl))))).
  assert (Lk : forall i, lacks "|" i -> lacks "!" i -> i <> [] -> i <> $"#" -> link_safe (d_args i)).
  { intros i L1 L2 L3 L4 f. destruct f; try exact I; cbn; [exact (conj L3 (conj L4 (conj L1 L2)))|]. split; [discriminate|intros ? []]. }
  split; [intros c I; left; repeat (destruct I as [<-|I]; [reflexivity|]); destruct I|]. split.
  { repeat constructor; cbn; intuition discriminate. }
  split.
  { intros ps I. cbn in I. destruct I as [<-|[<-|[<-|[<-|[]]]]]; (split; [split; [discriminate|]; split; [repeat constructor; name_tac|]|reflexivity]).
    - left. exists (d_args $"N:21"). apply r_dir; [reflexivity|vm_compute; reflexivity|discriminate|reflexivity].
    - right. exists (d_args $"N:22"). split; [reflexivity|]. split; [reflexivity|]. exists (e_meta $"N:22"). split; [vm_compute; reflexivity|]. split; [vm_compute; reflexivity|].
      split; [exact (proj2 T)|]. split; [apply Lk; [intro J; cbn in J; intuition discriminate|intro J; cbn in J; intuition discriminate|discriminate|discriminate]|discriminate].
    - right. exists (d_args $"N:21"). split; [reflexivity|]. split; [reflexivity|]. exists (e_meta $"N:21"). split; [vm_compute; reflexivity|]. split; [vm_compute; reflexivity|].
      split; [exact (proj1 T)|]. split; [apply Lk; [intro J; cbn in J; intuition discriminate|intro J; cbn in J; intuition discriminate|discriminate|discriminate]|discriminate].
    - left. exists (d_args $"N:22"). apply r_dir; [reflexivity|vm_compute; reflexivity|discriminate|reflexivity]. }
  split.
  { assert (Da : exists a, far_dir (i_far [$"a"]) a) by (exists (d_args $"N:21"); apply r_dir; [reflexivity|vm_compute; reflexivity|discriminate|reflexivity]).
    intros pre ps post E. unfold r_list in E.
    destruct pre as [|p0 pre]; [injection E as <- <-; left; eexists; reflexivity|].
    destruct pre as [|p1 pre]; [injection E as <- <- <-; right; split; [now left|exact Da]|].
    destruct pre as [|p2 pre]; [injection E as <- <- <- <-; left; eexists; reflexivity|].
    destruct pre as [|p3 pre]; [injection E as <- <- <- <- <-; right; split; [now left|exact Da]|].
    destruct pre; discriminate E. }
  split; [now apply good_fs_b_ok|]. split; [split; [cbn; lia|]; split; [eexists; reflexivity|reflexivity]|].
  split; [cbn; intuition discriminate|]. split; [exists (d_args $"N:22"); apply r_dir; [reflexivity|vm_compute; reflexivity|discriminate|reflexivity]|].
  repeat (split; [now vm_compute|]). now vm_compute.
Qed.
