(** * C91: all that is below a cache, whatever fails and whatever is here *)
From Coq Require Import String Strings.Byte NArith ZArith Bool List.
From Verif Require Import Model.Py Model.PurePath Model.Meta Model.MetaUpdate Model.Fs Model.PathOps Model.Cache Model.CacheChildren Model.RemoteInit Model.CacheRchildren
  Spec.FsSpec Spec.LoopSpec Spec.CopySpec Spec.CacheSpec Spec.DeepSpec Proofs.GoodFs Proofs.CacheLemmas Proofs.CacheFinal Proofs.DeepProofs Props.CacheProps Props.ChildrenProps.
Import ListNotations.

(** Going over all that is below a cache: at every moment, whatever fails, all that is not
    listed, nor below a listed file or link, nor at the names in the trash that go with what is
    listed, is as it was; the content of every listed file is there, or the file is in the
    trash.  Missing from the full statement: the order of the list, and a file keeps its content
    where nothing else listed goes with the same name in the trash. *)
Theorem C91_safe_partial :
  forall K A TR far fs cwd fault l r w',
    good_fs fs -> is_dir_at fs TR -> c_trash K = path_of TR ->
    (forall ps, In ps l -> proper_deep K far fs A TR ps) -> NoDup l -> in_order far A fs l ->
    honest fault -> (forall k, fault k <> Some (OSErr EEXIST)) ->
    cache_rchildren K (path_of A) far l (start fs cwd fault) = (r, w') ->
    forall s, In s (states w') ->
      (forall q, (forall ps, In ps l -> DeepSpec.aside K fs A TR ps q) -> look s q = look fs q) /\
      (forall ps d xs, In ps l -> look fs (A ++ ps) = Some (AFile d xs) ->
         (forall qs y, In qs l -> qs <> ps -> deep_trash K fs A ps y -> ~ deep_trash K fs A qs y) ->
         content s (A ++ ps) = Some d \/ exists y, deep_trash K fs A ps y /\ look s (TR ++ [y]) = Some (AFile d xs)).
Proof. exact deep_safe. Qed.
Print Assumptions C91_safe_partial.

(** When it ends without an error there is a path for each, in their order.  What was missing
    is there: a directory for a directory, a link for the rest.  Directories stay, and a file
    has the content of the other end where its metadata tells of a change, else its own. *)
Theorem C91_complete_partial :
  forall K A TR far fs cwd fault l qs w',
    good_fs fs -> is_dir_at fs TR -> c_trash K = path_of TR ->
    (forall ps, In ps l -> proper_deep K far fs A TR ps) -> NoDup l -> in_order far A fs l ->
    honest fault -> (forall k, fault k <> Some (OSErr EEXIST)) ->
    cache_rchildren K (path_of A) far l (start fs cwd fault) = (Ok qs, w') ->
    qs = map (fun ps => path_of (A ++ ps)) l /\
    (forall ps m, In ps l -> look fs (A ++ ps) = None -> k_metadata (far ps) = Ok (Some m) -> meta_bool m = true ->
      if r_is_dir (k_remote (far ps)) then is_dir_at (w_fs w') (A ++ ps) else exists t, look (w_fs w') (A ++ ps) = Some (ALink t)) /\
    (forall ps, In ps l -> is_dir_at fs (A ++ ps) -> is_dir_at (w_fs w') (A ++ ps)) /\
    (forall ps d xs om n b u, In ps l ->
      (forall w a v, k_refresh (far ps) (path_of (A ++ ps)) w = (Ok a, v) -> content (w_fs v) (A ++ ps) = Some (concat (r_chunks (k_remote (far ps))))) ->
      look fs (A ++ ps) = Some (AFile d xs) -> recorded K (last ps []) (Some (AFile d xs)) = Ok om -> k_metadata (far ps) = Ok n ->
      update_meta (c_dateparse K) om n = Ok (b, u) -> content (w_fs w') (A ++ ps) = Some (if b then concat (r_chunks (k_remote (far ps))) else d)).
Proof. exact deep_complete. Qed.
Print Assumptions C91_complete_partial.

(** A directory that is here with a file that changed and one not listed, a new directory with
    a new file, and a link. *)
Definition y_fs : node :=
  Dir [] [($"d", Dir [] [($"s", Dir [] [($"a", File [x20; x21] (k_attrs k_old)); ($"o", File [x10] [])])]); ($"trash", Dir [] [])].
Definition y_far (ps : list str) : kid :=
  let dir := h_kid (last ps []) (k_meta $"N:9" 1 1 PNone PNone) (c_remote k_dir) in
  match ps with
  | [_] => dir
  | [_; x] => if str_eqb x $"a" then h_kid x k_new h_sends else h_kid x (k_meta $"N:8" 1 1 PNone PNone) h_sends
  | _ => dir
  end.
Definition y_list : list (list str) := [[$"s"]; [$"t"]; [$"t"; $"n"]; [$"s"; $"a"]].
Definition y_run (fault : nat -> option exn) := cache_rchildren k_sends (path_of [$"d"]) y_far y_list (start y_fs [] fault).
Example C91_deep_case :
  good_fs y_fs /\ is_dir_at y_fs [$"trash"] /\ c_trash k_sends = path_of [$"trash"] /\
  (forall ps, In ps y_list -> proper_deep k_sends y_far y_fs [$"d"] [$"trash"] ps) /\ NoDup y_list /\ in_order y_far [$"d"] y_fs y_list /\
  honest k_none_fails /\ (forall k, k_none_fails k <> Some (OSErr EEXIST)) /\
  honest (k_fails (OSErr EIO) 30) /\
  fst (y_run k_none_fails) = Ok (map (fun ps => path_of ([$"d"] ++ ps)) y_list) /\
  content (w_fs (snd (y_run k_none_fails))) [$"d"; $"s"; $"a"] = Some [x30; x31; x32] /\
  content (w_fs (snd (y_run k_none_fails))) [$"trash"; $"N-1"] = Some [x20; x21] /\
  content (w_fs (snd (y_run k_none_fails))) [$"d"; $"s"; $"o"] = Some [x10] /\
  look (w_fs (snd (y_run k_none_fails))) [$"d"; $"t"; $"n"] = Some (ALink (k_link $"n" (k_meta $"N:8" 1 1 PNone PNone))) /\
  fst (y_run (k_fails (OSErr EIO) 30)) = Err (OSErr EIO) /\ is_dir_at (w_fs (snd (y_run (k_fails (OSErr EIO) 30)))) [$"d"; $"t"] /\
  content (w_fs (snd (y_run (k_fails (OSErr EIO) 30)))) [$"d"; $"s"; $"a"] = Some [x20; x21].
Proof.
  split; [now apply good_fs_b_ok|]. split; [eexists; vm_compute; reflexivity|]. split; [reflexivity|]. split.
  { intros c I. cbn in I. destruct I as [<-|[<-|[<-|[<-|[]]]]]; (split; [discriminate|]); (split; [repeat constructor; name_tac|]); (split; [intros (q & H); discriminate H|]); (split; [intros (q & H); discriminate H|]);
      (split; [intros t H; discriminate H|]); (split; [intros m i R E; vm_compute in R; try discriminate R; injection R as <-; injection E as <-; cbn; name_tac|]);
      (split; [intros m H; injection H as <-; discriminate|]); apply confined_raise. }
  split; [repeat constructor; cbn; intuition discriminate|]. split.
  { intros pre ps post E. unfold y_list in E.
    destruct pre as [|p0 pre]; [injection E as <- <-; left; eexists; reflexivity|].
    destruct pre as [|p1 pre]; [injection E as <- <- <-; left; eexists; reflexivity|].
    destruct pre as [|p2 pre]; [injection E as <- <- <- <-; right; split; [right; now left|split; [reflexivity|split; [reflexivity|eexists; split; reflexivity]]]|].
    destruct pre as [|p3 pre]; [injection E as <- <- <- <- <-; left; eexists; reflexivity|].
    destruct pre; discriminate E. }
  split; [intros t e H; discriminate H|]. split; [discriminate|]. split; [honest_tac|].
  repeat (split; [vm_compute; reflexivity|]). split; [eexists; vm_compute; reflexivity|vm_compute; reflexivity].
Qed.
