(** * C64: the children of a cache *)
From Coq Require Import String Strings.Byte NArith ZArith Bool List.
From Verif Require Import Model.Py Model.PurePath Model.Meta Model.MetaUpdate Model.Fs Model.PathOps Model.Cache Model.CacheChildren
  Spec.FsSpec Spec.LoopSpec Spec.CopySpec Spec.CacheSpec Spec.CacheChildrenSpec Proofs.GoodFs Proofs.CacheLemmas Proofs.CacheFinal Proofs.ChildrenProofs Props.CacheProps.
Import ListNotations.

(** Going over the children of a cache: at every moment, whatever fails, all that is not
    at a child or at the names in the trash that go with it is as it was; the content of
    every file that was at a child is there, or the file is in the trash.  What is missing:
    the children have distinct names that are file names, and a file keeps its content
    where no other child goes with the same name in the trash. *)
Theorem C64_children_partial :
  forall K D TR fs cwd fault kids r w',
    good_fs fs -> is_dir_at fs D -> is_dir_at fs TR -> c_trash K = path_of TR ->
    (forall c, In c kids -> proper_kid K fs D TR c) -> NoDup (map k_name kids) ->
    honest fault -> (forall k, fault k <> Some (OSErr EEXIST)) ->
    cache_children K (path_of D) kids (start fs cwd fault) = (r, w') ->
    forall s, In s (states w') ->
      (forall q, (forall c, In c kids -> elsewhere K fs D TR c q) -> look s q = look fs q) /\
      (forall c d xs, In c kids -> look fs (kid_at D c) = Some (AFile d xs) ->
         (forall c' y, In c' kids -> k_name c' <> k_name c -> kid_trash K fs D c y -> ~ kid_trash K fs D c' y) ->
         content s (kid_at D c) = Some d \/ exists y, kid_trash K fs D c y /\ look s (TR ++ [y]) = Some (AFile d xs)).
Proof. exact children_safe. Qed.
Print Assumptions C64_children_partial.

(** When it ends without an error there is a path for each child, in their order.  A child
    that was not there is: a directory for a directory, a link for the rest.  A file has the
    content of the other end where the metadata tells of a change, its own where not. *)
Theorem C64_complete :
  forall K D TR fs cwd fault kids ps w',
    good_fs fs -> is_dir_at fs D -> is_dir_at fs TR -> c_trash K = path_of TR ->
    (forall c, In c kids -> proper_kid K fs D TR c) -> NoDup (map k_name kids) ->
    honest fault -> (forall k, fault k <> Some (OSErr EEXIST)) ->
    cache_children K (path_of D) kids (start fs cwd fault) = (Ok ps, w') ->
    ps = map (fun c => path_of (kid_at D c)) kids /\
    (forall c m, In c kids -> look fs (kid_at D c) = None -> k_metadata c = Ok (Some m) -> meta_bool m = true ->
      if r_is_dir (k_remote c) then exists xs, look (w_fs w') (kid_at D c) = Some (ADir xs) else exists t, look (w_fs w') (kid_at D c) = Some (ALink t)) /\
    (forall c d xs om n b u, In c kids ->
      (forall w a v, k_refresh c (path_of (kid_at D c)) w = (Ok a, v) -> content (w_fs v) (kid_at D c) = Some (concat (r_chunks (k_remote c)))) ->
      look fs (kid_at D c) = Some (AFile d xs) -> recorded K (k_name c) (Some (AFile d xs)) = Ok om -> k_metadata c = Ok n ->
      update_meta (c_dateparse K) om n = Ok (b, u) -> content (w_fs w') (kid_at D c) = Some (if b then concat (r_chunks (k_remote c)) else d)).
Proof. exact children_complete. Qed.
Print Assumptions C64_complete.

(** Two children whose ids are the same once they were made safe: of two files the content
    of the first is gone, nothing having failed. *)
Definition h_kid (x : str) (m : pathmeta) (r : remote) : kid := mkKid x (Ok (Some m)) (pp_parse $"/objects") r (fun _ => raise NotImplementedExn).
Definition h_sends : remote := c_remote k_sends.
Definition h_second (upd : N) (size : Z) (sum : pyval) : pathmeta := k_meta $"N-1" upd size sum PNone.
Definition h_fs : node :=
  Dir [] [($"d", Dir [] [($"a", File [x20; x21] (k_attrs k_old)); ($"b", File [x22; x23] (k_attrs (h_second 1 2 (PBytes [x01; x23; x22]))))]); ($"trash", Dir [] [])].
Definition h_kids : list kid := [h_kid $"a" k_new h_sends; h_kid $"b" (h_second 2 3 (PBytes [x01; x32; x31; x30])) h_sends].
Theorem C64_collision_refuted :
  exists ps w', good_fs h_fs /\ (forall c, In c h_kids -> proper_kid k_sends h_fs [$"d"] [$"trash"] c) /\ NoDup (map k_name h_kids) /\
    cache_children k_sends (path_of [$"d"]) h_kids (start h_fs [] k_none_fails) = (Ok ps, w') /\
    content h_fs [$"d"; $"a"] = Some [x20; x21] /\ forall q, content (w_fs w') q <> Some [x20; x21].
Proof.
  eexists _, _. split; [now apply good_fs_b_ok|]. split.
  { intros c [<-|[<-|[]]]; (split; [name_tac|]); (split; [intros (q & H); discriminate H|]); (split; [intros (q & H); discriminate H|]);
      (split; [intros t H; discriminate H|]); (split; [intros m i R E; vm_compute in R; injection R as <-; injection E as <-; cbn; name_tac|]);
      (split; [intros m H; injection H as <-; discriminate|]); apply confined_raise. }
  split; [constructor; [intros [H|[]]; discriminate H|constructor; [intros []|constructor]]|].
  split; [vm_compute; reflexivity|]. split; [reflexivity|]. apply no_content. vm_compute. reflexivity.
Qed.
Print Assumptions C64_collision_refuted.

(** A name that is a path: metadata and content come to be outside of the directory. *)
Definition h_out : node :=
  Dir [] [($"d", Dir [] []); ($"o", File [x20; x21] (k_attrs k_old)); ($"trash", Dir [] [])].
Theorem C64_escape_refuted :
  exists ps w', good_fs h_out /\
    cache_children k_sends (path_of [$"d"]) [h_kid $"../o" k_new h_sends] (start h_out [] k_none_fails) = (Ok ps, w') /\
    content h_out [$"o"] = Some [x20; x21] /\ content (w_fs w') [$"o"] = Some [x30; x31; x32] /\ look (w_fs w') [$"d"] = look h_out [$"d"].
Proof.
  eexists _, _. split; [now apply good_fs_b_ok|]. split; [vm_compute; reflexivity|]. split; [reflexivity|]. split; vm_compute; reflexivity.
Qed.
Print Assumptions C64_escape_refuted.

(** A file that changed, a new file and a new directory; then one that breaks off. *)
Definition h_more : list kid :=
  [h_kid $"a" k_new h_sends; h_kid $"n" (k_meta $"N:8" 1 1 PNone PNone) h_sends; h_kid $"s" (k_meta $"N:9" 1 1 PNone PNone) (c_remote k_dir)].
Example C64_case :
  let fs := k_fs in let kids := h_more in
  good_fs fs /\ is_dir_at fs [$"d"] /\ is_dir_at fs [$"trash"] /\ c_trash k_sends = path_of [$"trash"] /\
  (forall c, In c kids -> proper_kid k_sends fs [$"d"] [$"trash"] c) /\ NoDup (map k_name kids) /\ honest k_none_fails /\
  (forall k, k_none_fails k <> Some (OSErr EEXIST)) /\
  (let r := cache_children k_sends (path_of [$"d"]) kids (start fs [] k_none_fails) in
   fst r = Ok [path_of [$"d"; $"a"]; path_of [$"d"; $"n"]; path_of [$"d"; $"s"]] /\
   content (w_fs (snd r)) [$"d"; $"a"] = Some [x30; x31; x32] /\ content (w_fs (snd r)) [$"trash"; $"N-1"] = Some [x20; x21] /\
   look (w_fs (snd r)) [$"d"; $"n"] = Some (ALink (k_link $"n" (k_meta $"N:8" 1 1 PNone PNone))) /\
   is_dir_at (w_fs (snd r)) [$"d"; $"s"] /\ look (w_fs (snd r)) [$"d"; $"l"] = look fs [$"d"; $"l"]) /\
  (let r := cache_children k_sends (path_of [$"d"]) [h_kid $"n" (k_meta $"N:8" 1 1 PNone PNone) h_sends; h_kid $"a" k_new (c_remote k_breaks)] (start fs [] k_none_fails) in
   fst r = Err (OSErr EIO) /\ look (w_fs (snd r)) [$"d"; $"a"] = look fs [$"d"; $"a"] /\
   look (w_fs (snd r)) [$"d"; $"n"] = Some (ALink (k_link $"n" (k_meta $"N:8" 1 1 PNone PNone)))).
Proof.
  cbv zeta. split; [now apply good_fs_b_ok|]. split; [eexists; vm_compute; reflexivity|]. split; [eexists; vm_compute; reflexivity|]. split; [reflexivity|]. split.
  { intros c [<-|[<-|[<-|[]]]]; (split; [name_tac|]); (split; [intros (q & H); discriminate H|]); (split; [intros (q & H); discriminate H|]);
      (split; [intros t H; discriminate H|]); (split; [intros m i R E; vm_compute in R; try discriminate R; injection R as <-; injection E as <-; cbn; name_tac|]);
      (split; [intros m H; injection H as <-; discriminate|]); apply confined_raise. }
  split; [constructor; [intros [H|[H|[]]]; discriminate H|constructor; [intros [H|[]]; discriminate H|constructor; [intros []|constructor]]]|].
  split; [intros t e H; discriminate H|]. split; [discriminate|]. split.
  - split; [vm_compute; reflexivity|]. split; [vm_compute; reflexivity|]. split; [vm_compute; reflexivity|]. split; [vm_compute; reflexivity|].
    split; [eexists; vm_compute; reflexivity|vm_compute; reflexivity].
  - split; [vm_compute; reflexivity|]. split; vm_compute; reflexivity.
Qed.
