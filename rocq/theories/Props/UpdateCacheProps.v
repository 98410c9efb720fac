(** * C61: a cache brought up to date from its remote *)
From Coq Require Import String Strings.Byte NArith ZArith Bool List.
From Verif Require Import Model.Py Model.PurePath Model.Meta Model.MetaUpdate Model.Fs Model.PathOps Model.Cache Model.UpdateCache
  Spec.FsSpec Spec.LoopSpec Spec.CopySpec Spec.CacheSpec Proofs.GoodFs Proofs.CacheLemmas Proofs.UpdateCacheProofs Props.CacheProps.
Import ListNotations.

(** At every moment the content is at the old or the new path, or the file is in the
    trash; whatever fails.  The source must not be [.unlink-<name>] beside the target
    and the target not be in the trash. *)
Theorem C61_nothing_lost :
  forall K D x TR E y fs cwd fault d xs R,
    good_name x -> good_name y -> good_fs fs -> look fs (D ++ [x]) = Some (AFile d xs) -> trash_at K fs TR (D ++ [x]) -> usable_id K x (Some (AFile d xs)) ->
    is_dir_at fs E -> D ++ [x] <> E ++ [y] -> D ++ [x] <> E ++ [$".unlink-" ++ y] -> E <> TR -> honest fault ->
    confined (D ++ [x]) (c_refresh K (path_of (D ++ [x]))) ->
    (forall w a w', c_refresh K (path_of (D ++ [x])) w = (Ok a, w') -> exists d' xs', look (w_fs w') (D ++ [x]) = Some (AFile d' xs')) ->
    a_target R = path_of (E ++ [y]) ->
    forall mine given f r w',
      (mine = Some (path_of (D ++ [x])) /\ given = None \/ mine = None /\ given = Some (path_of (D ++ [x]))) ->
      update_cache K R mine given f (start fs cwd fault) = (r, w') ->
      forall s, In s (states w') -> content s (D ++ [x]) = Some d \/ content s (E ++ [y]) = Some d \/ exists z, look s (TR ++ [z]) = Some (AFile d xs).
Proof. exact update_cache_safe. Qed.
Print Assumptions C61_nothing_lost.

(** When it returns, nothing having failed, and the name or the parent has changed, the
    file is at the new path, with its content, or with new content and the old file in
    the trash; nothing else has changed. *)
Theorem C61_moves_partial :
  forall K D x TR E y fs cwd fault d xs R,
    good_name x -> good_name y -> good_fs fs -> look fs (D ++ [x]) = Some (AFile d xs) -> trash_at K fs TR (D ++ [x]) -> usable_id K x (Some (AFile d xs)) ->
    is_dir_at fs E -> D ++ [x] <> E ++ [y] -> D ++ [x] <> E ++ [$".unlink-" ++ y] -> E <> TR -> honest fault ->
    confined (D ++ [x]) (c_refresh K (path_of (D ++ [x]))) ->
    (forall w a w', c_refresh K (path_of (D ++ [x])) w = (Ok a, w') -> exists d' xs', look (w_fs w') (D ++ [x]) = Some (AFile d' xs')) ->
    a_target R = path_of (E ++ [y]) ->
    forall f df w',
      (forall t, fault t = None) -> look fs (E ++ [y]) = None -> ~ below (D ++ [x]) (E ++ [y]) -> ~ is_dir_at fs (E ++ [$".unlink-" ++ y]) ->
      (pp_name (path_of (D ++ [x])) <> a_name R \/ exists i w0, cache_id K (path_of D) (start fs cwd fault) = (Ok i, w0) /\ py_eq (a_parent R) i = false) ->
      update_cache K R (Some (path_of (D ++ [x]))) None f (start fs cwd fault) = (Ok df, w') ->
      look (w_fs w') (D ++ [x]) = None /\ exists d' xs', look (w_fs w') (E ++ [y]) = Some (AFile d' xs') /\
        (d' = d /\ (forall q, ~ below (D ++ [x]) q -> q <> E ++ [y] -> q <> E ++ [$".unlink-" ++ y] -> look (w_fs w') q = look fs q) \/
         exists z, ~ is_dir_at fs (TR ++ [z]) /\ look (w_fs w') (TR ++ [z]) = Some (AFile d xs) /\
           (forall q, ~ below (D ++ [x]) q -> q <> E ++ [y] -> q <> E ++ [$".unlink-" ++ y] -> q <> TR ++ [z] -> look (w_fs w') q = look fs q)).
Proof. exact update_cache_moves. Qed.
Print Assumptions C61_moves_partial.

(** A cache given although the remote has one, or one of another name or parent, is
    refused, and nothing changes. *)
Theorem C61_refuses :
  forall K R c f w,
    (forall c', update_cache K R (Some c) (Some c') f w = (Err TypeError, w)) /\
    forall r w', update_cache K R None (Some c) f w = (r, w') ->
      pp_name c <> a_name R \/ (exists i w0, cache_id K (pp_parent c) w = (Ok i, w0) /\ py_eq (a_parent R) i = false) ->
      (exists e, r = Err e /\ (e = ValueError \/ exists w0, cache_id K (pp_parent c) w = (Err e, w0))) /\ w_fs w' = w_fs w /\ w_hist w' = w_hist w.
Proof. exact update_cache_refuses. Qed.
Print Assumptions C61_refuses.

(** Refreshing with a remote that answers: nothing happens where it is still there;
    where it is gone the file comes to be in the trash. *)
Theorem C61_refresh :
  forall K D x TR fs cwd fault d xs b r w',
    good_name x -> good_fs fs -> look fs (D ++ [x]) = Some (AFile d xs) -> trash_at K fs TR (D ++ [x]) -> honest fault ->
    refresh K (ret b) (path_of (D ++ [x])) (start fs cwd fault) = (r, w') ->
    (forall s, In s (states w') -> s = fs) /\ (r = Ok tt -> b = true) \/
    b = false /\ r = Ok tt /\ exists y, trash_name K x (Some (AFile d xs)) y /\ forall s, In s (states w') -> s = fs \/
        (look s (TR ++ [y]) = Some (AFile d xs) /\ look s (D ++ [x]) = None /\ forall q, q <> D ++ [x] -> q <> TR ++ [y] -> look s q = look fs q).
Proof. exact refresh_gone. Qed.
Print Assumptions C61_refresh.

(** With the remotes of the package it is never refreshed: the call itself is an error. *)
Theorem C61_refresh_own :
  forall K P, confined P (refresh K no_refresh (path_of P)) /\ forall w a w', refresh K no_refresh (path_of P) w <> (Ok a, w').
Proof. exact (fun K P => conj (refresh_confined K P) (refresh_raises K (path_of P))). Qed.
Print Assumptions C61_refresh_own.

(** Raising does not mean that nothing was done: where there is a link of another file at
    the new name, the error comes after the new content was fetched. *)
Definition u_remote (x : str) : asked := mkAsked x PNone (Ok (Some k_new)) (path_of [$"d"; x]).
Definition u_fs : node :=
  Dir [] [($"d", Dir [] [($"a", File [x20; x21] (k_attrs k_old)); ($"o", Link (k_link $"o" (k_meta $"N:2" 1 1 PNone PNone)))]); ($"trash", Dir [] [])].
Theorem C61_refuted :
  exists K w', good_fs u_fs /\
    update_cache K (u_remote $"o") (Some (path_of [$"d"; $"a"])) None true (start u_fs [] k_none_fails) = (Err WhyDidntThisGetMovedErr, w') /\
    content u_fs [$"d"; $"a"] = Some [x20; x21] /\ content (w_fs w') [$"d"; $"a"] = Some [x30; x31; x32] /\ content (w_fs w') [$"trash"; $"N-1"] = Some [x20; x21].
Proof.
  exists k_sends. eexists. split; [now apply good_fs_b_ok|]. split; [vm_compute; reflexivity|]. vm_compute. repeat split; reflexivity.
Qed.
Print Assumptions C61_refuted.

(** as [k_sends], refreshing as with the remotes of the package *)
Definition u_conf : conf :=
  mkConf k_date (fun _ => Err ValueError) (Some $"ssh") (pp_parse $"/trash") (pp_parse $"/objects") $"sha256" (fun _ => true) k_digest (c_remote k_sends)
    (refresh k_sends no_refresh).
Example C61_case :
  let K := u_conf in let R := u_remote $"b" in
  confined ([$"d"] ++ [$"a"]) (c_refresh K (path_of ([$"d"] ++ [$"a"]))) /\
  (forall w a w', c_refresh K (path_of ([$"d"] ++ [$"a"])) w = (Ok a, w') -> exists d' xs', look (w_fs w') ([$"d"] ++ [$"a"]) = Some (AFile d' xs')) /\
  trash_at K u_fs [$"trash"] ([$"d"] ++ [$"a"]) /\ usable_id K $"a" (Some (AFile [x20; x21] (k_attrs k_old))) /\ a_target R = path_of ([$"d"] ++ [$"b"]) /\
  pp_name (path_of ([$"d"] ++ [$"a"])) <> a_name R /\
  (let r := update_cache K R (Some (path_of [$"d"; $"a"])) None true (start u_fs [] k_none_fails) in
   fst r = Ok true /\ content (w_fs (snd r)) [$"d"; $"b"] = Some [x30; x31; x32] /\ look (w_fs (snd r)) [$"d"; $"a"] = None /\
   content (w_fs (snd r)) [$"trash"; $"N-1"] = Some [x20; x21]) /\
  (let r := update_cache K R (Some (path_of [$"d"; $"a"])) None false (start u_fs [] k_none_fails) in
   fst r = Ok true /\ content (w_fs (snd r)) [$"d"; $"b"] = Some [x20; x21] /\ look (w_fs (snd r)) [$"d"; $"a"] = None) /\
  (let r := update_cache K R None (Some (path_of [$"d"; $"a"])) true (start u_fs [] k_none_fails) in fst r = Err ValueError /\ w_fs (snd r) = u_fs) /\
  (let r := update_cache K (u_remote $"a") None (Some (path_of [$"d"; $"a"])) true (start u_fs [] k_none_fails) in
   fst r = Ok true /\ content (w_fs (snd r)) [$"d"; $"a"] = Some [x30; x31; x32]) /\
  (let r := refresh K (ret false) (path_of [$"d"; $"a"]) (start u_fs [] k_none_fails) in
   fst r = Ok tt /\ look (w_fs (snd r)) [$"d"; $"a"] = None /\ content (w_fs (snd r)) [$"trash"; $"N-1"] = Some [x20; x21]) /\
  fst (refresh K no_refresh (path_of [$"d"; $"a"]) (start u_fs [] k_none_fails)) = Err TypeError.
Proof.
  cbv zeta. split; [apply C61_refresh_own|]. split; [intros w a w' H; now apply C61_refresh_own in H|]. split; [trash_tac|]. split.
  { intros m i R E. vm_compute in R. injection R as <-. injection E as <-. cbn. name_tac. }
  split; [reflexivity|]. split; [discriminate|]. vm_compute. repeat split; reflexivity.
Qed.
