(** C96: the metadata of a path is read from where it is kept. *)
From Coq Require Import String Strings.Byte NArith ZArith Bool List.
From Verif Require Import Model.Py Model.PurePath Model.Meta Model.MetaXattr Model.MetaSymlink Model.Fs Model.PathOps Model.Cache.
From Verif Require Import Spec.FsSpec Spec.LoopSpec Spec.ReadlinkSpec Spec.ReadMetaSpec.
From Verif Require Import Proofs.GoodFs Proofs.ReadMetaProofs Props.CacheProps.
Import ListNotations.

(** Reading changes nothing, whatever fails. *)
Theorem C96_reads_only :
  forall K p w,
  (w_fs (snd (cache_meta K p w)) = w_fs w /\ w_hist (snd (cache_meta K p w)) = w_hist w) /\
  (w_fs (snd (eat_meta K p w)) = w_fs w /\ w_hist (snd (eat_meta K p w)) = w_hist w) /\
  (w_fs (snd (symlink_meta p w)) = w_fs w /\ w_hist (snd (symlink_meta p w)) = w_hist w).
Proof. exact reads_only. Qed.
Print Assumptions C96_reads_only.

(** A file or a directory: what its attributes say; where they say nothing, there is none. *)
Theorem C96_thing :
  forall K p w xs ys, honest (w_fault w) ->
  opens_with (w_fs w) (w_cwd w) p xs -> of_user xs ys ->
  gives w (cache_meta K p w)
    (match from_xattrs (c_legacy K) ys (c_prefix K) with
     | Ok m => Ok (if meta_bool m then Some m else None) | Err e => Err e end) /\
  gives w (eat_meta K p w)
    (match from_xattrs (c_legacy K) ys (c_prefix K) with Ok m => Ok (Some m) | Err e => Err e end).
Proof. exact read_thing. Qed.
Print Assumptions C96_thing.

(** A link that leads nowhere: what its text says, or the error of reading it. *)
Theorem C96_link :
  forall K p w t, honest (w_fault w) ->
  link_at (w_fs w) (w_cwd w) p t -> (forall q, ~ opens (w_fs w) (w_cwd w) p q) ->
  gives w (cache_meta K p w)
    (match from_symlink (pp_name p) t false false with Ok m => Ok (Some m) | Err e => Err e end) /\
  gives w (symlink_meta p w) (from_symlink (pp_name p) t false false) /\
  gives w (eat_meta K p w) (Ok None).
Proof. exact read_link. Qed.
Print Assumptions C96_link.

(** Where there is no link, [SymlinkCache.meta] raises; where there is nothing, the
    others are None. *)
Theorem C96_nothing :
  forall K p w, honest (w_fault w) -> (forall t, ~ link_at (w_fs w) (w_cwd w) p t) ->
  gives w (symlink_meta p w) (Err NoCachedMetadataError) /\
  ((forall q, ~ opens (w_fs w) (w_cwd w) p q) ->
   gives w (cache_meta K p w) (Ok None) /\ gives w (eat_meta K p w) (Ok None)).
Proof. exact read_nothing. Qed.
Print Assumptions C96_nothing.

(** A link that leads to something: [SymlinkCache.meta] raises, and no metadata can be
    set. *)
Theorem C96_through :
  forall p w t q, honest (w_fault w) ->
  link_at (w_fs w) (w_cwd w) p t -> opens (w_fs w) (w_cwd w) p q ->
  gives w (symlink_meta p w) (Err PathExistsErr).
Proof. exact read_through. Qed.
Print Assumptions C96_through.

Theorem C96_no_write :
  forall K p w t q m r w', honest (w_fault w) ->
  link_at (w_fs w) (w_cwd w) p t -> opens (w_fs w) (w_cwd w) p q ->
  meta_bool m = true -> cache_set K p (Some m) w = (r, w') ->
  w_fs w' = w_fs w /\ w_hist w' = w_hist w /\
  (r = Err TypeError \/ r = Err RuntimeErr \/ exists e k, r = Err e /\ w_fault w k = Some e).
Proof. exact write_through. Qed.
Print Assumptions C96_no_write.

(** ** Cases: a file, a link to it, a link with metadata, a directory without *)
Definition rm_fs : node := Dir []
  [($"d", Dir [] [($"a", File [x20; x21] (($"trusted.x", [x00]) :: k_attrs k_old)); ($"l", Link (k_link $"l" k_new));
                  ($"to", Link $"a"); ($"e", Dir [] [])])].
Definition rm_world : world := start rm_fs [$"d"] k_none_fails.
Definition rm_at (x : str) : ppath := mkPP false [x].

(** With the metadata of the path a link that leads to something is out of line: what
    is read there is the metadata of the other path, and it cannot be set. *)
Theorem C96_refuted :
  ~ (forall K p w m, no_fault w -> fst (cache_meta K p w) = Ok (Some m) ->
       (forall q, leads (w_fs w) (w_cwd w) p q -> exists t,
          (look (w_fs w) q = Some (ALink t) /\ from_symlink (pp_name p) t false false = Ok m) \/
          (forall t, look (w_fs w) q <> Some (ALink t)))) /\
  ~ (forall K p w m, no_fault w -> fst (cache_meta K p w) = Ok (Some m) ->
       (r_is_dir (c_remote K) || r_is_file (c_remote K))%bool = true ->
       fst (cache_set K p (Some m) w) = Ok tt).
Proof.
  assert (E : exists m, fst (cache_meta k_sends (rm_at $"to") rm_world) = Ok (Some m)) by (eexists; vm_compute; reflexivity).
  destruct E as [m E]. split; intro H.
  - specialize (H k_sends (rm_at $"to") rm_world m (fun t => eq_refl) E [$"d"; $"to"]).
    destruct H as (t & [(L & F)|N]); [exists (Link $"a"); reflexivity| |].
    + vm_compute in L. injection L as <-. vm_compute in F. discriminate F.
    + apply (N $"a"). reflexivity.
  - specialize (H k_sends (rm_at $"to") rm_world m (fun t => eq_refl) E eq_refl).
    vm_compute in E. injection E as <-. vm_compute in H. discriminate H.
Qed.
Print Assumptions C96_refuted.

Example C96_case :
  honest (w_fault rm_world) /\
  opens_with rm_fs [$"d"] (rm_at $"a") (($"trusted.x", [x00]) :: k_attrs k_old) /\
  of_user (($"trusted.x", [x00]) :: k_attrs k_old) (user_attrs (k_attrs k_old)) /\
  opens_with rm_fs [$"d"] (rm_at $"e") [] /\
  link_at rm_fs [$"d"] (rm_at $"l") (k_link $"l" k_new) /\ (forall q, ~ opens rm_fs [$"d"] (rm_at $"l") q) /\
  link_at rm_fs [$"d"] (rm_at $"to") $"a" /\ opens rm_fs [$"d"] (rm_at $"to") [$"d"; $"a"] /\
  (forall q, ~ opens rm_fs [$"d"] (rm_at $"no") q) /\ (forall t, ~ link_at rm_fs [$"d"] (rm_at $"no") t) /\
  (exists m, fst (cache_meta k_sends (rm_at $"a") rm_world) = Ok (Some m) /\ m_id m = PStr $"N:1" /\ m_size m = PSize 2 /\ meta_bool m = true) /\
  (exists m, fst (cache_meta k_sends (rm_at $"l") rm_world) = Ok (Some m) /\ m_id m = PStr $"N:1" /\ m_size m = PSize 3) /\
  fst (cache_meta k_sends (rm_at $"e") rm_world) = Ok None /\
  fst (cache_meta k_sends (rm_at $"no") rm_world) = Ok None /\
  fst (symlink_meta (rm_at $"to") rm_world) = Err PathExistsErr /\
  fst (cache_set k_sends (rm_at $"to") (Some k_new) rm_world) = Err TypeError.
Proof.
  split; [intros t e H; discriminate H|].
  split; [exists [$"d"; $"a"]; split; [eexists; vm_compute; reflexivity|right; eexists; vm_compute; reflexivity]|].
  split; [change (user_attrs (k_attrs k_old)) with (user_attrs (($"trusted.x", [x00]) :: k_attrs k_old)); apply of_user_attrs|].
  split; [exists [$"d"; $"e"]; split; [eexists; vm_compute; reflexivity|left; vm_compute; reflexivity]|].
  split; [exists [$"d"; $"l"]; split; [eexists; vm_compute; reflexivity|vm_compute; reflexivity]|].
  split; [intros q [n H]; vm_compute in H; discriminate H|].
  split; [exists [$"d"; $"to"]; split; [eexists; vm_compute; reflexivity|vm_compute; reflexivity]|].
  split; [eexists; vm_compute; reflexivity|].
  split; [intros q [n H]; vm_compute in H; discriminate H|].
  split; [intros t (q & [n H] & _); vm_compute in H; discriminate H|].
  split; [eexists; split; [vm_compute; reflexivity|vm_compute; repeat split; reflexivity]|].
  split; [eexists; split; [vm_compute; reflexivity|vm_compute; repeat split; reflexivity]|].
  vm_compute. repeat split; reflexivity.
Qed.
