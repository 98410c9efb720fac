(** * C57: the data directory of a cache *)
From Coq Require Import String NArith Bool List.
From Verif Require Import Model.Py Model.PurePath Model.Fs Model.PathOps Model.Cache Model.DataDir Spec.FsSpec Spec.DataDirSpec
  Proofs.PyLemmas Proofs.DataDirProofs.
Import ListNotations.

(** Whatever there is, wherever links lead, whatever call fails: in every state of the
    run nothing is lost but an empty directory that is the objects, and this only if a
    place for them was given; all that comes is an empty directory or the link. *)
Theorem C57_safe :
  forall far anchor trash exist_ok target fs cwd fault r w',
    local_data_dir_init far anchor trash exist_ok target (start fs cwd fault) = (r, w') ->
    Forall (only_adds (leads fs cwd (local_objects_dir anchor)) (option_map pp_str target) fs) (states w').
Proof. exact init_safe. Qed.
Print Assumptions C57_safe.
(** It returns with the three directories, if what has one of the names is a directory. *)
Theorem C57_partial :
  forall far A fs cwd, good_fs fs -> is_dir_at fs A ->
    free_or_dir fs (ops A) -> free_or_dir fs (objs A) -> free_or_dir fs (bin A) ->
    exists w', local_data_dir_init far (path_of A) (Some (path_of (bin A))) true None (start fs cwd (fun _ => None)) = (Ok tt, w') /\
      is_dir_at (w_fs w') (ops A) /\ is_dir_at (w_fs w') (objs A) /\ is_dir_at (w_fs w') (bin A) /\
      same_but [ops A; objs A; bin A] fs (w_fs w') /\ (forall q, look fs q <> None -> look (w_fs w') q = look fs q).
Proof. exact init_plain. Qed.
Print Assumptions C57_partial.
(** With a place for the objects: the link is there, if there were none or an empty
    directory.  Missing from the full statement: that the link leads to a directory
    ([C57_dangling_refuted]), the trash if the link was there ([C57_trash_refuted]). *)
Theorem C57_link_partial :
  forall far A t fs cwd, good_fs fs -> is_dir_at fs A ->
    free_or_dir fs (ops A) -> look fs (objs A) = None \/ empty_at fs (objs A) -> free_or_dir fs (bin A) -> pp_str t <> [] ->
    exists w', local_data_dir_init far (path_of A) (Some (path_of (bin A))) true (Some t) (start fs cwd (fun _ => None)) = (Ok tt, w') /\
      is_dir_at (w_fs w') (ops A) /\ look (w_fs w') (objs A) = Some (ALink (pp_str t)) /\ is_dir_at (w_fs w') (bin A) /\
      same_but [ops A; objs A; bin A] fs (w_fs w') /\ (forall q, q <> objs A -> look fs q <> None -> look (w_fs w') q = look fs q).
Proof. exact init_link. Qed.
Print Assumptions C57_link_partial.
(** Where the three directories are it returns and changes nothing. *)
Theorem C57_again :
  forall far A fs cwd, good_fs fs -> is_dir_at fs (ops A) -> is_dir_at fs (objs A) -> is_dir_at fs (bin A) ->
    exists w', local_data_dir_init far (path_of A) (Some (path_of (bin A))) true None (start fs cwd (fun _ => None)) = (Ok tt, w') /\
      Forall (eq fs) (states w').
Proof. exact init_plain_again. Qed.
Print Assumptions C57_again.
(** The same with the link to a directory given by its absolute path.  Missing: relative
    paths ([C57_relative_refuted]). *)
Theorem C57_link_again_partial :
  forall far A Q fs cwd trash, good_fs fs -> is_dir_at fs (ops A) ->
    look fs (objs A) = Some (ALink (pp_str (path_of Q))) -> is_dir_at fs Q ->
    exists w', local_data_dir_init far (path_of A) trash true (Some (path_of Q)) (start fs cwd (fun _ => None)) = (Ok tt, w') /\
      Forall (eq fs) (states w').
Proof. exact init_link_again. Qed.
Print Assumptions C57_link_again_partial.

Definition c57_none : node -> place -> ppath -> res ppath := fun _ _ _ => Err NotImplementedExn.
Definition c57_fs (ents : list (str * node)) : node :=
  Dir [] [($"store", Dir [] [($"here", File [] [])]); ($"cache", Dir [] [($"kept", File [] []); ($".operations", Dir [] ents)])].
Definition c57_run trash target ents :=
  local_data_dir_init c57_none (path_of [$"cache"]) trash true target (start (c57_fs ents) [] (fun _ => None)).

(** The link is there already: it returns without a trash having been made. *)
Theorem C57_trash_refuted :
  ~ (forall far anchor trash target fs cwd w',
       local_data_dir_init far anchor (Some trash) true target (start fs cwd (fun _ => None)) = (Ok tt, w') ->
       exists q xs es, walk (w_fs w') cwd true trash = Found q (Dir xs es)).
Proof. exact init_trash_refuted. Qed.
Print Assumptions C57_trash_refuted.
(** A relative path is read from the current directory the one time and from the data
    directory the other: after a run that returned the next one raises. *)
Theorem C57_relative_refuted :
  ~ (forall far anchor trash target fs cwd w',
       local_data_dir_init far anchor trash true target (start fs cwd (fun _ => None)) = (Ok tt, w') ->
       exists w2, local_data_dir_init far anchor trash true target (start (w_fs w') cwd (fun _ => None)) = (Ok tt, w2)).
Proof. exact init_relative_refuted. Qed.
Print Assumptions C57_relative_refuted.
(** The place given need not be there: it returns, and the objects are no directory. *)
Theorem C57_dangling_refuted :
  ~ (forall far anchor trash target fs cwd w',
       local_data_dir_init far anchor trash true target (start fs cwd (fun _ => None)) = (Ok tt, w') ->
       exists q xs es, walk (w_fs w') cwd true (local_objects_dir anchor) = Found q (Dir xs es)).
Proof. exact init_dangling_refuted. Qed.
Print Assumptions C57_dangling_refuted.

(** An empty directory of objects with attributes becomes a link; one that is not empty
    stays, and the run raises. *)
Example C57_case :
  (let (r, w') := c57_run (Some (path_of (bin [$"cache"]))) (Some (path_of [$"store"])) [($"objects", Dir [($"k", [])] [])] in
   (r, w_fs w')) = (Ok tt, c57_fs [($"objects", Link $"/store"); ($"trash", Dir [] [])]) /\
  (let (r, w') := c57_run None (Some (path_of [$"store"])) [($"objects", Dir [] [($"one", File [] [])])] in
   (r, w_fs w')) = (Err (OSErr ENOTEMPTY), c57_fs [($"objects", Dir [] [($"one", File [] [])])]) /\
  (let (r, w') := c57_run None (Some (path_of [$"cache"])) [($"objects", Link $"/store")] in
   (r, w_fs w')) = (Err (OSErr ENOTDIR), c57_fs [($"objects", Link $"/store")]).
Proof. vm_compute. repeat split. Qed.
