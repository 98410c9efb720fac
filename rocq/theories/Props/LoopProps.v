(** * C10: a metadata link never resolves *)
From Coq Require Import String NArith ZArith Bool List.
From Verif Require Import Model.Py Model.PurePath Model.Meta Model.MetaSymlink Model.Fs Model.PathOps
  Spec.FsSpec Spec.LoopSpec Proofs.FsLemmas Proofs.LoopProofs.
Import ListNotations.

(** Whatever else there is, whatever path leads to the link, and whatever fails. *)
Theorem C10_never_resolves :
  forall w p d name t, good_name name -> starts_with_name name t ->
    (exists xs es, get (w_fs w) (w_cwd w) = Some (Dir xs es)) ->
    leads (w_fs w) (w_cwd w) p (d ++ [name]) -> look (w_fs w) (d ++ [name]) = Some (ALink t) ->
    fst (p_exists p w) <> Ok true /\ fst (p_is_file p w) <> Ok true /\ fst (p_is_dir p w) <> Ok true.
Proof. exact loop_never. Qed.
Print Assumptions C10_never_resolves.

(** When no call fails for other reasons the answers are these. *)
Theorem C10_answers :
  forall w p d name t, no_fault w -> good_name name -> starts_with_name name t ->
    (exists xs es, get (w_fs w) (w_cwd w) = Some (Dir xs es)) ->
    leads (w_fs w) (w_cwd w) p (d ++ [name]) -> look (w_fs w) (d ++ [name]) = Some (ALink t) ->
    fst (p_exists p w) = Ok false /\ fst (p_is_file p w) = Ok false /\ fst (p_is_dir p w) = Ok false /\
    fst (p_is_symlink p w) = Ok true /\ fst (p_is_broken_symlink p w) = Ok true.
Proof. exact loop_broken. Qed.
Print Assumptions C10_answers.

(** The links written for metadata are of this kind, unless they are absolute
    (the id starts with a slash). *)
Theorem C10_cache_links :
  forall dateparse m name q, good_name name -> as_symlink dateparse m (Some name) = Ok q ->
    pp_abs q = false -> starts_with_name name (pp_str q).
Proof. exact cache_link. Qed.
Print Assumptions C10_cache_links.

(** A directory of another name with everything the target names. *)
Definition c10_fs : node :=
  Dir [] [($"data", Dir [] [($"f.txt", Link $"f.txt/N:1/.meta.1");
                            ($"N:1", Dir [] [($".meta.1", File [] [])])]);
          ($"l", Link $"data")].
Definition c10_world : world := mkWorld c10_fs [$"data"] [c10_fs] 0 (fun _ => None).

Example C10_case :
  good_name $"f.txt" /\ starts_with_name $"f.txt" $"f.txt/N:1/.meta.1" /\
  leads c10_fs [$"data"] (pp_parse $"/l/../l/f.txt") ([$"data"] ++ [$"f.txt"]) /\
  fst (p_is_broken_symlink (pp_parse $"/l/../l/f.txt") c10_world) = Ok true /\
  fst (p_exists (pp_parse $"f.txt/N:1") c10_world) = Ok false /\
  fst (p_is_dir (pp_parse $"/l") c10_world) = Ok true.
Proof.
  split; [repeat split; try discriminate; cbn; intuition discriminate|].
  split; [eexists; reflexivity|]. split; [eexists; reflexivity|]. repeat split.
Qed.
