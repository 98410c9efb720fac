(** * C34: sparse marks *)
From Coq Require Import String NArith ZArith Bool List.
From Verif Require Import Model.Py Model.PurePath Model.Fs Model.PathOps Model.Sparse Spec.FsSpec Spec.SparseSpec
  Proofs.SparseProofs.
Import ListNotations.

(** A file or directory called by its own place is sparse exactly when it, or a
    directory above it other than the root, is marked.
    Missing: paths that are relative, or go through links (see C34_lexical). *)
Theorem C34_exact_partial :
  forall fs cwd fault Q, good_fs fs -> (forall t, fault t = None) -> there fs Q ->
    exists b w', p_is_sparse (path_of Q) (start fs cwd fault) = (Ok b, w') /\ w_fs w' = fs /\
      (b = true <-> exists R, R <> [] /\ below R Q /\ marked fs R).
Proof. exact sparse_exact. Qed.
Print Assumptions C34_exact_partial.

(** Every path: what counts are the things its own components lead to. *)
Theorem C34_lexical :
  forall fs cwd fault p b w', (forall t, fault t = None) -> p_is_sparse p (start fs cwd fault) = (Ok b, w') ->
    b = true <-> exists l m, l <> [] /\ pp_parts p = l ++ m /\
      exists q n xs v, walk fs cwd true (mkPP (pp_abs p) l) = Found q n /\ node_xattrs n = Some xs /\ In (sparse_mark, v) xs.
Proof. exact sparse_lexical. Qed.
Print Assumptions C34_lexical.

(** Asking changes nothing, whatever calls fail. *)
Theorem C34_only_asks :
  forall fs cwd fault p r w', p_is_sparse p (start fs cwd fault) = (r, w') -> states w' = [fs; fs].
Proof. exact sparse_no_effect. Qed.
Print Assumptions C34_only_asks.

(** Marking marks, clearing clears, and both leave all else as it is. *)
Theorem C34_mark :
  forall fs cwd fault Q, good_fs fs -> (forall t, fault t = None) -> there fs Q ->
    exists w', p_mark_sparse (path_of Q) (start fs cwd fault) = (Ok tt, w') /\ good_fs (w_fs w') /\ marked (w_fs w') Q /\
      (forall k v, k <> sparse_mark -> (attr_at (w_fs w') Q k v <-> attr_at fs Q k v)) /\
      forall q, q <> Q -> look (w_fs w') q = look fs q.
Proof. exact mark_spec. Qed.
Print Assumptions C34_mark.
Theorem C34_clear :
  forall fs cwd fault Q, good_fs fs -> (forall t, fault t = None) -> there fs Q ->
    exists w', p_clear_sparse (path_of Q) (start fs cwd fault) = (Ok tt, w') /\ good_fs (w_fs w') /\ ~ marked (w_fs w') Q /\
      (forall k v, k <> sparse_mark -> (attr_at (w_fs w') Q k v <-> attr_at fs Q k v)) /\
      forall q, q <> Q -> look (w_fs w') q = look fs q.
Proof. exact clear_spec. Qed.
Print Assumptions C34_clear.

(** /d is marked, /d/e/f is below it, /g is not. *)
Definition c34_fs : node :=
  Dir [] [($"d", Dir [($"user.augpathlib.sparse", [Byte.x31])] [($"e", Dir [] [($"f", File [] [])])]);
          ($"g", File [] [])].
Example C34_case :
  good_fs c34_fs /\ there c34_fs [$"d"; $"e"; $"f"] /\ marked c34_fs [$"d"] /\ ~ marked c34_fs [$"g"] /\
  fst (p_is_sparse (pp_parse $"/d/e/f") (start c34_fs [] (fun _ => None))) = Ok true /\
  fst (p_is_sparse (pp_parse $"/g") (start c34_fs [] (fun _ => None))) = Ok false.
Proof.
  split.
  - split; [|now eexists _, _].
    repeat (constructor; [repeat constructor; cbn; intuition discriminate
      |cbn; intros ? H; repeat (destruct H as [<-|H]); try contradiction; repeat split; try discriminate; cbn; intuition discriminate
      |cbn; intros ? ? H; repeat (destruct H as [H|H]); try contradiction; injection H as <- <-; try apply good_link; try apply good_file]).
  - split; [exists []; right; now exists []|]. split; [eexists _, _; split; [left; reflexivity|now left]|].
    split; [intros (v & xs & [H|(d & H)] & I); [discriminate|vm_compute in H; injection H as _ <-; destruct I]|]. now vm_compute.
Qed.

(** A relative path ends at the current directory: a mark on that is not seen. *)
Theorem C34_relative_refuted :
  exists fs cwd p q R, good_fs fs /\ is_dir_at fs cwd /\ leads fs cwd p q /\ R <> [] /\ below R q /\ marked fs R /\
    fst (p_is_sparse p (start fs cwd (fun _ => None))) = Ok false.
Proof.
  exists c34_fs, [$"d"; $"e"], (pp_parse $"f"), [$"d"; $"e"; $"f"], [$"d"]. split; [exact (proj1 C34_case)|].
  split; [now exists []|]. split; [now eexists|]. split; [discriminate|]. split; [now exists [$"e"; $"f"]|].
  split; [exact (proj1 (proj2 (proj2 C34_case)))|now vm_compute].
Qed.
Print Assumptions C34_relative_refuted.

(** A path with nothing there, or that cannot be followed, is not answered with
    FileNotFoundError: [getxattr] asks the module [errno] for a name it lacks. *)
Theorem C34_missing_refuted :
  forall fs cwd fault p, (forall t, fault t = None) -> pp_parts p <> [] -> (forall q n, walk fs cwd true p <> Found q n) ->
    fst (p_is_sparse p (start fs cwd fault)) = Err AttributeError.
Proof. exact sparse_nothing. Qed.
Print Assumptions C34_missing_refuted.
Example C34_missing_case : pp_parts (pp_parse $"/g/h") <> [] /\ (forall q n, walk c34_fs [] true (pp_parse $"/g/h") <> Found q n) /\
  (forall q n, walk c34_fs [] true (pp_parse $"/d/h") <> Found q n).
Proof. repeat split; discriminate. Qed.

(** A cache without extended attributes answers that it is sparse whenever it
    answers: a mark that is not there is [False], which is not [None]. *)
Theorem C34_cache_refuted :
  forall is_root marker w b w', c_is_sparse is_root marker w = (Ok b, w') -> b = true.
Proof. exact cache_always. Qed.
Print Assumptions C34_cache_refuted.
