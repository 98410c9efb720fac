(** * C58: anchors *)
From Coq Require Import String Strings.Byte NArith Bool List.
From Verif Require Import Model.Py Model.PurePath Model.Fs Model.PathOps Model.Listing Model.Cache Model.DataDir Model.Anchor Spec.FsSpec Spec.AnchorSpec
  Proofs.AnchorProofs.
Import ListNotations.

(** An anchored remote class stays where it is whatever is called, but for weighAnchor,
    and a call that returns a path returns that one; whatever fails. *)
Theorem C58_stays :
  forall K flavoured far trash api root_name root_kind c k w r k' w' a,
    perform K flavoured far trash api root_name root_kind c k w = (r, (k', w')) -> c <> WeighRemote -> k_remote k = Some a ->
    k_remote k' = Some a /\ forall p, r = AOk (Some p) -> p = a.
Proof. exact perform_stays. Qed.
Print Assumptions C58_stays.
(** A call that raises does not anchor the remote class. *)
Theorem C58_failed :
  forall K flavoured far trash api root_name root_kind c k w e k' w',
    perform K flavoured far trash api root_name root_kind c k w = (AErr e, (k', w')) -> k_remote k = None -> k_remote k' = None.
Proof. exact perform_failed. Qed.
Print Assumptions C58_failed.
(** The id at the place where the remote class is anchored is that of the root, unless
    smartAnchor took the place ([C58_smart_refuted]). *)
Theorem C58_root_partial :
  forall K flavoured far trash api root_name root_kind c k w r k' w' p,
    perform K flavoured far trash api root_name root_kind c k w = (r, (k', w')) -> (forall d, c <> Smart d) ->
    k_remote k = None -> k_remote k' = Some p -> honest (w_fault w') -> is_root K k' w' p.
Proof. exact perform_root. Qed.
Print Assumptions C58_root_partial.
(** Both classes are anchored there after dropAnchor, anchorClassHere and cache_init with
    an anchor.  Missing from the full statement: anchorToCache alone and smartAnchor
    ([C58_agree_refuted]). *)
Theorem C58_agree_partial :
  forall K flavoured far trash api root_name root_kind c k w q k' w' p,
    perform K flavoured far trash api root_name root_kind c k w = (AOk q, (k', w')) ->
    (exists d, c = Drop d) \/ (exists x, c = Here x) \/ (exists x i, c = Init x i true) ->
    k_remote k = None -> k_remote k' = Some p -> k_cache k' = Some p.
Proof. exact perform_both. Qed.
Print Assumptions C58_agree_partial.
(** Weighing both leaves both without an anchor, still bound to the root, and nothing on
    disk is touched. *)
Theorem C58_weigh :
  forall K flavoured far trash api root_name root_kind k w,
    exists k1 k2, perform K flavoured far trash api root_name root_kind WeighRemote k w = (AOk None, (k1, w)) /\
      perform K flavoured far trash api root_name root_kind WeighCache k1 w = (AOk None, (k2, w)) /\
      k_remote k1 = None /\ k_cache k1 = k_cache k /\ k_remote k2 = None /\ k_cache k2 = None /\ k_root k2 = k_root k.
Proof. exact perform_weigh. Qed.
Print Assumptions C58_weigh.
(** cache_init without an anchor leaves the classes as they are. *)
Theorem C58_plain :
  forall K flavoured far trash api root_name root_kind p i k w r k' w',
    perform K flavoured far trash api root_name root_kind (Init p i false) k w = (r, (k', w')) -> k' = k.
Proof. exact perform_plain. Qed.
Print Assumptions C58_plain.
(** dropAnchor takes the entry named as the root in the directory given, or in the
    current one. *)
Theorem C58_named :
  forall K flavoured far trash api root_name root_kind d k w p k' w',
    perform K flavoured far trash api root_name root_kind (Drop d) k w = (AOk (Some p), (k', w')) ->
    k_remote k' = Some p /\ exists ro n, k_root k = Some ro /\ root_name ro = Ok n /\
      p = child (match d with Some d => d | None => mkPP true (w_cwd w) end) n.
Proof. exact perform_named. Qed.
Print Assumptions C58_named.
(** A directory with anything in it is not taken, and then nothing is changed. *)
Theorem C58_nonempty :
  forall K flavoured far trash api root_name root_kind D n x fs cwd fault k ro r k' w',
    honest fault -> good_fs fs -> k_root k = Some ro -> root_name ro = Ok n -> k_cache k <> Some (path_of (D ++ [n])) ->
    is_dir_at fs (D ++ [n]) -> look fs (D ++ [n; x]) <> None ->
    perform K flavoured far trash api root_name root_kind (Drop (Some (path_of D))) k (start fs cwd fault) = (r, (k', w')) ->
    (exists e, r = AErr e) /\ k' = k /\ Forall (eq fs) (states w').
Proof. exact drop_nonempty. Qed.
Print Assumptions C58_nonempty.
(** smartAnchor takes any directory with the name and a cache, whatever its id. *)
Theorem C58_smart_refuted :
  forall flavoured, ~ (forall K far trash api root_name root_kind d k fs cwd p k' w',
    perform K flavoured far trash api root_name root_kind (Smart d) k (start fs cwd (fun _ => None)) = (AOk (Some p), (k', w')) ->
    is_root K k' w' p).
Proof. exact smart_refuted. Qed.
Print Assumptions C58_smart_refuted.
(** ... and leaves the cache class without an anchor. *)
Theorem C58_agree_refuted :
  forall flavoured, ~ (forall K far trash api root_name root_kind d k fs cwd p k' w',
    k_remote k = k_cache k ->
    perform K flavoured far trash api root_name root_kind (Smart d) k (start fs cwd (fun _ => None)) = (AOk (Some p), (k', w')) ->
    k_remote k' = k_cache k').
Proof. exact agree_refuted. Qed.
Print Assumptions C58_agree_refuted.
(** Before python 3.12: a call that raises has moved the anchor of the cache class. *)
Theorem C58_split_refuted :
  ~ (forall K far trash api root_name root_kind c k fs cwd e k' w',
    perform K true far trash api root_name root_kind c k (start fs cwd (fun _ => None)) = (AErr e, (k', w')) -> k_cache k' = k_cache k).
Proof. exact split_refuted. Qed.
Print Assumptions C58_split_refuted.
(** dropAnchor where a file has the name of the root: it raises, with metadata written on
    the file and the cache class anchored at it. *)
Theorem C58_half_refuted :
  forall flavoured, ~ (forall K far trash api root_name root_kind d k fs cwd e k' w',
    perform K flavoured far trash api root_name root_kind (Drop d) k (start fs cwd (fun _ => None)) = (AErr e, (k', w')) ->
    k_cache k' = k_cache k \/ w_fs w' = fs).
Proof. exact half_refuted. Qed.
Print Assumptions C58_half_refuted.

(** Dropped into an empty directory: both classes are anchored, the directory has the id
    and the data directory.  Then a second root is refused; and so is a directory with
    something in it. *)
Example C58_case :
  exists k1 w1 fs, fs = Dir [] [($"1", Dir [] []); ($"2", Dir [] [($"kept", File [] [])])] /\
    a_perform false (Drop (Some a_top)) (a_id $"N:1" None None) (start fs [] (fun _ => None)) = (AOk (Some a_one), (k1, w1)) /\
    k_remote k1 = Some a_one /\ k_cache k1 = Some a_one /\
    look (w_fs w1) [$"1"; $".operations"; $"trash"] = Some (ADir []) /\
    fst (cache_id a_conf a_one (start (w_fs w1) [] (fun _ => None))) = Ok (PStr $"N:1") /\
    fst (a_perform false (Here (path_of [$"2"])) k1 w1) = AErr (AE ValueError) /\
    fst (a_perform false (Drop (Some a_top)) (a_id $"N:2" None None) (start fs [] (fun _ => None))) = AErr NotEmpty.
Proof.
  eexists. eexists. eexists. split; [reflexivity|]. split; [vm_compute; reflexivity|]. split; [reflexivity|]. split; [reflexivity|].
  split; [vm_compute; reflexivity|]. split; [vm_compute; reflexivity|]. split; vm_compute; reflexivity.
Qed.
