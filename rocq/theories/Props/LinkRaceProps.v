(** C103: programs that set the metadata of one path at the same time. *)
From Coq Require Import String NArith ZArith Bool List.
From Verif Require Import Model.Py Model.PurePath Model.Meta Model.MetaSymlink Model.Access Model.Fs Model.Cache Model.LinkRace
  Spec.FsSpec Spec.LoopSpec Spec.CopySpec Spec.CacheSpec Spec.LinkRaceSpec Proofs.GoodFs Proofs.LinkRaceProofs Proofs.LinkRaceMoved Proofs.LinkRaceCache Props.CacheProps.
Import ListNotations.

(** In every order of turns: what is at the path was there at first or is what a
    program set that got through; what is in the trash was there at first or was at the
    path earlier; and no name vanishes from the trash. *)
Theorem C103_whole :
  forall M replace name_of new d l,
    let s := lrun M replace name_of new (l_fresh M d) l in
    (forall x, l_path M (l_disk M s) = Some x -> l_path M d = Some x \/ exists i, x = new i /\ l_wrote M s i) /\
    (forall n x, l_trash M (l_disk M s) n = Some x ->
       l_trash M d n = Some x \/
       exists a b, l = a ++ b /\ l_path M (l_disk M (lrun M replace name_of new (l_fresh M d) a)) = Some x) /\
    (forall n, l_trash M d n <> None -> l_trash M (l_disk M s) n <> None).
Proof. exact whole. Qed.
Print Assumptions C103_whole.

(** A program that made its link found none at its first call, or moved one to the trash itself, after it had seen one that its own may
    replace. *)
Theorem C103_made :
  forall M replace name_of new d l i,
    let at_ l := l_disk M (lrun M replace name_of new (l_fresh M d) l) in
    l_wrote M (lrun M replace name_of new (l_fresh M d) l) i ->
    (exists a b, l = a ++ i :: b /\ ~ In i a /\ l_path M (at_ a) = None) \/
    (exists a b x n a' b' old, l = a ++ i :: b /\ l_path M (at_ a) = Some x /\ l_path M (at_ (a ++ [i])) = None /\ l_trash M (at_ (a ++ [i])) n = Some x /\
       a = a' ++ i :: b' /\ l_path M (at_ a') = Some old /\ replace old (new i) = Ok true).
Proof. exact why_made. Qed.
Print Assumptions C103_made.

(** When all that began are done, there is metadata at the path: what a program set
    that got through, or what was there at first if none did, and then the trash is
    as it was. *)
Theorem C103_ends :
  forall M replace name_of new d l,
    let s := lrun M replace name_of new (l_fresh M d) l in
    l_quiet M s -> (exists i, l_began M s i) ->
    (exists i, l_path M (l_disk M s) = Some (new i) /\ l_wrote M s i) \/
    (l_path M (l_disk M s) = l_path M d /\ l_path M (l_disk M s) <> None /\ l_trash M (l_disk M s) = l_trash M d /\
     forall i, ~ l_wrote M s i).
Proof. exact ends. Qed.
Print Assumptions C103_ends.

(** One after the other, and with no two that have the same name in the trash, all
    metadata that was ever at the path is there or in the trash under its own name.
    Missing from the full statement: other orders of turns, and names that are the
    same. *)
Theorem C103_serial_partial :
  forall M replace name_of new d l, in_turns l ->
    (forall x y n, (l_path M d = Some x \/ exists i, x = new i) -> (l_path M d = Some y \/ exists i, y = new i) ->
       name_of x = Some n -> name_of y = Some n -> x = y) ->
    let s := lrun M replace name_of new (l_fresh M d) l in
    forall x, (l_path M d = Some x \/ exists i, x = new i /\ l_wrote M s i) ->
      l_path M (l_disk M s) = Some x \/ exists n, name_of x = Some n /\ l_trash M (l_disk M s) n = Some x.
Proof. exact one_by_one. Qed.
Print Assumptions C103_serial_partial.

(** A program that has all its turns at once leaves what [cache_set] leaves, the model of
    C46, where it returns. *)
Theorem C103_alone :
  forall K D x TR fs cwd t old m q tr w',
    good_name x -> good_fs fs -> look fs (D ++ [x]) = Some (ALink t) -> starts_with_name x t -> trash_at K fs TR (D ++ [x]) ->
    from_symlink x t false false = Ok old -> meta_bool m = true -> as_symlink (c_dateparse K) m (Some x) = Ok q ->
    (forall n, look fs (TR ++ [n]) = as_link (tr n)) ->
    cache_set K (path_of (D ++ [x])) (Some m) (start fs cwd (fun _ => None)) = (Ok tt, w') ->
    let d := l_disk linked (lrun linked (by_meta (may_replace K)) id_name (fun _ => (m, pp_str q))
               (l_fresh linked (mkLD linked (Some (old, t)) tr)) (repeat 0 12)) in
    look (w_fs w') (D ++ [x]) = as_link (l_path linked d) /\ forall n, look (w_fs w') (TR ++ [n]) = as_link (l_trash linked d n).
Proof. exact agrees. Qed.
Print Assumptions C103_alone.

(** ** Cases *)
Definition race_replace : pathmeta -> pathmeta -> res bool := may_replace k_sends.
Definition race_name (m : pathmeta) : option str := match m_id m with PStr s => Some (fs_safe_id s) | _ => None end.
Definition race_old : pathmeta := k_meta $"N:1" 1 2 PNone PNone.
Definition race_new (i : nat) : pathmeta :=
  match i with 0 => k_meta $"N:4" 4 2 PNone PNone | 1 => k_meta $"N:3" 3 2 PNone PNone | _ => k_meta $"N:2" 2 2 PNone PNone end.
Definition race_disk : ldisk pathmeta := mkLD pathmeta (Some race_old) (fun _ => None).
Definition race_from (l : list nat) : lstate pathmeta := lrun pathmeta race_replace race_name race_new (l_fresh pathmeta race_disk) l.

(** The second has decided, and read the identifier of the old, when the first gets
    through; then the second moves what the first made over the old in the trash. *)
Definition race_late : list nat := repeat 1 9 ++ repeat 0 12 ++ repeat 1 3.

Lemma race_late_quiet : l_quiet pathmeta (race_from race_late).
Proof. intros [|[|i]]; [right|right|left; vm_compute; reflexivity]; eexists; vm_compute; reflexivity. Qed.

Lemma race_over (n k : str) (X Y : pathmeta) : lput pathmeta k X (lput pathmeta k Y (fun _ => None)) n = Some Y -> X <> Y -> False.
Proof. unfold lput. destruct (str_eqb n k); intros H N; [apply N; now injection H|discriminate]. Qed.

(** The old metadata is nowhere, though no two have the same name. *)
Theorem C103_lost_refuted :
  exists new d l x n, let s := lrun pathmeta (may_replace k_sends) race_name new (l_fresh pathmeta d) l in
    l_quiet pathmeta s /\ l_path pathmeta d = Some x /\ race_name x = Some n /\ l_trash pathmeta (l_disk pathmeta s) n = Some (new 0) /\
    ~ somewhere pathmeta s x.
Proof.
  exists race_new, race_disk, race_late, race_old, (fs_safe_id $"N:1"). cbv zeta. change (may_replace k_sends) with race_replace. fold (race_from race_late).
  split; [exact race_late_quiet|]. split; [reflexivity|]. split; [vm_compute; reflexivity|].
  split; [vm_compute; reflexivity|]. intros [H|(n & H)].
  - vm_compute in H. discriminate.
  - assert (E : l_trash pathmeta (l_disk pathmeta (race_from race_late)) = lput pathmeta (fs_safe_id $"N:1") (race_new 0) (lput pathmeta (fs_safe_id $"N:1") race_old (fun _ => None))) by reflexivity.
    rewrite E in H. apply (race_over _ _ _ _ H). intro Z. apply (f_equal m_id) in Z. vm_compute in Z. discriminate.
Qed.
Print Assumptions C103_lost_refuted.

(** Both got through, and the older is at the path, which would not have replaced the
    newer had the second looked again. *)
Theorem C103_newest_refuted :
  exists new d l, let s := lrun pathmeta (may_replace k_sends) race_name new (l_fresh pathmeta d) l in
    l_quiet pathmeta s /\ l_wrote pathmeta s 0 /\ l_wrote pathmeta s 1 /\ l_path pathmeta (l_disk pathmeta s) = Some (new 1) /\
    may_replace k_sends (new 0) (new 1) = Ok false /\ may_replace k_sends (new 1) (new 0) = Ok true.
Proof.
  exists race_new, race_disk, race_late. cbv zeta. change (may_replace k_sends) with race_replace. fold (race_from race_late).
  split; [exact race_late_quiet|]. split; [vm_compute; reflexivity|]. split; [vm_compute; reflexivity|].
  split; [vm_compute; reflexivity|]. split; vm_compute; reflexivity.
Qed.
Print Assumptions C103_newest_refuted.

(** Three, one after the other, which all get through; and the hypotheses hold. *)
Example C103_case :
  in_turns (repeat 2 12 ++ repeat 1 12 ++ repeat 0 12) /\
  (let s := race_from (repeat 2 12 ++ repeat 1 12 ++ repeat 0 12) in
   l_path pathmeta (l_disk pathmeta s) = Some (race_new 0) /\ l_trash pathmeta (l_disk pathmeta s) (fs_safe_id $"N:1") = Some race_old /\
   l_trash pathmeta (l_disk pathmeta s) (fs_safe_id $"N:3") = Some (race_new 1) /\ l_wrote pathmeta s 2) /\
  (forall x y n, (l_path pathmeta race_disk = Some x \/ exists i, x = race_new i) -> (l_path pathmeta race_disk = Some y \/ exists i, y = race_new i) ->
       race_name x = Some n -> race_name y = Some n -> x = y) /\
  l_quiet pathmeta (race_from race_late) /\ l_began pathmeta (race_from race_late) 1.
Proof.
  split. { rewrite <- (app_nil_r (repeat 0 12)). repeat constructor. }
  split. { cbv zeta. repeat split; vm_compute; reflexivity. }
  split.
  { intros x y n Hx Hy. assert (G : forall x, (l_path pathmeta race_disk = Some x \/ exists i, x = race_new i) -> x = race_old \/ x = race_new 0 \/ x = race_new 1 \/ x = race_new 2).
    { clear. intros x [H|([|[|i]] & ->)]; [injection H as <-| | |]; auto. }
    destruct (G x Hx) as [->|[->|[->| ->]]], (G y Hy) as [->|[->|[->| ->]]]; try reflexivity; vm_compute; intros A B; congruence. }
  split; [exact race_late_quiet|]. intro H. vm_compute in H. discriminate.
Qed.

(** The path has the first, the trash is empty; the second is newer. *)
Definition alone_fs : node := Dir [] [($"d", Dir [] [($"l", Link (k_link $"l" k_old))]); ($"trash", Dir [] [])].
Example C103_alone_case :
  good_name $"l" /\ good_fs alone_fs /\ look alone_fs ([$"d"] ++ [$"l"]) = Some (ALink (k_link $"l" k_old)) /\
  starts_with_name $"l" (k_link $"l" k_old) /\ trash_at k_sends alone_fs [$"trash"] [$"d"; $"l"] /\
  (exists old q, from_symlink $"l" (k_link $"l" k_old) false false = Ok old /\ as_symlink (c_dateparse k_sends) k_new (Some $"l") = Ok q /\ may_replace k_sends old k_new = Ok true) /\
  (forall n, look alone_fs ([$"trash"] ++ [n]) = as_link None) /\ meta_bool k_new = true /\
  (let r := cache_set k_sends (path_of [$"d"; $"l"]) (Some k_new) (start alone_fs [] (fun _ => None)) in
   fst r = Ok tt /\ look (w_fs (snd r)) [$"d"; $"l"] = Some (ALink (k_link $"l" k_new)) /\
   look (w_fs (snd r)) [$"trash"; $"N-1"] = Some (ALink (k_link $"l" k_old))).
Proof.
  split; [name_tac|]. split; [now apply good_fs_b_ok|]. split; [reflexivity|]. split; [eexists; vm_compute; reflexivity|].
  split; [trash_tac|]. split; [eexists; eexists; split; [vm_compute; reflexivity|split; vm_compute; reflexivity]|].
  split; [intro n; reflexivity|]. split; [vm_compute; reflexivity|]. cbv zeta. repeat split; vm_compute; reflexivity.
Qed.
