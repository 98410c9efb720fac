(** C104: programs that exchange the same two paths at the same time. *)
From Coq Require Import String Strings.Byte Bool List Permutation Lia.
From Verif Require Import Model.Py Model.PurePath Model.Fs Model.PathOps Model.Swap Model.SwapRace
  Spec.FsSpec Spec.CopySpec Spec.SwapSpec Spec.SwapRaceSpec Proofs.GoodFs Proofs.SwapRaceProofs Proofs.SwapRaceAlone.
Import ListNotations.

(** At every moment, in every order of turns, whoever can use renameat2 and whoever calls the one path
    self and whoever the other: the two things are at the paths or in temporary directories, each once. *)
Theorem C104_kept :
  forall E ok a (x y : E) n l, Forall (fun i => i < n) l -> Permutation (w_all E n (wrun E ok a (w_fresh E x y) l)) [x; y].
Proof. exact kept. Qed.
Print Assumptions C104_kept.

(** When all are done, the things are where as many exchanges as programs returned put them; what is not at
    its path is in the temporary directory of a program that raised FileNotFoundError and called that path
    its target.  Those that returned leave no directory, those that raised leave theirs. *)
Theorem C104_settled :
  forall E ok a (x y : E) n l, Forall (fun i => i < n) l ->
    let s := wrun E ok a (w_fresh E x y) l in
    (forall i, i < n -> w_returned E s i \/ exists e, w_raised E s i e) ->
    let there b := if xorb (Nat.odd (w_count E n s)) b then y else x in
    (forall i, i < n -> w_returned E s i -> w_temp E s i = None) /\
    (forall i e, w_raised E s i e -> e = OSErr ENOENT /\
       (w_temp E s i = Some None \/ w_temp E s i = Some (Some (there (negb (a i)))) /\ w_path E s (negb (a i)) = None)) /\
    (forall b, w_path E s b = Some (there b) \/
       w_path E s b = None /\ exists i, i < n /\ a i = negb b /\ w_raised E s i (OSErr ENOENT) /\ w_temp E s i = Some (Some (there b))).
Proof. exact settled. Qed.
Print Assumptions C104_settled.

(** When all return, the two are exchanged for each of them, and no directory is left. *)
Theorem C104_returned :
  forall E ok a (x y : E) n l, Forall (fun i => i < n) l ->
    let s := wrun E ok a (w_fresh E x y) l in
    (forall i, i < n -> w_returned E s i) ->
    (forall b, w_path E s b = Some (if xorb (Nat.odd n) b then y else x)) /\ forall i, i < n -> w_temp E s i = None.
Proof. exact all_returned. Qed.
Print Assumptions C104_returned.

(** When all can use renameat2, none raises, no directory is made, and at every moment something is at both
    paths: what as many exchanges as programs returned put there. *)
Theorem C104_atomic_partial :
  forall E ok a (x y : E) n l, (forall i, ok i = true) -> Forall (fun i => i < n) l ->
    let s := wrun E ok a (w_fresh E x y) l in
    (forall b, w_path E s b = Some (if xorb (Nat.odd (w_count E n s)) b then y else x)) /\
    (forall i, w_temp E s i = None /\ forall e, ~ w_raised E s i e).
Proof. exact atomic. Qed.
Print Assumptions C104_atomic_partial.

(** A program that has all its turns at once leaves what [p_swap_carefree] leaves, the model of C23. *)
Theorem C104_alone :
  forall names A B fs cwd r w' t ok x y, good_fs fs -> A <> [] -> B <> [] -> look fs A = Some x -> look fs B = Some y ->
    apart A B -> Forall good_name names -> In t names -> look fs (removelast B ++ [t]) = None ->
    p_swap_carefree names (path_of A) (path_of B) (start fs cwd (fun _ => None)) = (r, w') ->
    let s := wrun thing (fun _ => ok) (fun _ => false) (w_fresh thing x y) (repeat 0 12) in
    r = Ok tt /\ w_returned thing s 0 /\ w_temp thing s 0 = None /\ look (w_fs w') A = w_path thing s false /\ look (w_fs w') B = w_path thing s true.
Proof. exact alone_swap. Qed.
Print Assumptions C104_alone.

(** Without renameat2 and with the paths the other way round, each takes its target away before the other
    looks: both raise, and nothing is at either path. *)
Theorem C104_both_refuted :
  forall E (x y : E),
    exists a l, let s := wrun E (fun _ => false) a (w_fresh E x y) l in
      Forall (fun i => i < 2) l /\ w_raised E s 0 (OSErr ENOENT) /\ w_raised E s 1 (OSErr ENOENT) /\ w_path E s false = None /\ w_path E s true = None.
Proof.
  intros E x y. exists (fun i => match i with 0 => false | _ => true end), ([0;1;0;1;0;1;0;1;0;1;0;1;0;1;0;1;0;1;0;1]).
  cbv zeta. split; [repeat constructor; lia|]. vm_compute. now repeat split.
Qed.
Print Assumptions C104_both_refuted.

(** The same way round: one returns, the other raises, and nothing is at the target. *)
Theorem C104_same_refuted :
  forall E (x y : E),
    exists l, let s := wrun E (fun _ => false) (fun _ => false) (w_fresh E x y) l in
      Forall (fun i => i < 2) l /\ w_returned E s 0 /\ w_raised E s 1 (OSErr ENOENT) /\ w_path E s false = Some y /\ w_path E s true = None /\
      w_temp E s 1 = Some (Some x).
Proof.
  intros E x y. exists (repeat 1 8 ++ repeat 0 10 ++ [1; 1] ++ [0; 0]).
  cbv zeta. split; [repeat constructor; lia|]. vm_compute. now repeat split.
Qed.
Print Assumptions C104_same_refuted.

(** One alone: in between nothing is at the target. *)
Theorem C104_gap_refuted :
  forall E (x y : E),
    exists a l, let s := wrun E (fun _ => false) a (w_fresh E x y) l in Forall (fun i => i < 1) l /\ w_path E s true = None.
Proof.
  intros E x y. exists (fun _ => false), (repeat 0 9). cbv zeta. split; [repeat constructor; lia|]. vm_compute. reflexivity.
Qed.
Print Assumptions C104_gap_refuted.

(** Three programs, the second with renameat2, that take turns and all return; two that raise; and the paths
    for which renameat2 fails: relative ones to files. *)
Definition c104_fs : node := Dir [] [($"a", File [x01] []); ($"b", File [x02] [])].
Example C104_case :
  (let l := repeat 0 5 ++ repeat 1 7 ++ repeat 0 7 ++ repeat 2 12 in
   let s := wrun nat (fun i => Nat.eqb i 1) (fun i => Nat.eqb i 2) (w_fresh nat 7 8) l in
   Forall (fun i => i < 3) l /\ (forall i, i < 3 -> w_returned nat s i) /\ w_path nat s false = Some 8 /\ w_path nat s true = Some 7) /\
  (let l := [0;1;0;1;0;1;0;1;0;1;0;1;0;1;0;1;0;1;0;1] in
   let s := wrun nat (fun _ => false) (fun i => Nat.eqb i 1) (w_fresh nat 7 8) l in
   (forall i, i < 2 -> w_returned nat s i \/ exists e, w_raised nat s i e) /\ w_all nat 2 s = [8; 7]) /\
  (let l := [0;1;0;1;0;1;0;1;0;1;0;1;0;1] in
   let s := wrun nat (fun _ => true) (fun i => Nat.eqb i 1) (w_fresh nat 7 8) l in
   w_count nat 2 s = 2 /\ w_path nat s false = Some 7) /\
  good_fs c104_fs /\ look c104_fs [$"a"] = Some (AFile [x01] []) /\ apart [$"a"] [$"b"] /\ look c104_fs [$"t"] = None /\
  (forall r w', p_swap (pp_parse $"a") (pp_parse $"b") (start c104_fs [] (fun _ => None)) = (r, w') -> r = Err (OSErr EIO)) /\
  (let r := p_swap_carefree [$"t"] (path_of [$"a"]) (path_of [$"b"]) (start c104_fs [] (fun _ => None)) in
   fst r = Ok tt /\ look (w_fs (snd r)) [$"a"] = Some (AFile [x02] [])).
Proof.
  split. { cbv zeta. split; [repeat constructor; lia|]. split; [intros [|[|[|i]]] H; try (vm_compute; reflexivity); lia|]. split; vm_compute; reflexivity. }
  split. { cbv zeta. split; [|vm_compute; reflexivity]. intros [|[|i]] H; try lia; right; exists (OSErr ENOENT); vm_compute; reflexivity. }
  split. { cbv zeta. split; vm_compute; reflexivity. }
  split; [now apply good_fs_b_ok|]. split; [reflexivity|]. split; [split; intros [r H]; discriminate H|]. split; [reflexivity|].
  split; [intros r w' H; vm_compute in H; injection H as <- _; reflexivity|]. cbv zeta. split; vm_compute; reflexivity.
Qed.
