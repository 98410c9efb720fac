(** * C85: the size of a local path *)
From Coq Require Import String NArith ZArith Bool List.
From Verif Require Import Model.Py Model.PurePath Model.Fs Model.LocalSize Spec.FsSpec Spec.LoopSpec Spec.StatSpec Spec.LocalSizeSpec
  Proofs.RunLemmas Proofs.LocalSizeProofs.
Import ListNotations.

(** When no call fails: the size of what the path leads to; when it leads nowhere, that of the
    link at its end, or, when there is none, an OSError.  Missing from the full statement: an
    error in each case in which it leads nowhere ([C85_link_refuted]). *)
Theorem C85_exact_partial :
  forall prints option_out dir_size, prints_line dir_size prints -> forall p w r w',
    no_fault w -> usable (pp_str p) -> local_size prints option_out dir_size p w = (r, w') ->
    same w w' /\
    match lookup true p (w_fs w) (w_cwd w), lookup false p (w_fs w) (w_cwd w) with
    | Ok (q, n), _ => r = Ok (Z.of_N (node_size dir_size q n))
    | Err _, Ok (q, n) => (two_blanks (pp_str p) -> r = Err ValueError) /\
                          (~ two_blanks (pp_str p) -> r = Ok (Z.of_N (node_size dir_size q n)))
    | Err _, Err _ => r = Err (OSErr EIO)
    end.
Proof. exact size_exact. Qed.
Print Assumptions C85_exact_partial.
(** Whatever calls fail: a number that is given is the size of what is there, the file or the
    link to it. *)
Theorem C85_honest :
  forall prints option_out dir_size, prints_line dir_size prints -> forall p w z w',
    usable (pp_str p) -> local_size prints option_out dir_size p w = (Ok z, w') ->
    exists follow q n, lookup follow p (w_fs w) (w_cwd w) = Ok (q, n) /\ z = Z.of_N (node_size dir_size q n).
Proof. exact size_honest. Qed.
Print Assumptions C85_honest.

(** The size of a link that leads nowhere is the number of bytes of its text. *)
Theorem C85_bytes :
  forall prints option_out dir_size, prints_line dir_size prints -> forall p w q t b,
    no_fault w -> usable (pp_str p) -> ~ two_blanks (pp_str p) -> (forall r, lookup true p (w_fs w) (w_cwd w) <> Ok r) ->
    lookup false p (w_fs w) (w_cwd w) = Ok (q, Link t) -> utf8_enc t = Some b ->
    fst (local_size prints option_out dir_size p w) = Ok (Z.of_nat (length b)).
Proof. exact size_bytes. Qed.
Print Assumptions C85_bytes.

Definition c85_fs : node :=
  Dir [] [($"gone", Link $"there"); ($"to", Link $"file"); ($"file", File [byte_of 1; byte_of 2; byte_of 3] []); ($"a  b", Link $"there")].
(** A link that leads nowhere has a size, that of its text. *)
Theorem C85_link_refuted :
  forall prints option_out dir_size, prints_line dir_size prints ->
    fst (local_size prints option_out dir_size (pp_parse $"/gone") (start c85_fs [] (fun _ => None))) = Ok 5%Z.
Proof.
  intros prints oo ds PL. destruct (local_size _ _ _ _ _) as [r w'] eqn:E.
  apply (size_exact prints oo ds PL) in E as [_ E]; [|intros t; reflexivity|split; [eexists; vm_compute; reflexivity|reflexivity]].
  cbn [fst]. destruct E as [_ E]. apply E. apply no_two. reflexivity.
Qed.
Print Assumptions C85_link_refuted.
(** When the first call fails, a link to a file has the size of the link, not of the file. *)
Theorem C85_busy_refuted :
  forall prints option_out dir_size, prints_line dir_size prints ->
    fst (local_size prints option_out dir_size (pp_parse $"/to") (start c85_fs [] (fun t => if Nat.eqb t 0 then Some (OSErr EIO) else None))) = Ok 4%Z /\
    fst (local_size prints option_out dir_size (pp_parse $"/to") (start c85_fs [] (fun _ => None))) = Ok 3%Z.
Proof.
  intros prints oo ds PL. split; [|reflexivity].
  unfold local_size, catch, bind, ask at 1. cbn [w_fault w_tick start Nat.eqb].
  match goal with |- context [local_stat _ _ _ ?w1] => set (w2 := w1); destruct (local_stat prints oo (pp_parse $"/to") w2) as [r w3] eqn:E end.
  apply (local_stat_run prints oo ds PL) in E as [_ E]; [|split; [eexists; vm_compute; reflexivity|reflexivity]].
  destruct E as [_ E]. destruct E as (st & -> & S).
  { apply no_two. reflexivity. }
  cbn [fst ret]. rewrite S. reflexivity.
Qed.
Print Assumptions C85_busy_refuted.
(** With two blanks in the name it is a ValueError instead. *)
Theorem C85_blanks_refuted :
  forall prints option_out dir_size, prints_line dir_size prints ->
    fst (local_size prints option_out dir_size (pp_parse $"/a  b") (start c85_fs [] (fun _ => None))) = Err ValueError.
Proof.
  intros prints oo ds PL. destruct (local_size _ _ _ _ _) as [r w'] eqn:E.
  apply (size_exact prints oo ds PL) in E as [_ E]; [|intros t; reflexivity|split; [eexists; vm_compute; reflexivity|reflexivity]].
  cbn [fst]. destruct E as [E _]. apply E. exists $"/a", $"b". reflexivity.
Qed.
Print Assumptions C85_blanks_refuted.

Example C85_case :
  prints_line (fun _ => 4096%N) (a_program (fun _ => 4096%N)) /\
  no_fault (start c85_fs [] (fun _ => None)) /\ usable (pp_str (pp_parse $"/gone")) /\ usable (pp_str (pp_parse $"to")) /\
  fst (local_size (a_program (fun _ => 4096%N)) (fun _ => ([], true)) (fun _ => 4096%N) (pp_parse $"/gone") (start c85_fs [] (fun _ => None))) = Ok 5%Z /\
  fst (local_size (a_program (fun _ => 4096%N)) (fun _ => ([], true)) (fun _ => 4096%N) (pp_parse $"to") (start c85_fs [] (fun _ => None))) = Ok 3%Z /\
  fst (local_size (a_program (fun _ => 4096%N)) (fun _ => ([], true)) (fun _ => 4096%N) (pp_parse $"none") (start c85_fs [] (fun _ => None))) = Err (OSErr EIO).
Proof.
  split; [apply a_program_prints|]. split; [intros t; reflexivity|].
  split; [split; [eexists; vm_compute; reflexivity|reflexivity]|]. split; [split; [eexists; vm_compute; reflexivity|reflexivity]|].
  vm_compute. auto.
Qed.
