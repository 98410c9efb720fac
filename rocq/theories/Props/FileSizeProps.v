(** * C71 *)
From Coq Require Import String NArith ZArith Bool List.
From Verif Require Import Model.Py Model.Meta Spec.FileSizeSpec Proofs.PyLemmas Proofs.FileSizeProofs.
Import ListNotations.

(** A size below 8 petabytes is shown to half of the unit, and the unit is the largest one
    that is not larger than the size. *)
Theorem C71_close :
  forall z t, (0 <= z < 2 ^ 53)%Z -> hr z = Ok t ->
    exists q k, whole t q k /\ (Z.to_N z < unit_size (S k))%N /\ (k = 0%nat \/ unit_size k <= Z.to_N z)%N /\
      within (unit_size k) (2 * (q * unit_size k)) (2 * Z.to_N z) /\ (q <= 1024)%N.
Proof. exact hr_close. Qed.
Print Assumptions C71_close.
(** A size of any kind to half of the unit and what a double loses; [u] is the unit. *)
Theorem C71_close_all :
  forall z t, (0 <= z)%Z -> hr z = Ok t ->
    exists v u, says t v /\ (u = 1%N \/ u <= 2 * Z.to_N z)%N /\
      within (2 ^ 53 * (5 * u) + 10 * Z.to_N z) (2 ^ 53 * v) (2 ^ 53 * (10 * Z.to_N z)).
Proof. exact hr_close_all. Qed.
Print Assumptions C71_close_all.
(** What is shown for a larger file is not smaller. *)
Theorem C71_order :
  forall z z' t t' v v', (0 <= z <= z')%Z -> hr z = Ok t -> hr z' = Ok t' -> says t v -> says t' v' -> (v <= v')%N.
Proof. exact hr_mono. Qed.
Print Assumptions C71_order.
(** A text says one size only. *)
Theorem C71_says_one :
  forall t v v', says t v -> says t v' -> v = v'.
Proof. exact says_one. Qed.
Print Assumptions C71_says_one.
(** Where it fails, and what is shown for sizes that are none *)
Theorem C71_fails :
  forall z, hr z = Err OverflowErr <-> (2 ^ 1024 - 2 ^ 970 <= z)%Z.
Proof. exact hr_fails. Qed.
Print Assumptions C71_fails.
Theorem C71_negative :
  forall z, (z < 0)%Z -> hr z = Ok $"??".
Proof. exact hr_negative. Qed.
Print Assumptions C71_negative.

(** There can be 1024 of a unit, which is one of the next. *)
Theorem C71_unit_refuted :
  hr 1048575 = Ok $"1024K" /\ hr 1048576 = Ok $"1M" /\ says $"1024K" 10485760 /\ says $"1M" 10485760.
Proof.
  split; [vm_compute; reflexivity|]. split; [vm_compute; reflexivity|]. split; left.
  - exists 1024%N, 1%nat. split; [|reflexivity]. exists $"1024", $"K". repeat split.
  - exists 1%N, 2%nat. split; [|reflexivity]. exists $"1", $"M". repeat split.
Qed.
Print Assumptions C71_unit_refuted.

Example C71_case :
  hr 0 = Ok $"0" /\ hr 1023 = Ok $"1023" /\ hr 1024 = Ok $"1K" /\ hr 1536 = Ok $"2K" /\ hr 2560 = Ok $"2K" /\
  hr 5000000000 = Ok $"5G" /\ hr (2 ^ 80) = Ok $"1.0Yi" /\ hr (15 * 2 ^ 79) = Ok $"7.5Yi" /\ hr (-1) = Ok $"??" /\
  says $"7.5Yi" (75 * 2 ^ 80)%N /\ (0 <= 1536 < 2 ^ 53)%Z.
Proof.
  repeat (split; [vm_compute; reflexivity|]). split; [|split; [discriminate|reflexivity]].
  right. exists 75%N. split; [|reflexivity]. exists $"7", (chr "5"), 7%N, 5%N. repeat split.
Qed.
