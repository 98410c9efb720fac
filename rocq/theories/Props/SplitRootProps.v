(** * C86: drives of Windows *)
From Coq Require Import String NArith Bool List.
From Verif Require Import Model.Py Model.SplitRoot Spec.SplitRootSpec Proofs.SplitRootProofs.
Import ListNotations.

(** What is put in place of pathlib's function cuts each text as pathlib does, but for those
    that begin with a drive of the registry; of these the drive is the name of it. *)
Theorem C86_only_registry :
  forall s,
    (forall pre name rest, in_registry s pre name rest -> splitroot s = (pre ++ name, [], [colon] ++ rest)) /\
    (splitroot s = cpython_splitroot s <-> forall pre name rest, ~ in_registry s pre name rest).
Proof. exact registry_exact. Qed.
Print Assumptions C86_only_registry.
(** The drive, separators and the rest are the text.  Missing from the full statement: texts in
    which two separators follow the long prefix ([C86_lost_refuted]). *)
Theorem C86_text_partial :
  forall s drv root rest, startswith s (long ++ [bsl; bsl]) = false -> splitroot s = (drv, root, rest) ->
    exists k, s = drv ++ repeat bsl k ++ rest /\ (root = [] /\ k = 0 \/ root = [bsl] /\ (1 <= k \/ rest = [])).
Proof. exact splitroot_text. Qed.
Print Assumptions C86_text_partial.
Theorem C86_lost_refuted :
  let s := long ++ [bsl; bsl] ++ $"a" ++ [bsl] ++ $"b" ++ [bsl] ++ $"c" in
  splitroot s = (long ++ [bsl] ++ $"a" ++ [bsl] ++ $"b", [bsl], $"c").
Proof. reflexivity. Qed.
Print Assumptions C86_lost_refuted.
(** A path in the registry is never absolute, *)
Theorem C86_absolute_refuted :
  win_is_absolute ($"HKLM:" ++ [bsl] ++ $"Software") = false /\ win_is_absolute ($"C:" ++ [bsl] ++ $"Software") = true.
Proof. split; reflexivity. Qed.
Print Assumptions C86_absolute_refuted.
(** and whether two texts that differ in the case of letters are the same path depends on how
    the drive is written. *)
Theorem C86_case_refuted :
  win_key ($"HKLM:" ++ [bsl] ++ $"Software") = win_key ($"hklm:" ++ [bsl] ++ $"SOFTWARE") /\
  win_key ($"HKLM:" ++ [bsl] ++ $"Software") <> win_key ($"Hklm:" ++ [bsl] ++ $"Software").
Proof. split; [reflexivity|]. intros E. vm_compute in E. discriminate E. Qed.
Print Assumptions C86_case_refuted.

Example C86_cases :
  in_registry ($"hkcu:" ++ [bsl] ++ $"a") [] $"hkcu" ([bsl] ++ $"a") /\
  splitroot ($"hkcu:" ++ [bsl] ++ $"a") = ($"hkcu", [], $":" ++ [bsl] ++ $"a") /\
  splitroot ($"C:" ++ [bsl; bsl] ++ $"a" ++ [bsl] ++ $"b:c") = ($"C:", [bsl], $"a" ++ [bsl] ++ $"b:c") /\
  splitroot ([bsl; bsl] ++ $"host" ++ [bsl] ++ $"share" ++ [bsl] ++ $"x") = ([bsl; bsl] ++ $"host" ++ [bsl] ++ $"share", [bsl], $"x") /\
  splitroot (long ++ $"UNC" ++ [bsl] ++ $"host" ++ [bsl] ++ $"share") = (long ++ $"UNC" ++ [bsl] ++ $"host" ++ [bsl] ++ $"share", [bsl], []) /\
  startswith (long ++ $"UNC" ++ [bsl] ++ $"host" ++ [bsl] ++ $"share") (long ++ [bsl; bsl]) = false.
Proof. split; [split; [right; now left|split; [now left|reflexivity]]|]. repeat split; reflexivity. Qed.
