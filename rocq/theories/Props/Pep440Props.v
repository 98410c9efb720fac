(** * C99: a version that is written is read back *)
From Coq Require Import String NArith ZArith Bool List.
From Verif Require Import Model.Py Model.Version Model.Command Model.Pep440 Spec.CommandSpec Proofs.Pep440Proofs.
Import ListNotations.

(** The text of a version is read as that version. *)
Theorem C99_read_back : forall v, proper_version v -> read_version (version_text v) = Some v.
Proof. exact read_back. Qed.
Print Assumptions C99_read_back.

(** Only such versions are read, so what is read from one text is read from the text it is written as. *)
Theorem C99_all_proper : forall s v, read_version s = Some v -> proper_version v.
Proof. exact all_proper. Qed.
Print Assumptions C99_all_proper.

(** The next version is read from its own text, with nothing lost. *)
Theorem C99_next : forall s v a b v', read_version s = Some v -> next_version v a b = Ok v' -> read_version (version_text v') = Some v'.
Proof. exact next_read. Qed.
Print Assumptions C99_next.

(** Versions that differ in any part are written differently. *)
Theorem C99_apart : forall v v', proper_version v -> proper_version v' -> version_text v = version_text v' -> v = v'.
Proof. exact text_apart. Qed.
Print Assumptions C99_apart.

Definition v99 : version := mkV 1 [2; 0; 10]%N (Some (Lrc, 3%N)) (Some 4%N) (Some 5%N) (Some [SText $"ubuntu1"; SNum 7]).
Example C99_case :
  proper_version v99 /\ version_text v99 = $"1!2.0.10rc3.post4.dev5+ubuntu1.7" /\
  read_version $" V1!2.0.010-Preview_3-04.DEV5+Ubuntu1-07 " = Some v99 /\
  read_version $"1.0a" = Some (mkV 0 [1; 0]%N (Some (La, 0%N)) None None None) /\
  read_version $"0.0.0.dev0" = Some (mkV 0 [0; 0; 0]%N None None (Some 0%N) None) /\
  read_version $"1..0" = None /\ read_version $"1.0+" = None /\ read_version $"1.0.a.b" = None /\ read_version [] = None /\
  (exists v, read_version $"1.0.post1" = Some v /\ next_version v Dev Minor = Ok (mkV 0 [1; 1]%N None None (Some 0%N) None)) /\
  read_version $"1.1.dev0" = Some (mkV 0 [1; 1]%N None None (Some 0%N) None).
Proof.
  split.
  { split; [discriminate|]. intros l E. injection E as <-. split; [discriminate|]. constructor; [|constructor; [exact I|constructor]].
    split; [repeat (constructor; [(left; vm_compute; split; discriminate) || (right; vm_compute; split; discriminate)|]); constructor|].
    exists (chr "u"). split; [now left|vm_compute; discriminate]. }
  repeat match goal with |- _ /\ _ => split end; try (vm_compute; reflexivity). eexists. split; vm_compute; reflexivity.
Qed.
