(** * C37, C43, C50: permission bits and safe names *)
From Coq Require Import String NArith ZArith Bool List.
From Verif Require Import Model.Py Model.Access Spec.AccessSpec Proofs.AccessProofs.
Import ListNotations.
Local Open Scope N_scope.

(** C37. *)
Theorem C37_access_bits :
  forall st_mode st_uid st_gid uid gids m,
    ssh_access st_mode st_uid st_gid uid gids m = true <->
    exists c, belongs st_uid st_gid uid gids c /\ granted st_mode c m.
Proof. exact access_exact. Qed.
Print Assumptions C37_access_bits.

Example C37_case :
  ssh_access 33188 1000 100 1000 [100; 4] MWrite = true /\
  ssh_access 33188 1000 100 1001 [100; 4] MWrite = false /\
  ssh_access 33200 0 4 1000 [100; 4] MExecute = false /\
  ssh_access 33208 0 4 1000 [100; 4] MExecute = true /\
  ssh_access 33279 0 4 1000 [100; 4] MOther = false.
Proof. repeat split; reflexivity. Qed.

(** C50, what holds: whatever the system grants is granted, and the two rules
    agree on modes that do not give more to a wider class. *)
Theorem C50_posix_partial :
  forall st_mode st_uid st_gid uid gids m,
    (granted st_mode (posix_class st_uid st_gid uid gids) m ->
       ssh_access st_mode st_uid st_gid uid gids m = true) /\
    ((granted st_mode Everyone m -> granted st_mode Group m) ->
     (granted st_mode Group m -> granted st_mode Owner m) ->
     (ssh_access st_mode st_uid st_gid uid gids m = true <->
      granted st_mode (posix_class st_uid st_gid uid gids) m)).
Proof.
  exact (fun a b c d e f => conj (access_posix_complete a b c d e f) (access_posix_monotone a b c d e f)).
Qed.
Print Assumptions C50_posix_partial.

(** Missing: where the owner or group is excluded but everyone is not, access is
    reported although the system denies it. *)
Theorem C50_posix_refuted :
  forall st_mode st_uid st_gid uid gids m,
    posix_class st_uid st_gid uid gids <> Everyone -> granted st_mode Everyone m ->
    ~ granted st_mode (posix_class st_uid st_gid uid gids) m ->
    ssh_access st_mode st_uid st_gid uid gids m = true.
Proof. exact access_posix_wrong. Qed.
Print Assumptions C50_posix_refuted.

(** Mode 0604: the members of the group are shut out. *)
Example C50_case :
  posix_class 0 4 1000 [100; 4] = Group /\ granted 33156 Everyone MRead /\
  ~ granted 33156 Group MRead /\ ssh_access 33156 0 4 1000 [100; 4] MRead = true.
Proof.
  split; [reflexivity|]. split; [exists 2; split; reflexivity|]. split; [|reflexivity].
  intros (b & B & T). injection B as <-. discriminate T.
Qed.

(** C43. *)
Theorem C43_fs_safe_id :
  forall s,
    length (fs_safe_id s) = length s /\
    (forall c, In c (fs_safe_id s) -> ~ unsafe c) /\
    ((forall c, In c s -> ~ unsafe c) -> fs_safe_id s = s) /\
    fs_safe_id (fs_safe_id s) = fs_safe_id s /\
    (forall i c, nth_error s i = Some c ->
       (unsafe c -> nth_error (fs_safe_id s) i = Some (chr "-")) /\
       (~ unsafe c -> nth_error (fs_safe_id s) i = Some c)).
Proof. exact fs_safe_spec. Qed.
Print Assumptions C43_fs_safe_id.

Example C43_case :
  fs_safe_id $"N:package:a b/c" = $"N-package-a-b-c" /\ fs_safe_id $"a.b" = $"a.b" /\
  fs_safe_id $"a:b" = fs_safe_id $"a/b".
Proof. repeat split; reflexivity. Qed.
