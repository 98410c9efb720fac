(** C95: programs that ask for the identifier of the machine at the same time. *)
From Coq Require Import String Strings.Byte NArith Bool List.
From Verif Require Import Model.Py Model.PurePath Model.Fs Model.Sysid Model.SysidRace.
From Verif Require Import Spec.FsSpec Spec.SysidSpec Spec.SysidRaceSpec Spec.SysidAloneSpec Proofs.SysidProofs Proofs.SysidRaceProofs Proofs.SysidAlone Proofs.GoodFs.
Import ListNotations.

(** With an identifier in /etc/machine-id all programs get that one, in every order
    of turns, and /var/tmp is not touched. *)
Theorem C95_etc :
  forall readable digest uuid e f l,
    s_file (run (Some e) readable digest uuid (fresh f) l) = f /\
    forall i r, s_pc (run (Some e) readable digest uuid (fresh f) l) i = Done r ->
      r = Ok (firstn 16 (digest e)).
Proof. exact etc_given. Qed.
Print Assumptions C95_etc.

(** The same with one in /var/tmp/machine-id. *)
Theorem C95_var :
  forall digest uuid b l, b <> [] ->
    s_file (run None true digest uuid (fresh (Some b)) l) = Some b /\
    forall i r, s_pc (run None true digest uuid (fresh (Some b)) l) i = Done r ->
      r = Ok (firstn 16 (digest b)).
Proof. exact var_given. Qed.
Print Assumptions C95_var.

(** With neither, each gets the identifier that one of them made, or that of an
    empty file; none fails; and nothing else is ever in the file. *)
Theorem C95_none_partial :
  forall readable digest uuid f l, uuids uuid -> unset f ->
    let s := run None readable digest uuid (fresh f) l in
    (s_file s = None \/ s_file s = Some [] \/ exists j, s_file s = Some (uuid j)) /\
    forall i r, s_pc s i = Done r ->
      r = Ok (firstn 16 (digest [])) \/ exists j, r = Ok (firstn 16 (digest (uuid j))).
Proof. exact none_given. Qed.
Print Assumptions C95_none_partial.

(** When all that began are done, all that begin later get the one that is left. *)
Theorem C95_later :
  forall digest uuid f l l', uuids uuid -> unset f ->
    let s := run None true digest uuid (fresh f) l in
    quiet s -> (exists i r, s_pc s i = Done r) ->
    exists j, s_file s = Some (uuid j) /\
      forall i r, s_pc s i = Begin -> s_pc (run None true digest uuid s l') i = Done r ->
        r = Ok (firstn 16 (digest (uuid j))).
Proof. exact later_given. Qed.
Print Assumptions C95_later.

(** A program alone is done after nine turns, and gets and leaves what it does in the
    model with a file system (C77). *)
Theorem C95_alone :
  forall readable dirsize digest uuid fs cwd e f r w',
    good_fs fs -> uuid <> [] -> system_is readable dirsize fs cwd e -> own_is fs cwd f ->
    bind_sysid readable dirsize digest None uuid (start fs cwd (fun _ => None)) = (r, w') ->
    let s := run e (readable own_file) digest (fun _ => map byte_of uuid) (fresh f) (repeat 0 9) in
    exists raw, given s 0 raw /\ r = Ok (sysid_of raw) /\ own_is (w_fs w') cwd (s_file s).
Proof. exact alone. Qed.
Print Assumptions C95_alone.
Example C95_alone_case :
  let r := bind_sysid (fun _ => true) 1 pad16 None $"2c3d" (start bare [] (fun _ => None)) in
  good_fs bare /\ system_is (fun _ => true) 1 bare [] None /\ own_is bare [] None /\
  fst r = Ok $"MmMzZAAAAAAAAAAAAAAAAA" /\ own_is (w_fs (snd r)) [] (Some [x32; x63; x33; x64]).
Proof.
  cbv zeta. split; [now apply good_fs_b_ok|]. split; [intros (_ & q & n & W & _); vm_compute in W; discriminate|].
  split; [eexists _, _; vm_compute; reflexivity|]. split; [vm_compute; reflexivity|]. eexists _, _. vm_compute. reflexivity.
Qed.

(** ** Cases *)
Definition race_uuid (i : nat) : bytes := repeat (match i with 0 => x61 | 1 => x62 | _ => x63 end) 32.
Lemma race_uuids : uuids race_uuid.
Proof. intro i. apply repeat_length. Qed.

(** The second asks while the first has its file open, and writes after the first has
    read: they are given different ones, and what is left is not that of the first. *)
Definition race_turns : list nat := [0; 0; 0; 1; 1; 1; 1; 0; 0; 0; 1; 1; 1; 1].

Theorem C95_same_refuted :
  exists uuid l, uuids uuid /\
    let s := run None true (fun b => b) uuid (fresh None) l in
    quiet s /\ given s 0 (firstn 16 (uuid 0)) /\ given s 1 (firstn 16 (uuid 1)) /\
    s_file s = Some (uuid 1) /\ firstn 16 (uuid 0) <> firstn 16 (uuid 1).
Proof.
  exists race_uuid, race_turns. split; [exact race_uuids|]. cbv zeta.
  split; [intros [|[|i]]; vm_compute; eauto|].
  split; [vm_compute; reflexivity|]. split; [vm_compute; reflexivity|].
  split; [vm_compute; reflexivity|]. vm_compute. discriminate.
Qed.
Print Assumptions C95_same_refuted.

(** The second cuts the file between the write and the read of the first, which is
    given the identifier of an empty file. *)
Theorem C95_empty_refuted :
  exists uuid l, uuids uuid /\
    let s := run None true (fun b => b) uuid (fresh None) l in
    given s 0 [].
Proof.
  exists race_uuid, [0; 0; 1; 1; 0; 0; 0; 1; 0]. split; [exact race_uuids|]. vm_compute. reflexivity.
Qed.
Print Assumptions C95_empty_refuted.

(** A third that begins afterwards, and a state that is quiet. *)
Example C95_case :
  quiet (run None true (fun b => b) race_uuid (fresh None) race_turns) /\
  (exists i r, s_pc (run None true (fun b => b) race_uuid (fresh None) race_turns) i = Done r) /\
  given (run None true (fun b => b) race_uuid
    (run None true (fun b => b) race_uuid (fresh None) race_turns) [2; 2; 2; 2; 2; 2]) 2
    (firstn 16 (race_uuid 1)).
Proof.
  split; [intros [|[|i]]; vm_compute; eauto|]. split; [exists 0; eexists; vm_compute; reflexivity|].
  vm_compute. reflexivity.
Qed.
