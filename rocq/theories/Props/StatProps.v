(** * C38: the output of stat *)
From Coq Require Import String NArith ZArith Bool List.
From Verif Require Import Model.Py Model.Stat Spec.StatSpec Proofs.StatProofs.
Import ListNotations.

(** C38.  The fields come back exactly when the name has no two blanks in a row
    and does not end in a blank. *)
Theorem C38_stat_round_trip_partial :
  forall out i,
    good_info i -> modern i -> utf8_enc (stat_line i) = Some out ->
    (exists r, StatResult out = Ok r /\ same_stat i (in_name i) r) <->
    ~ two_blanks (in_name i) /\ ~ ends_blank (in_name i).
Proof. exact stat_exact. Qed.
Print Assumptions C38_stat_round_trip_partial.

(** What happens to the other names: an error, or a name without its last blank.
    The second class is within the statement, which asks only that there be no two
    blanks in a row. *)
Theorem C38_stat_names_refuted :
  forall out i,
    good_info i -> modern i -> utf8_enc (stat_line i) = Some out ->
    (two_blanks (in_name i) -> StatResult out = Err ValueError) /\
    (forall name, ~ two_blanks (in_name i) -> in_name i = name ++ $" " ->
       exists r, StatResult out = Ok r /\ same_stat i name r).
Proof. exact stat_names_refuted. Qed.
Print Assumptions C38_stat_names_refuted.

(** Without [modern]: exactly which times come back.  The ones before 1970 with a
    fraction do not, nor a time of birth in the second 0. *)
Theorem C38_stat_times_refuted :
  forall out i,
    good_info i -> utf8_enc (stat_line i) = Some out ->
    ~ two_blanks (in_name i) -> ~ ends_blank (in_name i) ->
    exists r, StatResult out = Ok r /\
      (sr_atime r = exactly (in_access i) <-> not_negative (in_access i)) /\
      (sr_mtime r = exactly (in_modify i) <-> not_negative (in_modify i)) /\
      (sr_ctime r = exactly (in_change i) <-> not_negative (in_change i)) /\
      (forall t, in_birth i = Some t ->
         (sr_birthtime r = Some (exactly t) <-> not_negative t /\ mo_sec (fst t) <> 0%Z)).
Proof. exact stat_times. Qed.
Print Assumptions C38_stat_times_refuted.

(** Whatever the name, even one that is not text, a file that stat reports on is
    never taken for a missing or a forbidden one. *)
Theorem C38_stat_found :
  forall pre m, (m < 65536)%N ->
    forall e, ssh_stat (pre ++ map byte_of (hex4 m)) <> Err (OSErr e).
Proof. exact stat_found. Qed.
Print Assumptions C38_stat_found.

(** The messages of stat become the matching exceptions. *)
Theorem C38_stat_messages :
  forall s out, utf8_enc s = Some out -> ~ two_blanks s ->
    (forall a, s = a ++ $"Permission denied" -> ssh_stat out = Err (OSErr EACCES)) /\
    (forall a, s = a ++ $"No such file or directory" -> ssh_stat out = Err (OSErr ENOENT)).
Proof. exact stat_message. Qed.
Print Assumptions C38_stat_messages.

Definition C38_time (s : Z) (n : N) : moment * written :=
  (mkMoment s n, mkWritten $"2019-07-04" $"13:02:59" $"-0700").
Definition C38_info (name : str) (s : Z) : info :=
  mkInfo name 1234 4096 77 (Some (C38_time 1562270579 5)) (C38_time s 123456789)
         (C38_time 1562270580 0) (C38_time 1562270581 999999999) 100 1000 33188.

Example C38_case :
  let i := C38_info $"a b" 1562270579 in
  stat_line i =
    $"a b  1234  4096  77  2019-07-04 13:02:59.000000005 -0700  1562270579  2019-07-04 13:02:59.123456789 -0700  1562270579  2019-07-04 13:02:59.000000000 -0700  1562270580  2019-07-04 13:02:59.999999999 -0700  1562270581  100  1000  81a4"
  /\ match utf8_enc (stat_line i) with
     | Some out => match StatResult out with
                   | Ok r => sr_name r = $"a b" /\ sr_atime r = mkDec 1562270579123456789 9 /\ sr_mode r = 33188%N
                   | Err _ => False end
     | None => False end
  /\ match utf8_enc (stat_line (C38_info $"a  b" 1)) with
     | Some out => StatResult out = Err ValueError | None => False end
  /\ match utf8_enc (stat_line (C38_info $"a " (-2))) with
     | Some out => match StatResult out with
                   | Ok r => sr_name r = $"a" /\ sr_atime r = mkDec (-2123456789) 9
                   | Err _ => False end
     | None => False end
  /\ ssh_stat (ascii_bytes "stat: cannot statx '/x': No such file or directory") = Err (OSErr ENOENT).
Proof. cbn zeta. split; [reflexivity|]. split; [vm_compute; auto|]. repeat split; vm_compute; auto. Qed.

Example C38_case_good : good_info (C38_info $"a b" 1562270579) /\ modern (C38_info $"a b" 1562270579).
Proof.
  assert (P : forall s n, (n < 1000000000)%N -> good_time (C38_time s n)).
  { intros s n H. unfold good_time, plain_text, C38_time. cbn. repeat split; try assumption; try discriminate;
    intro K; repeat (destruct K as [K|K]; [discriminate K|]); destruct K. }
  split.
  - split; [now apply P|]. split; [now apply P|]. split; [now apply P|]. split; [|split; [discriminate|reflexivity]].
    intros t [= <-]. now apply P.
  - unfold modern, not_negative. cbn. split; [left; discriminate|]. split; [left; discriminate|].
    split; [left; discriminate|]. intros t [= <-]. cbn. split; [left; discriminate|discriminate].
Qed.
