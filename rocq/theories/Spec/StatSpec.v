(** * What stat prints for a file *)
From Coq Require Import String NArith ZArith Bool List.
From Verif Require Import Model.Py Model.Stat.
Import ListNotations.

(** A point in time: whole seconds (rounded down) and nanoseconds. *)
Record moment : Set := mkMoment { mo_sec : Z; mo_ns : N }.

(** How the day, the time of day and the zone are written; they depend on the
    time zone of the remote. *)
Record written : Set := mkWritten { wr_date : str; wr_clock : str; wr_zone : str }.

Record info : Type := mkInfo {
  in_name : str; in_ino : N; in_hint : N; in_size : N;
  in_birth : option (moment * written);
  in_access : moment * written; in_modify : moment * written; in_change : moment * written;
  in_gid : N; in_uid : N; in_mode : N }.

Definition nine (n : N) : str := pad 9 n.

(** %x, %y, %z: "2024-01-31 10:11:12.123456789 +0100" *)
Definition human (t : moment * written) : str :=
  let '(m, w) := t in wr_date w ++ $" " ++ wr_clock w ++ $"." ++ nine (mo_ns m) ++ $" " ++ wr_zone w.
(** %X, %Y, %Z *)
Definition epoch (t : moment * written) : str := dec_Z (mo_sec (fst t)).

(** %f, for modes with a file type: four digits *)
Definition hex4 (m : N) : str :=
  map hexdigit [(m / 4096); (m / 256) mod 16; (m / 16) mod 16; m mod 16]%N.

(** %n  %i  %o  %s  %w  %W  %x  %X  %y  %Y  %z  %Z  %g  %u  %f *)
Definition stat_line (i : info) : str :=
  join $"  " [in_name i; dec_N (in_ino i); dec_N (in_hint i); dec_N (in_size i);
              match in_birth i with Some t => human t | None => $"-" end;
              match in_birth i with Some t => epoch t | None => $"0" end;
              human (in_access i); epoch (in_access i);
              human (in_modify i); epoch (in_modify i);
              human (in_change i); epoch (in_change i);
              dec_N (in_gid i); dec_N (in_uid i); hex4 (in_mode i)].

(** The time as a number of nanoseconds. *)
Definition exactly (t : moment * written) : decimal :=
  mkDec (mo_sec (fst t) * 1000000000 + Z.of_N (mo_ns (fst t)))%Z 9.

Definition same_stat (i : info) (name : str) (r : stat_result) : Prop :=
  sr_name r = name /\ sr_ino r = Z.of_N (in_ino i) /\ sr_blksize r = Z.of_N (in_hint i) /\
  sr_size r = Z.of_N (in_size i) /\
  sr_atime r = exactly (in_access i) /\ sr_mtime r = exactly (in_modify i) /\
  sr_ctime r = exactly (in_change i) /\
  sr_gid r = Z.of_N (in_gid i) /\ sr_uid r = Z.of_N (in_uid i) /\ sr_mode r = in_mode i /\
  sr_birthtime r = option_map exactly (in_birth i).

(** Values a file can have.  [plain_text]: non-empty, no blank; the clock has no
    full stop. *)
Definition plain_text (s : str) : Prop := s <> [] /\ ~ In 32%N s.
Definition good_time (t : moment * written) : Prop :=
  (mo_ns (fst t) < 1000000000)%N /\ plain_text (wr_date (snd t)) /\
  plain_text (wr_clock (snd t)) /\ ~ In 46%N (wr_clock (snd t)) /\ plain_text (wr_zone (snd t)).
Definition good_info (i : info) : Prop :=
  good_time (in_access i) /\ good_time (in_modify i) /\ good_time (in_change i) /\
  (forall t, in_birth i = Some t -> good_time t) /\
  (4096 <= in_mode i < 65536)%N.

(** Not before 1970, or without a fraction. *)
Definition not_negative (t : moment * written) : Prop :=
  (0 <= mo_sec (fst t))%Z \/ mo_ns (fst t) = 0%N.
Definition modern (i : info) : Prop :=
  not_negative (in_access i) /\ not_negative (in_modify i) /\ not_negative (in_change i) /\
  (forall t, in_birth i = Some t -> not_negative t /\ mo_sec (fst t) <> 0%Z).

Definition two_blanks (s : str) : Prop := exists a b, s = a ++ $"  " ++ b.
Definition ends_blank (s : str) : Prop := exists a, s = a ++ $" ".
