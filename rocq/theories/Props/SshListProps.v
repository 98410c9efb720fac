(** * C62: listing a directory at the other end of ssh *)
From Coq Require Import String Strings.Byte PeanoNat NArith ZArith Bool List.
From Verif Require Import Model.Py Model.Stat Model.Shell Model.SshList Spec.StatSpec Spec.SshListSpec Proofs.SshListProofs.
Import ListNotations.

(** C62.  [children] gives every entry of a directory, and no other, with its stat and,
    where it is not a directory, with its checksum: for the directories with something
    that is not hidden, names that the format can carry and a short command. *)
Theorem C62_children_partial :
  forall sum l cmd raw,
    l <> [] -> one_line sum -> (forall e, In e l -> readable e) -> NoDup (map e_name l) ->
    (length cmd <= columns)%nat -> shown cmd (printed sum l) raw ->
    exists out stats checks, ssh cmd raw = Ok out /\ listing out = Ok (stats, checks) /\
      (forall e, In e l ->
         (exists r, dict_get (e_name e) stats = Some r /\ same_stat (e_info e) (e_name e) r) /\
         dict_get (e_name e) checks = e_digest e) /\
      forall k, ~ In k (map e_name l) -> dict_get k stats = None /\ dict_get k checks = None.
Proof. exact listing_read. Qed.
Print Assumptions C62_children_partial.

(** Every directory where all is hidden, the empty one among them: an error. *)
Theorem C62_hidden_refuted :
  forall sum l cmd raw,
    one_line sum -> sum <> [] -> (forall e, In e l -> readable e) -> (length cmd <= columns)%nat ->
    shown cmd (printed_hidden sum l) raw ->
    exists out, ssh cmd raw = Ok out /\ listing out = Err ValueError.
Proof. exact hidden_fails. Qed.
Print Assumptions C62_hidden_refuted.

(** A path a little longer than the columns leave room for: an error, whatever is there. *)
Theorem C62_long_refuted :
  forall darwin cypher rpath raw, (88 < length rpath + length cypher)%nat ->
    ssh (children_cmd darwin cypher rpath) raw = Err CommandTooLongErr.
Proof. exact long_command. Qed.
Print Assumptions C62_long_refuted.

(** [is_dir] tells the directories from the rest; [is_file] the regular files that are
    not empty from the rest, so it is wrong about every empty file. *)
Theorem C62_kind_partial :
  forall k cmd raw, shown cmd [kind_text k] raw -> (length cmd <= columns)%nat ->
    exists out, ssh cmd raw = Ok out /\
      (is_dir_out out = true <-> k = Directory) /\
      (is_file_out out = true <-> exists n, k = Regular n /\ n <> 0%N).
Proof. exact kind_read. Qed.
Print Assumptions C62_kind_partial.

Definition C62_time : moment * written := (mkMoment 1562270579 123456789, mkWritten $"2019-07-04" $"13:02:59" $"-0700").
Definition C62_entry (name : str) (ino size mode : N) (d : option bytes) : entry :=
  mkEntry (mkInfo name ino 4096 size (Some C62_time) C62_time C62_time C62_time 100 1000 mode) d.
Definition C62_sum : str := $"sha256sum".
Definition C62_cmd : str := children_cmd false C62_sum $"/srv/data".
Definition C62_dots : list entry := [C62_entry $"." 7 4096 16877 None; C62_entry $".." 2 4096 16877 None].
Definition C62_dir : list entry := C62_dots ++ [C62_entry $"sub dir" 9 4096 16877 None; C62_entry $"data.csv" 11 42 33188 (Some [x12; xab; xff])].
Definition C62_term (lines : list str) : bytes :=
  match utf8_enc (C62_cmd ++ eol ++ flat_map (fun l => l ++ eol) lines) with Some b => b | None => [] end.
Definition C62_out (lines : list str) : res (list (str * stat_result) * list (str * bytes)) :=
  do out <- ssh C62_cmd (C62_term lines) ; listing out.

Example C62_readable : forall e, In e C62_dir -> readable e.
Proof.
  assert (T : good_time C62_time).
  { unfold good_time, plain_text, C62_time. cbn. repeat split; try discriminate; intro K; repeat (destruct K as [K|K]; [discriminate K|]); destruct K. }
  assert (P : forall name ino size mode d, (4096 <= mode < 65536)%N -> one_line (stat_line (e_info (C62_entry name ino size mode d))) -> name <> [] -> ~ two_blanks name ->
    is_space (hd 0%N name) = false -> is_space (last name 0%N) = false ->
    (d <> None -> ~ In BSL name /\ ~ exists a b, name = a ++ $"Is a directory" ++ b) -> readable (C62_entry name ino size mode d)).
  { intros name ino size mode d M O N B H L D. split; [split; [exact T|]; split; [exact T|]; split; [exact T|]; split; [intros t [= <-]; exact T|exact M]|].
    split; [|split; [exact O|]; split; [exact N|]; split; [exact B|]; split; [exact H|]; split; [exact L|exact D]].
    unfold modern, not_negative. cbn. split; [left; discriminate|]. split; [left; discriminate|]. split; [left; discriminate|]. intros t [= <-]. cbn. split; [left; discriminate|discriminate]. }
  intros e I. repeat (destruct I as [<-|I]; [apply P|]); try contradiction; try (split; [discriminate|reflexivity]); try discriminate; try reflexivity; try congruence;
    try (split; intro K; vm_compute in K; repeat (destruct K as [K|K]; [discriminate K|]); contradiction);
    try (intros (a & b & E); vm_compute in E; repeat (destruct a as [|? a]; [discriminate E|injection E as ? E]); destruct a; discriminate).
  intros _. split; [intro K; vm_compute in K; repeat (destruct K as [K|K]; [discriminate K|]); contradiction|].
  intros (a & b & E). vm_compute in E. repeat (destruct a as [|? a]; [discriminate E|injection E as ? E]). destruct a; discriminate.
Qed.

(** A directory in a directory, and a file *)
Example C62_case :
  C62_dir <> [] /\ one_line C62_sum /\ NoDup (map e_name C62_dir) /\
  (length C62_cmd <= columns)%nat /\ shown C62_cmd (printed C62_sum C62_dir) (C62_term (printed C62_sum C62_dir)) /\
  (do r <- C62_out (printed C62_sum C62_dir) ; Ok (map fst (fst r), snd r)) =
    Ok ([$"."; $".."; $"sub dir"; $"data.csv"], [($"data.csv", [x12; xab; xff])]).
Proof.
  split; [discriminate|]. split; [split; intro K; vm_compute in K; repeat (destruct K as [K|K]; [discriminate K|]); contradiction|].
  split; [vm_compute; repeat constructor; intro K; repeat (destruct K as [K|K]; [discriminate K|]); contradiction|].
  split; [apply Nat.leb_le; vm_compute; reflexivity|]. split; vm_compute; reflexivity.
Qed.

(** Nothing but what is hidden *)
Example C62_hidden_case :
  incl C62_dots C62_dir /\ C62_out (printed_hidden C62_sum C62_dots) = Err ValueError.
Proof. split; [intros e I; apply in_or_app; now left|vm_compute; reflexivity]. Qed.

(** A file whose name has a backslash: an error for the whole directory.  A file whose
    name has the words of the message: no checksum. *)
Theorem C62_names_refuted :
  C62_out (printed C62_sum (C62_dots ++ [C62_entry [97; 92; 98]%N 11 42 33188 (Some [x12])])) = Err ValueError /\
  (do r <- C62_out (printed C62_sum (C62_dots ++ [C62_entry $"Is a directory" 11 42 33188 (Some [x12]); C62_entry $"b" 12 42 33188 (Some [x12])])) ; Ok (map fst (fst r), snd r)) =
    Ok ([$"."; $".."; $"Is a directory"; $"b"], [($"b", [x12])]).
Proof. split; vm_compute; reflexivity. Qed.
Print Assumptions C62_names_refuted.
