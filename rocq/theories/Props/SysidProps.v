(** * C77: the identifier of a machine *)
From Coq Require Import String Strings.Byte NArith ZArith Bool List.
From Verif Require Import Model.Py Model.PurePath Model.Fs Model.Access Model.Sysid
  Spec.FsSpec Spec.CopySpec Spec.SysidSpec Proofs.RunLemmas Proofs.SysidProofs.
Import ListNotations.

(** Whatever fails and at every moment: looking for the file, and taking the identifier
    from it, changes nothing but the file that is made; that is as it was, empty or the
    new identifier, and keeps its attributes.  A class that has an identifier keeps it. *)
Theorem C77_only :
  forall readable dirsize ig uuid fs cwd fault r w',
    good_fs fs -> sysidpath (usable readable dirsize) ig uuid (start fs cwd fault) = (r, w') ->
    only_made fs cwd (map byte_of uuid) (states w').
Proof. exact (fun readable dirsize ig uuid fs cwd fault r w' G => path_states _ ig uuid fs cwd fault r w' (quiet_all_usable readable dirsize) G). Qed.
Print Assumptions C77_only.

Theorem C77_bind_only :
  forall readable dirsize digest sid uuid fs cwd fault r w',
    good_fs fs -> bind_sysid readable dirsize digest sid uuid (start fs cwd fault) = (r, w') ->
    only_made fs cwd (map byte_of uuid) (states w') /\
    (forall s, sid = Some s -> r = Err ValueError /\ states w' = [fs; fs]).
Proof. exact bind_states. Qed.
Print Assumptions C77_bind_only.

Example C77_only_case :
  let f := fun t => if Nat.eqb t 3 then Some (OSErr EIO) else None in
  let run := sysidpath (usable (fun _ => true) 1) false $"2c3d" (start bare [] f) in
  fst run = Err (OSErr EIO) /\ look (w_fs (snd run)) [$"var"; $"tmp"; $"machine-id"] = Some (AFile [] []).
Proof. vm_compute. split; reflexivity. Qed.

(** When nothing fails: the file of the system if it gives one, else the own file if that
    does, else the own file made anew, where a file can be. *)
Theorem C77_which :
  forall readable dirsize uuid fs cwd r w',
    good_fs fs -> sysidpath (usable readable dirsize) false uuid (start fs cwd (fun _ => None)) = (r, w') ->
    (gives readable dirsize fs cwd system_file -> r = Ok system_file /\ w_fs w' = fs) /\
    (~ gives readable dirsize fs cwd system_file -> gives readable dirsize fs cwd own_file -> r = Ok own_file /\ w_fs w' = fs) /\
    (~ gives readable dirsize fs cwd system_file -> ~ gives readable dirsize fs cwd own_file ->
     (forall T, writes fs cwd own_file T ->
        r = Ok own_file /\ look (w_fs w') T = Some (AFile (map byte_of uuid) (file_xattrs fs T)) /\ only_at T fs (w_fs w')) /\
     ((forall T, ~ writes fs cwd own_file T) -> (exists e, r = Err (OSErr e)) /\ w_fs w' = fs)).
Proof. exact path_which. Qed.
Print Assumptions C77_which.

Theorem C77_value :
  forall readable dirsize digest uuid fs cwd r w',
    good_fs fs -> bind_sysid readable dirsize digest None uuid (start fs cwd (fun _ => None)) = (r, w') ->
    let of d := sysid_of (firstn 16 (digest d)) in
    (gives readable dirsize fs cwd system_file -> id_read of fs cwd system_file r) /\
    (~ gives readable dirsize fs cwd system_file -> gives readable dirsize fs cwd own_file -> id_read of fs cwd own_file r) /\
    (~ gives readable dirsize fs cwd system_file -> ~ gives readable dirsize fs cwd own_file ->
     (exists T, writes fs cwd own_file T) -> r = Ok (of (map byte_of uuid))).
Proof. exact bind_value. Qed.
Print Assumptions C77_value.

(** Told to ignore both files, a new one is made whatever they give. *)
Theorem C77_fresh :
  forall asked uuid fs cwd T, good_fs fs -> writes fs cwd own_file T ->
    exists w', sysidpath asked true uuid (start fs cwd (fun _ => None)) = (Ok own_file, w') /\
      look (w_fs w') T = Some (AFile (map byte_of uuid) (file_xattrs fs T)) /\ only_at T fs (w_fs w').
Proof. exact path_fresh. Qed.
Print Assumptions C77_fresh.

Example C77_fresh_case :
  writes with_system [] own_file [$"var"; $"tmp"; $"machine-id"] /\
  look (w_fs (snd (run_of (sysidpath (usable (fun _ => true) 1) true $"2c3d") with_system))) [$"var"; $"tmp"; $"machine-id"] = Some (AFile (text $"2c3d") []).
Proof. split; [left; eexists _, _; vm_compute; reflexivity|vm_compute; reflexivity]. Qed.

Example C77_which_case :
  gives (fun _ => true) 1 with_system [] system_file /\
  fst (run_of (bind_sysid (fun _ => true) 1 pad16 None $"2c3d") with_system) = Ok $"ZmZlZQAAAAAAAAAAAAAAAA" /\
  fst (run_of (bind_sysid (fun _ => true) 1 pad16 None $"2c3d") with_own) = Ok $"MGExYgAAAAAAAAAAAAAAAA" /\
  fst (run_of (bind_sysid (fun _ => true) 1 pad16 None $"2c3d") bare) = Ok $"MmMzZAAAAAAAAAAAAAAAAA".
Proof.
  split; [split; [reflexivity|]; eexists _, _; split; [vm_compute; reflexivity|discriminate]|]. vm_compute. repeat split; reflexivity.
Qed.

(** An identifier that was given, be it a new one, is given again to every program that
    asks, wherever it runs, and nothing is changed then.  Missing from the full
    statement: an own file that may be written and not read, and a file of the system
    that appears later; see below. *)
Theorem C77_again_partial :
  forall readable dirsize digest uuid fs cwd i w1,
    good_fs fs -> readable var_id = true -> uuid <> [] ->
    bind_sysid readable dirsize digest None uuid (start fs cwd (fun _ => None)) = (Ok i, w1) ->
    forall cwd' uuid', exists w2,
      bind_sysid readable dirsize digest None uuid' (start (w_fs w1) cwd' (fun _ => None)) = (Ok i, w2) /\
      RunLemmas.same (start (w_fs w1) cwd' (fun _ => None)) w2.
Proof. exact bind_again. Qed.
Print Assumptions C77_again_partial.

Example C77_again_case :
  let w1 := snd (run_of (bind_sysid (fun _ => true) 1 pad16 None $"2c3d") bare) in
  fst (run_of (bind_sysid (fun _ => true) 1 pad16 None $"4e5f") (w_fs w1)) = Ok $"MmMzZAAAAAAAAAAAAAAAAA".
Proof. vm_compute. reflexivity. Qed.

(** The identifier is the number the bytes are, to the base of 64: 22 letters, digits,
    "-" and "_", which are safe in the name of a file.  No two keys of 16 bytes share it. *)
Theorem C77_sysid :
  forall raw, length raw = 16%nat ->
    length (sysid_of raw) = 22%nat /\ (forall c, In c (sysid_of raw) -> id_char c) /\ fs_safe_id (sysid_of raw) = sysid_of raw.
Proof. exact sysid_spec. Qed.
Print Assumptions C77_sysid.

Theorem C77_sysid_value :
  forall raw, length raw = 16%nat -> value64 0 (sysid_of raw) = (value256 0 raw * 16)%N.
Proof. exact sysid_value. Qed.
Print Assumptions C77_sysid_value.

Theorem C77_distinct :
  forall a b, length a = 16%nat -> length b = 16%nat -> sysid_of a = sysid_of b -> a = b.
Proof. exact sysid_inj. Qed.
Print Assumptions C77_distinct.

(** The ids of two paths are the same only for the same path of the same machine. *)
Theorem C77_id :
  forall a b s t, length a = 16%nat -> length b = 16%nat ->
    local_id (sysid_of a) (pp_parse s) = local_id (sysid_of b) (pp_parse t) -> a = b /\ pp_parse s = pp_parse t.
Proof. exact local_id_inj. Qed.
Print Assumptions C77_id.

Example C77_sysid_case :
  sysid_of [x00; x10; x83; x10; x51; x87; x20; x92; x8b; x30; xd3; x8f; x41; x14; xfb; xff] = $"ABCDEFGHIJKLMNOPQRT7_w" /\
  local_id $"ABCDEFGHIJKLMNOPQRT7_w" (pp_parse $"/a//b/") = $"ABCDEFGHIJKLMNOPQRT7_w:/a/b".
Proof. vm_compute. split; reflexivity. Qed.

(** Taking the identifier of another machine that has one of the two files changes
    nothing here. *)
Theorem C77_remote_partial :
  forall there there_usable sid uuid fs cwd fault r w',
    good_fs fs -> bind_sysid_remote there there_usable sid uuid (start fs cwd fault) = (r, w') ->
    (sid <> None \/ there_usable etc_id = true \/ there_usable var_id = true) -> forall s, In s (states w') -> s = fs.
Proof. exact remote_states. Qed.
Print Assumptions C77_remote_partial.

(** ** Where the full statement is false *)

(** An own file that may be written but not read is made anew each time. *)
Theorem C77_unreadable_refuted : ~ (forall readable dirsize digest uuid uuid' fs cwd i w1 r w2, good_fs fs -> uuid <> [] ->
  bind_sysid readable dirsize digest None uuid (start fs cwd (fun _ => None)) = (Ok i, w1) ->
  bind_sysid readable dirsize digest None uuid' (start (w_fs w1) cwd (fun _ => None)) = (r, w2) -> r = Ok i).
Proof. exact unreadable_refuted. Qed.
Print Assumptions C77_unreadable_refuted.

(** A file of the system that appears gives the machine another identifier, though its own
    is there still. *)
Theorem C77_appears_refuted : ~ (forall readable dirsize digest uuid fs fs' cwd i w1 r w2, good_fs fs -> good_fs fs' -> (forall p, readable p = true) ->
  only_at [$"etc"; $"machine-id"] fs fs' ->
  bind_sysid readable dirsize digest None uuid (start fs cwd (fun _ => None)) = (Ok i, w1) ->
  bind_sysid readable dirsize digest None uuid (start fs' cwd (fun _ => None)) = (r, w2) -> r = Ok i).
Proof. exact appears_refuted. Qed.
Print Assumptions C77_appears_refuted.

(** A directory of that name is taken for the file, and there is no identifier at all. *)
Theorem C77_directory_refuted : ~ (forall readable dirsize digest uuid fs cwd r w', good_fs fs -> (forall p, readable p = true) -> (exists T, writes fs cwd own_file T) ->
  bind_sysid readable dirsize digest None uuid (start fs cwd (fun _ => None)) = (r, w') -> exists i, r = Ok i).
Proof. exact directory_refuted. Qed.
Print Assumptions C77_directory_refuted.

(** Another machine without either file: the new identifier is written here, over the
    own one of this machine. *)
Theorem C77_remote_refuted : ~ (forall readable dirsize digest there there_usable uuid u2 u3 fs cwd i w1 r2 w2 r3 w3, good_fs fs -> (forall p, readable p = true) ->
  bind_sysid readable dirsize digest None uuid (start fs cwd (fun _ => None)) = (Ok i, w1) ->
  bind_sysid_remote there there_usable None u2 (start (w_fs w1) cwd (fun _ => None)) = (r2, w2) ->
  bind_sysid readable dirsize digest None u3 (start (w_fs w2) cwd (fun _ => None)) = (r3, w3) -> r3 = Ok i).
Proof. exact remote_refuted. Qed.
Print Assumptions C77_remote_refuted.

(** Relative paths have the same id in whatever directory they are read. *)
Theorem C77_relative_refuted : ~ (forall s fs cwd cwd' p p' q q', good_fs fs -> local_id s p = local_id s p' -> leads fs cwd p q -> leads fs cwd' p' q' -> q = q').
Proof. exact relative_refuted. Qed.
Print Assumptions C77_relative_refuted.
