(** * C51: the commands sent to a remote shell *)
From Coq Require Import String NArith ZArith Bool List.
From Verif Require Import Model.Py Model.Shell Spec.ShellSpec Proofs.ShellProofs.
Import ListNotations.
Local Open Scope N_scope.

(** C51 for stat: exactly the paths that can stand between double quotes. *)
Theorem C51_stat_command_partial :
  forall darwin path, path <> [] ->
    (runs (stat_cmd darwin stat_format path)
       [if darwin then $"gstat" else $"stat"; $"-c"; stat_format_text; path] <-> quotable path).
Proof. exact stat_command. Qed.
Print Assumptions C51_stat_command_partial.

(** C51 for checksum: exactly the paths that need no quotes. *)
Theorem C51_checksum_command_partial :
  forall cypher path, bare cypher ->
    (runs (checksum_cmd cypher path) [cypher; path] <-> bare path).
Proof. exact checksum_command. Qed.
Print Assumptions C51_checksum_command_partial.

(** C51 for data: exactly the paths that the shell reads the way repr shows them. *)
Theorem C51_data_command_partial :
  forall (printable : N -> bool), printable 92 = true ->
    forall path, runs (cat_cmd printable path) [$"cat"; path] <-> showable printable path.
Proof. exact cat_command. Qed.
Print Assumptions C51_data_command_partial.

(** Missing in each: the other paths, for instance these. *)
Theorem C51_commands_refuted :
  forall printable, (forall c, 32 <= c -> c <= 126 -> printable c = true) ->
    ~ runs (stat_cmd false stat_format $"/home/a$HOME") [$"stat"; $"-c"; stat_format_text; $"/home/a$HOME"] /\
    ~ runs (checksum_cmd $"sha256sum" $"/home/a b") [$"sha256sum"; $"/home/a b"] /\
    ~ runs (cat_cmd printable $"/home/it's $5") [$"cat"; $"/home/it's $5"] /\
    ~ runs (cat_cmd printable ($"/home/a" ++ [BS] ++ $"b")) [$"cat"; $"/home/a" ++ [BS] ++ $"b"].
Proof. exact commands_refuted. Qed.
Print Assumptions C51_commands_refuted.

(** The wrong words. *)
Example C51_case :
  words (stat_cmd false stat_format $"/a b'c\d") = Some [$"stat"; $"-c"; stat_format_text; $"/a b'c\d"] /\
  words (stat_cmd true stat_format $"/a\\b") = Some [$"gstat"; $"-c"; stat_format_text; $"/a\b"] /\
  words (stat_cmd false stat_format $"/a`id`") = None /\
  words (checksum_cmd $"sha256sum" $"/a/b-1.txt") = Some [$"sha256sum"; $"/a/b-1.txt"] /\
  words (checksum_cmd $"sha256sum" $"/a b") = Some [$"sha256sum"; $"/a"; $"b"] /\
  words (cat_cmd (fun c => c <? 127) $"/it's") = Some [$"cat"; $"/it's"] /\
  words (cat_cmd (fun c => c <? 127) $"/a\b") = Some [$"cat"; $"/a\\b"].
Proof. repeat split; vm_compute; reflexivity. Qed.
