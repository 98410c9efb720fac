(** * The commands an ssh remote sends: /repo/augpathlib/remotes.py *)
From Coq Require Import String NArith ZArith Bool List.
From Verif Require Import Model.Py.
Import ListNotations.
Local Open Scope N_scope.

Definition SQ : N := 39.   (* ' *)
Definition DQ : N := 34.   (* the double quote *)
Definition BS : N := 92.   (* backslash *)

(** StatResult.stat_format, /repo/augpathlib/utils.py:159, including its quotes *)
Definition stat_format_text : str :=
  $"%n  %i  %o  %s  %w  %W  %x  %X  %y  %Y  %z  %Z  %g  %u  %f".
Definition stat_format : str := DQ :: stat_format_text ++ [DQ].

(** SshRemote._stat_cmd, remotes.py:897-909, with a path; [darwin] is whether the
    remote platform is darwin *)
Definition stat_cmd (darwin : bool) (format path : str) : str :=
  let cmd := if darwin then $"gstat" else $"stat" in
  let path' := match path with [] => path | _ => $" " ++ [DQ] ++ path ++ [DQ] end in
  cmd ++ $" -c " ++ format ++ path'.

(** SshRemote.checksum, remotes.py:889-891, up to and including the pipe; the
    rest is the fixed awk program *)
Definition checksum_cmd (cypher_command path : str) : str :=
  cypher_command ++ $" " ++ path ++ $" | awk '{ print $1 }';".

Section Repr.
(** [str.isprintable] for one character; a table of the standard library *)
Variable printable : N -> bool.

Definition hex_n (n : nat) (c : N) : str :=
  rev ((fix go n c := match n with O => [] | S n' => hexdigit (c mod 16) :: go n' (c / 16) end) n c).

(** [repr] of a character in a text quoted with [q] *)
Definition repr1 (q c : N) : str :=
  if ((c =? q) || (c =? BS))%bool then [BS; c]
  else if c =? 9 then BS :: $"t" else if c =? 10 then BS :: $"n" else if c =? 13 then BS :: $"r"
  else if printable c then [c]
  else if c <? 256 then BS :: $"x" ++ hex_n 2 c
  else if c <? 65536 then BS :: $"u" ++ hex_n 4 c
  else BS :: $"U" ++ hex_n 8 c.

(** [repr(s)]: double quotes when there is a single one and no double one *)
Definition py_repr (s : str) : str :=
  let q := if (has SQ s && negb (has DQ s))%bool then DQ else SQ in
  q :: flat_map (repr1 q) s ++ [q].

(** SshRemote.data, remotes.py:847-849 *)
Definition cat_cmd (path : str) : str := $"cat " ++ py_repr path.
End Repr.
