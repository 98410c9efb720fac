(** * SshRemote.access, /repo/augpathlib/remotes.py:812-829, and fs_safe_id,
    /repo/augpathlib/utils.py:44-53 *)
From Coq Require Import String NArith ZArith Bool List.
From Verif Require Import Model.Py.
Import ListNotations.
Local Open Scope N_scope.

(** The modes accepted: the words and the numbers R_OK = 4, W_OK = 2, X_OK = 1;
    anything else matches none of them. *)
Inductive access_mode : Set := MRead | MWrite | MExecute | MOther.

Definition times (b : bool) (n : N) : N := if b then n else 0.

(** remotes.py:820-829, the truth value of what is returned; stat succeeded. *)
Definition ssh_access (st_mode st_uid st_gid uid : N) (gids : list N) (mode : access_mode) : bool :=
  let r := 292 (* 0x124 *) in let w := 146 (* 0x92 *) in let x := 73 (* 0x49 *) in
  let read := N.land (N.shiftr (N.land r st_mode) 2)
                     (times (match mode with MRead => true | _ => false end) x) in
  let write := N.land (N.shiftr (N.land w st_mode) 1)
                      (times (match mode with MWrite => true | _ => false end) x) in
  let execute := N.land (N.land x st_mode)
                        (times (match mode with MExecute => true | _ => false end) x) in
  let current := read + write + execute in
  let u := 64 in let g := 8 in let e := 1 in
  let true_ n := negb (N.eqb n 0) in
  ((true_ (N.land u current) && N.eqb st_uid uid) ||
   (true_ (N.land g current) && existsb (N.eqb st_gid) gids) ||
   true_ (N.land e current))%bool.

(** remotes.py:814-818: a failing stat means no access.  [st] is the result of
    stat: its mode, uid and gid, or the exception; other exceptions pass. *)
Definition ssh_access_of (st : res (N * N * N)) (uid : N) (gids : list N) (mode : access_mode)
  : res bool :=
  match st with
  | Ok (m, u, g) => Ok (ssh_access m u g uid gids mode)
  | Err (OSErr ENOENT) | Err (OSErr EACCES) => Ok false
  | Err e => Err e
  end.

(** fs_safe_id, utils.py:44-53 *)
Definition evils : str := $" " ++ [10; 9] ++ $"*|:\/<>'" ++ [34] ++ $"?".
Definition fs_safe_id (s : str) : str :=
  fold_left (fun s evil => replace1 evil (chr "-") s) evils s.
