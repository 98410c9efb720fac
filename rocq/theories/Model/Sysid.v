(** * The identifier of a machine: /repo/augpathlib/utils.py:56-85, 108-121 and the ids
    made of it, core.py:1178-1182, 1230 *)
From Coq Require Import String Strings.Byte NArith ZArith Bool List.
From Verif Require Import Model.Py Model.PurePath Model.Fs Model.PathOps Model.Cache.
Import ListNotations.

(** utils.py:72 and 62 *)
Definition etc_id : ppath := mkPP true [$"etc"; $"machine-id"].
Definition var_id : ppath := mkPP true [$"var"; $"tmp"; $"machine-id"].

(** ** base64.urlsafe_b64encode *)
Definition b64_char (n : N) : N :=
  (if n <? 26 then 65 + n else if n <? 52 then 71 + n else if n <? 62 then n - 4 else if n =? 62 then 45 else 95)%N.
Fixpoint urlsafe_b64encode (b : bytes) : str :=
  match b with
  | x :: y :: z :: r =>
      let x := Byte.to_N x in let y := Byte.to_N y in let z := Byte.to_N z in
      b64_char (x / 4) :: b64_char (x mod 4 * 16 + y / 16) :: b64_char (y mod 16 * 4 + z / 64) :: b64_char (z mod 64)
        :: urlsafe_b64encode r
  | [x; y] =>
      let x := Byte.to_N x in let y := Byte.to_N y in
      [b64_char (x / 4); b64_char (x mod 4 * 16 + y / 16); b64_char (y mod 16 * 4); chr "="]
  | [x] => let x := Byte.to_N x in [b64_char (x / 4); b64_char (x mod 4 * 16); chr "="; chr "="]
  | [] => []
  end%N.
(** utils.py:117-119; [s[:-2]] *)
Definition sysid_of (raw : bytes) : str :=
  let s := urlsafe_b64encode raw in firstn (length s - 2) s.

Section Sysid.
(** What access(2) says of a path there is something at. *)
Variable readable : ppath -> bool.
(** [st_size] of a directory, which the file system decides *)
Variable dirsize : nat.
(** the digest of [checksum], core.py:796-823 *)
Variable digest : bytes -> bytes.

(** ** sysidpath, utils.py:56-85 *)

(** [os.access(p, os.R_OK)], core.py:494-508 with [mode = os.R_OK]: an error is "no" *)
Definition accessf (p : ppath) : M bool :=
  catch (let! _ <- sys_stat true p ; ret (readable p))
        (fun e => match e with OSErr _ => ret false | _ => raise e end).
(** [p.stat().st_size], of a path that is followed *)
Definition st_size (p : ppath) : M nat :=
  let! n <- sys_stat true p ;
  ret match n with File d _ => length d | Dir _ _ => dirsize | Link t => length t end.
(** utils.py:76-78 *)
Definition usable (p : ppath) : M bool :=
  let! e <- p_exists p ;
  if negb e then ret false
  else let! a <- accessf p ;
       if negb a then ret false
       else let! n <- st_size p ; ret (Nat.ltb 0 n).

(** utils.py:81-85.  [open(failover, 'wt')] is the open of the machine this program
    runs on, whatever class the path is of.  [uuid] is the hex of uuid4(); it is
    written when the file is closed. *)
Definition make_id (uuid : str) : M ppath :=
  let! q <- sys_create var_id ;
  let! _ <- sys_append q (map byte_of uuid) ;
  ret var_id.

(** [asked] is 76-78 as the class of the paths answers it. *)
Definition sysidpath (asked : ppath -> M bool) (ignore_options : bool) (uuid : str) : M ppath :=
  if ignore_options then make_id uuid
  else let! a <- asked etc_id ;
       if a then ret etc_id
       else let! b <- asked var_id ;
            if b then ret var_id else make_id uuid.

(** ** _raw_id, utils.py:111-112, for paths of this machine.  [None[:16]] is a
    TypeError. *)
Definition raw_id (uuid : str) : M bytes :=
  let! p <- sysidpath usable false uuid ;
  let! f <- p_is_file p ;
  if f then let! d <- read_all p ; ret (firstn 16 (digest d)) else raise TypeError.

(** ** _bind_sysid_, utils.py:115-121.  [sysid] is the attribute of the class, what is
    returned is its new value. *)
Definition bind_sysid (sysid : option str) (uuid : str) : M str :=
  match sysid with
  | None => let! raw <- raw_id uuid ; ret (sysid_of raw)
  | Some _ => raise ValueError
  end.

(** The same for SshRemote: 76-78 are answered by the other machine, remotes.py:812-829,
    933-938, and so is [checksum], remotes.py:889-895, where what [b2sum] says of a file
    that is not there is no hexadecimal number.  [there] is what is on the other
    machine: whether the path is usable and its digest.  Simplified: the connection
    does not break. *)
Definition bind_sysid_remote (there : ppath -> option bytes) (there_usable : ppath -> bool) (sysid : option str) (uuid : str) : M str :=
  match sysid with
  | None => let! p <- sysidpath (fun p => ret (there_usable p)) false uuid ;
            match there p with
            | Some raw => ret (sysid_of (firstn 16 raw))
            | None => raise ValueError
            end
  | Some _ => raise ValueError
  end.
End Sysid.

(** ** LocalPath.id, core.py:1178-1182; the id in its metadata is the same, 1230 *)
Definition local_id (sysid : str) (p : ppath) : str := sysid ++ $":" ++ pp_str p.
