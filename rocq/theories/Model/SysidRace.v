(** * Programs that ask for the identifier of the machine at the same time:
    /repo/augpathlib/utils.py:56-85, 108-112

    What [Model.Sysid] does in one go, here call by call, with any number of programs
    of one user taking turns in any order.  Simplified: /etc/machine-id does not change
    meanwhile, /var/tmp is there and may be written, nobody removes the file, and the
    bytes of an identifier are written and read in one call each. *)
From Coq Require Import String Strings.Byte NArith ZArith Bool List.
From Verif Require Import Model.Py.
Import ListNotations.

(** Where a program is: the call it makes next. *)
Inductive pc : Type :=
| Begin                       (* utils.py:75-78 for /etc/machine-id *)
| ReadEtc                     (* 112, of /etc/machine-id *)
| Exists                      (* 76, of /var/tmp/machine-id *)
| Access                      (* 77 *)
| Size                        (* 78 *)
| Open                        (* 82: made, or cut to nothing *)
| Write                       (* 83: what was written goes out when the file is closed *)
| IsFile                      (* core.py:809, 797 *)
| Read                        (* core.py:811-819 *)
| Done (r : res bytes).       (* 112 *)

Section Race.
(** What is in /etc/machine-id, if it can be used (76-78). *)
Variable etc : option bytes.
(** what access(2) says of /var/tmp/machine-id when it is there *)
Variable readable : bool.
Variable digest : bytes -> bytes.

(** The file /var/tmp/machine-id. *)
Definition file := option bytes.

(** One call of a program whose [uuid4().hex] is [u]. *)
Definition turn (u : bytes) (p : pc) (s : file) : pc * file :=
  match p with
  | Begin => (match etc with Some _ => ReadEtc | None => Exists end, s)
  | ReadEtc => (Done (match etc with
                      | Some e => Ok (firstn 16 (digest e)) | None => Err (OSErr ENOENT) end), s)
  | Exists => (match s with Some _ => Access | None => Open end, s)
  | Access => (match s with Some _ => if readable then Size else Open | None => Open end, s)
  | Size => (match s with
             | Some b => if Nat.ltb 0 (length b) then IsFile else Open
             | None => Done (Err (OSErr ENOENT)) end, s)
  | Open => (Write, Some [])
  | Write => (IsFile, match s with
                      | Some b => Some (u ++ skipn (length u) b)   (* at the beginning of the file *)
                      | None => None end)
  | IsFile => (match s with Some _ => Read | None => Done (Err TypeError) end, s)
  | Read => (Done (match s with
                   | Some b => Ok (firstn 16 (digest b)) | None => Err (OSErr ENOENT) end), s)
  | Done r => (Done r, s)
  end.

(** The programs, by number, and the file. *)
Record state : Type := mkState { s_file : file; s_pc : nat -> pc }.

Definition step (uuid : nat -> bytes) (s : state) (i : nat) : state :=
  let (p, f) := turn (uuid i) (s_pc s i) (s_file s) in
  mkState f (fun j => if Nat.eqb i j then p else s_pc s j).

(** [l] says whose turn it is. *)
Definition run (uuid : nat -> bytes) (s : state) (l : list nat) : state :=
  fold_left (step uuid) l s.
End Race.
