(** * Programs that exchange the same two paths at the same time:
    /repo/augpathlib/core.py:537-588, swap.py:28-41

    What [Swap.p_swap_carefree] does in one go, here call by call, with any number of programs taking
    turns in any order.  Simplified: what is at the two paths are files or directories, not links, neither
    inside the other, on one device; nobody else changes them and no call fails otherwise; the names that
    mkdtemp makes are new; a rename always replaces what is at the new path; closing the
    descriptors (swap.py:38-39) is left out. *)
From Coq Require Import Bool List.
From Verif Require Import Model.Py.
Import ListNotations.

(** Where a program is: the call it makes next. *)
Inductive wpc : Type :=
| WHere1 | WHere2 (se : bool)  (* core.py:573, 574: [exists]; then 575-580 *)
| WStat1 | WStat2              (* 582, 583 *)
| WOpen1 | WOpen2              (* swap.py:30, 31 *)
| WXchg                        (* swap.py:34-37 *)
| WTemp                        (* core.py:549 *)
| WAway                        (* 555: target to temp *)
| WOver                        (* 556: self to target *)
| WBack                        (* 557: temp to self *)
| WRmdir                       (* 558 *)
| WDone (r : res unit).

Section Race.
Variable E : Type.                (* what is at a path *)

(** The two paths ([false] and [true]), and the temporary directory of each program, with what is in it. *)
Record wdisk : Type := mkWD { w_at : bool -> option E; w_tmp : nat -> option (option E) }.

Definition put_at (b : bool) (x : option E) (d : wdisk) : wdisk :=
  mkWD (fun c => if Bool.eqb b c then x else w_at d c) (w_tmp d).
Definition put_tmp (i : nat) (x : option (option E)) (d : wdisk) : wdisk :=
  mkWD (w_at d) (fun j => if Nat.eqb i j then x else w_tmp d j).

(** One call of program [i], whose [self] is the path [a] and whose target the other.  [ok]: renameat2
    with these paths does what it should (it does not for relative paths to files, nor on other
    systems than Linux, where it raises). *)
Definition wturn (ok : bool) (a : bool) (i : nat) (p : wpc) (d : wdisk) : wpc * wdisk :=
  let b := negb a in
  let there (c : bool) (q : wpc) := (match w_at d c with Some _ => q | None => WTemp end, d) in
  match p with
  | WHere1 => (WHere2 (match w_at d a with Some _ => true | None => false end), d)
  | WHere2 se => if se then there b WStat1 else (WTemp, d)
  | WStat1 => there a WStat2
  | WStat2 => there b WOpen1
  | WOpen1 => there a WOpen2
  | WOpen2 => there b WXchg
  | WXchg => match w_at d a, w_at d b with
             | Some x, Some y => if ok then (WDone (Ok tt), put_at a (Some y) (put_at b (Some x) d)) else (WTemp, d)
             | _, _ => (WTemp, d)
             end
  | WTemp => (WAway, put_tmp i (Some None) d)
  | WAway => match w_at d b with
             | Some y => (WOver, put_at b None (put_tmp i (Some (Some y)) d))
             | None => (WDone (Err (OSErr ENOENT)), d)
             end
  | WOver => match w_at d a with
             | Some x => (WBack, put_at a None (put_at b (Some x) d))
             | None => (WDone (Err (OSErr ENOENT)), d)
             end
  | WBack => match w_tmp d i with
             | Some (Some y) => (WRmdir, put_at a (Some y) (put_tmp i (Some None) d))
             | _ => (WDone (Err (OSErr ENOENT)), d)
             end
  | WRmdir => match w_tmp d i with
              | Some None => (WDone (Ok tt), put_tmp i None d)
              | Some (Some _) => (WDone (Err (OSErr ENOTEMPTY)), d)
              | None => (WDone (Err (OSErr ENOENT)), d)
              end
  | WDone r => (WDone r, d)
  end.

(** The programs, by number, and the disk. *)
Record wstate : Type := mkWS { w_disk : wdisk; w_pc : nat -> wpc }.
Definition wstep (ok a : nat -> bool) (s : wstate) (i : nat) : wstate :=
  let (p, d) := wturn (ok i) (a i) i (w_pc s i) (w_disk s) in
  mkWS d (fun j => if Nat.eqb i j then p else w_pc s j).
(** [l] says whose turn it is. *)
Definition wrun (ok a : nat -> bool) (s : wstate) (l : list nat) : wstate := fold_left (wstep ok a) l s.
End Race.
