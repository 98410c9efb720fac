(** * Programs that fetch the same file at the same time:
    /repo/augpathlib/caches.py:867-930, 1076-1105, 1281-1335, core.py:465-472, 1365-1402

    What [Cache.fetch] does in one go, here in steps, with any number of programs taking turns in any order.  A
    step changes the disk by at most one call.  Simplified: the metadata at the path has a file id, the size and the checksum
    of what the remote has, and is within the limit; whether it has the error 'checksum-mismatch' is all that is kept of it;
    the calls with which metadata is read of a file, or of a link, are one step, and so are those with which it is set;
    nobody else changes the path; nothing is a directory; reading the id for the log (903-904)
    is left out; a chunk is written by one call; there is no backup. *)
From Coq Require Import String Strings.Byte Bool List.
From Verif Require Import Model.Py Model.PathOps.
Import ListNotations.

(** What is at the path; with a link there is metadata. *)
Inductive fentry : Type := EGone | ELink (bad : bool) | EFile (ino : nat).
(** The files, with their content and the metadata in their attributes; the next number for a new one *)
Record fdisk : Type := mkFD { f_at : fentry; f_data : nat -> bytes; f_meta : nat -> option bool; f_next : nat }.

Definition set_entry (e : fentry) (d : fdisk) : fdisk := mkFD e (f_data d) (f_meta d) (f_next d).
Definition set_data (k : nat) (b : bytes) (d : fdisk) : fdisk :=
  mkFD (f_at d) (fun j => if Nat.eqb k j then b else f_data d j) (f_meta d) (f_next d).
Definition set_fmeta (k : nat) (m : option bool) (d : fdisk) : fdisk :=
  mkFD (f_at d) (f_data d) (fun j => if Nat.eqb k j then m else f_meta d j) (f_next d).
(** A new empty file, without metadata, at the path *)
Definition make (d : fdisk) : fdisk :=
  let k := f_next d in
  mkFD (EFile k) (fun j => if Nat.eqb k j then [] else f_data d j) (fun j => if Nat.eqb k j then None else f_meta d j) (S k).

(** write(2) at [off]: what is missing before it reads as zero *)
Definition write_at (off : nat) (c b : bytes) : bytes :=
  firstn off (b ++ repeat x00 (off - length b)) ++ c ++ skipn (off + length c) b.

(** Where a program is: the step it makes next.  [b]: the metadata that it read has the error. *)
Inductive fpc : Type :=
| FExists                                  (* caches.py:1288, for [self.meta] at 869 *)
| FAttr                                    (* 1291: the attributes *)
| FIsLink                                  (* 1295 *)
| FRead                                    (* 1297-1298: the link *)
| FBroken (b : bool)                       (* 895 *)
| FUnlink (b : bool)                       (* 897 *)
| FTouch (b : bool)                        (* 898 *)
| FSet (b : bool)                          (* 899 with 1320 *)
| FSetX (b : bool)                         (* 1321 with 1092 *)
| FMkLink (b : bool)                       (* 1331-1335 *)
| FFirst (b : bool)                        (* 905 with core.py:1366 *)
| FOpen (b : bool)                         (* core.py:1367 *)
| FWrite (b : bool) (ino off : nat) (left : list bytes)   (* 1368-1371 *)
| FAfter (b : bool)                        (* 1394-1402 *)
| FSize (b : bool)                         (* caches.py:906 *)
| FSum                                     (* 917-918 *)
| FBad                                     (* 924-926 *)
| FDone (r : res unit).

Section Race.
Variable D : bytes.                          (* what the metadata is of *)

(** One step of a program to which the remote gives [got] and then ends or, with [brk], raises. *)
Definition fturn (got : list bytes) (brk : option exn) (p : fpc) (d : fdisk) : fpc * fdisk :=
  match p with
  | FExists => (match f_at d with EFile _ => FAttr | ELink _ => FIsLink | EGone => FDone (Err NoCachedMetadataError) end, d)
  | FAttr => (match f_at d with
              | EFile k => match f_meta d k with Some b => FBroken b | None => FDone (Err NoCachedMetadataError) end
              | _ => FDone (Err NoCachedMetadataError)
              end, d)
  | FIsLink => (match f_at d with ELink _ => FRead | _ => FDone (Err NoCachedMetadataError) end, d)
  | FRead => (match f_at d with ELink b => FBroken b | _ => FDone (Err NoCachedMetadataError) end, d)
  | FBroken b => (match f_at d with ELink _ => FUnlink b | _ => FFirst b end, d)
  | FUnlink b => match f_at d with
                 | EGone => (FDone (Err (OSErr ENOENT)), d)
                 | _ => (FTouch b, set_entry EGone d)
                 end
  | FTouch b => match f_at d with
                | EGone => (FSet b, make d)
                | EFile _ => (FSet b, d)
                | ELink _ => (FDone (Err (OSErr ENOENT)), d)       (* it leads to a directory that is not there *)
                end
  | FSet b => (match f_at d with EFile _ => FSetX b | _ => FMkLink b end, d)
  | FSetX b => match f_at d with
               | EFile k => (FFirst b, set_fmeta k (Some (b || match f_meta d k with Some o => o | None => false end)) d)   (* C49 *)
               | _ => (FDone (Err (OSErr ENOENT)), d)
               end
  | FMkLink b => (FFirst b, match f_at d with
                            | EGone => set_entry (ELink b) d
                            | ELink _ => d
                            | EFile k => set_fmeta k (Some (b || match f_meta d k with Some o => o | None => false end)) d
                            end)
  | FFirst b => (match got with
                 | [] => FDone (Err (match brk with Some e => e | None => StopIteration end))
                 | _ :: _ => FOpen b
                 end, d)
  | FOpen b => match f_at d with
               | EFile k => (FWrite b k 0 got, set_data k [] d)
               | EGone => (FWrite b (f_next d) 0 got, make d)
               | ELink _ => (FDone (Err (OSErr ENOENT)), d)
               end
  | FWrite b k off (c :: r) => (FWrite b k (off + length c) r, set_data k (write_at off c (f_data d k)) d)
  | FWrite b k off [] => (match brk with Some e => FDone (Err e) | None => FAfter b end, d)
  | FAfter b => (match f_at d with
                 | EFile k => match f_meta d k with Some _ => FSize b | None => FDone (Err AttributeError) end
                 | ELink _ => FSize b
                 | EGone => FDone (Err AttributeError)
                 end, d)
  | FSize b => (match f_at d with
                | EFile k => if Nat.eqb (length (f_data d k)) (length D) then (if b then FDone (Ok tt) else FSum)
                             else FDone (Err ValueError)
                | _ => FDone (Err (OSErr ENOENT))
                end, d)
  | FSum => (match f_at d with
             | EFile k => if bytes_eqb (f_data d k) D then FDone (Ok tt) else FBad
             | _ => FDone (Err (OSErr ENOENT))
             end, d)
  | FBad => (FDone (Ok tt), match f_at d with
                            | EFile k => set_fmeta k (Some true) d
                            | EGone => set_entry (ELink true) d
                            | ELink _ => set_entry (ELink true) d
                            end)
  | FDone r => (FDone r, d)
  end.

(** The programs, by number, and the disk. *)
Record fstate : Type := mkFS { f_disk : fdisk; f_pc : nat -> fpc }.
Definition fstep (got : nat -> list bytes) (brk : nat -> option exn) (s : fstate) (i : nat) : fstate :=
  let (p, d) := fturn (got i) (brk i) (f_pc s i) (f_disk s) in
  mkFS d (fun j => if Nat.eqb i j then p else f_pc s j).
(** [l] says whose turn it is. *)
Definition frun (got : nat -> list bytes) (brk : nat -> option exn) (s : fstate) (l : list nat) : fstate :=
  fold_left (fstep got brk) l s.
End Race.
