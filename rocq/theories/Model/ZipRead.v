(** * Reading entries of zip files, /repo/augpathlib/zip.py:85-113

    Equal paths are one object (29-44), so what [open] remembers on it, [__fd], is shared
    by all that read the path.  The files, the generators of [data] and the files that
    [open] gave out have numbers, in the order they are made.

    Simplified: [zipfile.ZipExtFile.read(n)] gives [n] bytes or all that is left, or fails;
    closing a closed file does nothing, reading one raises ValueError. *)
From Coq Require Import String NArith Bool List Arith.
From Verif Require Import Model.Py Model.PurePath Model.Fs Model.PathOps Model.Zip.
Import ListNotations.

Record handle : Type := mkHandle { h_entry : zinfo; h_pos : nat; h_closed : bool }.
(** A generator of [data]: not begun, waiting at the [yield], or at its end. *)
Inductive gstate : Set := Fresh | Reading (h : nat) | Done.
Record zstate : Type := mkZ {
  s_fd : ppath -> option nat;
  s_made : nat; s_handle : nat -> handle;
  s_gens : nat; s_gen : nat -> option (ppath * gstate);
  s_given : nat; s_user : nat -> option nat }.

Definition upd {A} (f : nat -> A) (i : nat) (x : A) : nat -> A := fun j => if Nat.eqb j i then x else f j.
Definition set_handle (i : nat) (h : handle) (s : zstate) : zstate :=
  mkZ (s_fd s) (s_made s) (upd (s_handle s) i h) (s_gens s) (s_gen s) (s_given s) (s_user s).
Definition set_gen (i : nat) (g : ppath * gstate) (s : zstate) : zstate :=
  mkZ (s_fd s) (s_made s) (s_handle s) (s_gens s) (upd (s_gen s) i (Some g)) (s_given s) (s_user s).
(** [self.__fd = ...] *)
Definition set_fd (p : ppath) (h : nat) (s : zstate) : zstate :=
  mkZ (fun q => if pp_eqb q p then Some h else s_fd s q) (s_made s) (s_handle s) (s_gens s) (s_gen s) (s_given s) (s_user s).
Definition close_handle (i : nat) (s : zstate) : zstate :=
  let h := s_handle s i in set_handle i (mkHandle (h_entry h) (h_pos h) true) s.

Section Archive.
(** The entries, their contents, and what goes wrong when one is opened, or read at a
    position. *)
Variable entries : list zinfo.
Variable data : zinfo -> bytes.
Variable bad_open : zinfo -> option exn.
Variable bad_read : zinfo -> nat -> option exn.
Variable chunksize : nat.

(** f.read(n) *)
Definition read_handle (i n : nat) (s : zstate) : res bytes * zstate :=
  let h := s_handle s i in
  if h_closed h then (Err ValueError, s)
  else match bad_read (h_entry h) (h_pos h) with
       | Some e => (Err e, s)
       | None => let b := firstn n (skipn (h_pos h) (data (h_entry h))) in
                 (Ok b, set_handle i (mkHandle (h_entry h) (h_pos h + length b) false) s)
       end.
(** open, 85-92 *)
Definition z_open_file (p : ppath) (s : zstate) : res nat * zstate :=
  match z_open entries p with
  | Err e => (Err e, s)
  | Ok z => match bad_open z with
            | Some e => (Err e, s)
            | None => let i := s_made s in
                      (Ok i, set_fd p i (mkZ (s_fd s) (S i) (upd (s_handle s) i (mkHandle z 0 false)) (s_gens s) (s_gen s) (s_given s) (s_user s)))
            end
  end.
(** close, 94-99 *)
Definition z_close (p : ppath) (s : zstate) : res unit * zstate :=
  match s_fd s p with
  | Some i => (Ok tt, close_handle i s)
  | None => (Err BaseExn, s)
  end.

(** [OAbsent]: there is nothing of that number *)
Inductive outcome : Type := OChunk (b : bytes) | OStop | ORaise (e : exn) | OMade (i : nat) | ONone | OAbsent.
(** the end of generator [r]: the [finally] of 112-113 *)
Definition finish (r : nat) (p : ppath) (o : outcome) (s : zstate) : outcome * zstate :=
  match z_close p s with
  | (Ok _, s1) => (o, set_gen r (p, Done) s1)
  | (Err e, s1) => (ORaise e, set_gen r (p, Done) s1)
  end.
(** once around the loop, 106-111; leaving the [with] closes the file *)
Definition round (r : nat) (p : ppath) (i : nat) (s : zstate) : outcome * zstate :=
  match read_handle i chunksize s with
  | (Err e, s1) => finish r p (ORaise e) (close_handle i s1)
  | (Ok [], s1) => finish r p OStop (close_handle i s1)
  | (Ok b, s1) => (OChunk b, set_gen r (p, Reading i) s1)
  end.
(** data, 101-113: next() *)
Definition gen_next (r : nat) (s : zstate) : outcome * zstate :=
  match s_gen s r with
  | None => (OAbsent, s)
  | Some (p, Done) => (OStop, s)
  | Some (p, Reading i) => round r p i s
  | Some (p, Fresh) => match z_open_file p s with
                       | (Err e, s1) => finish r p (ORaise e) s1
                       | (Ok i, s1) => round r p i s1
                       end
  end.
(** close(), or nothing holds it any more *)
Definition gen_close (r : nat) (s : zstate) : outcome * zstate :=
  match s_gen s r with
  | None => (OAbsent, s)
  | Some (p, Reading i) => finish r p ONone (close_handle i s)
  | Some (p, _) => (ONone, set_gen r (p, Done) s)
  end.

(** What the users of an archive do, in any order: [p.data], next and close of such a
    generator, [p.open()], [p.close()], read and close of a file that was opened. *)
Inductive event : Type := EData (p : ppath) | ENext (r : nat) | EDrop (r : nat) | EOpen (p : ppath) | EClose (p : ppath) | ERead (u n : nat) | EShut (u : nat).
Definition step (e : event) (s : zstate) : outcome * zstate :=
  match e with
  | EData p => (OMade (s_gens s), mkZ (s_fd s) (s_made s) (s_handle s) (S (s_gens s)) (upd (s_gen s) (s_gens s) (Some (p, Fresh))) (s_given s) (s_user s))
  | ENext r => gen_next r s
  | EDrop r => gen_close r s
  | EOpen p => match z_open_file p s with
               | (Err e, s1) => (ORaise e, s1)
               | (Ok i, s1) => (OMade (s_given s1), mkZ (s_fd s1) (s_made s1) (s_handle s1) (s_gens s1) (s_gen s1) (S (s_given s1)) (upd (s_user s1) (s_given s1) (Some i)))
               end
  | EClose p => match z_close p s with (Ok _, s1) => (ONone, s1) | (Err e, s1) => (ORaise e, s1) end
  | ERead u n => match s_user s u with
                 | None => (OAbsent, s)
                 | Some i => match read_handle i n s with
                             | (Ok b, s1) => (OChunk b, s1)
                             | (Err e, s1) => (ORaise e, s1)
                             end
                 end
  | EShut u => match s_user s u with None => (OAbsent, s) | Some i => (ONone, close_handle i s) end
  end.
Definition nothing_open : zstate := mkZ (fun _ => None) 0 (fun _ => mkHandle (mkZinfo [] 0) 0 true) 0 (fun _ => None) 0 (fun _ => None).
(** what came of a sequence of events *)
Fixpoint run (es : list event) (s : zstate) : list (event * outcome) * zstate :=
  match es with
  | [] => ([], s)
  | e :: es' => let '(o, s1) := step e s in let '(t, s2) := run es' s1 in ((e, o) :: t, s2)
  end.
End Archive.
