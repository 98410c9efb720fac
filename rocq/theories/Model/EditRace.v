(** * A file that is edited while it is updated:
    /repo/augpathlib/caches.py:1402-1432 with 152-169, 867-930, 1281-1335; core.py:1475-1484

    What [Cache.meta_updater] does in one go, here in steps, with somebody else who saves the file at any moment.  The
    fetching is that of [FetchRace].  Simplified, besides what is said there: the metadata of the file are of the
    content [O] and those of the remote of [D], both with checksums, and they differ; the directory of the trash is there and the id of
    the file is known (152-158); the name in the trash is not too long; content is compared in one step and by itself,
    as if checksums did not collide; nobody removes the file. *)
From Coq Require Import String Strings.Byte Bool List.
From Verif Require Import Model.Py Model.PathOps Model.FetchRace.
Import ListNotations.

(** Where the program is: the step it makes next.  [must]: it is to fetch. *)
Inductive upc : Type :=
| UMeta                     (* caches.py:1402 *)
| UIsFile                   (* 1405 *)
| UDiff                     (* 1410, [content_different] *)
| URe                       (* 1410, [local.meta.checksum]; 1411 *)
| UMove                     (* 1419 with 161 *)
| USet (must : bool)        (* 1422 with 1320 *)
| USetX (must : bool)       (* 1321 *)
| UMkLink (must : bool)     (* 1331-1335 *)
| UFetch (p : fpc)          (* 1424 *)
| URestore (e : exn)        (* 1429 *)
| UDone (r : res unit).

(** The files, those that have the metadata of before, what is in the trash, the program *)
Record ustate : Type := mkU { u_disk : fdisk; u_old : nat -> bool; u_bin : fentry; u_pc : upc }.

Section Edit.
Variables O D : bytes.
(** What the remote gives, and with what it breaks off *)
Variable got : list bytes.
Variable brk : option exn.

Definition at_pc (s : ustate) (p : upc) : ustate := mkU (u_disk s) (u_old s) (u_bin s) p.
Definition with_fdisk (s : ustate) (d : fdisk) (p : upc) : ustate := mkU d (u_old s) (u_bin s) p.

(** After [_meta_setter] *)
Definition after_set (must : bool) : upc := if must then UFetch FExists else UDone (Ok tt).
(** A file gets the metadata of [D] *)
Definition new_meta (k : nat) (d : fdisk) : fdisk :=
  set_fmeta k (Some match f_meta d k with Some o => o | None => false end) d.

(** One step *)
Definition uturn (s : ustate) : ustate :=
  let d := u_disk s in
  match u_pc s with
  | UMeta => at_pc s (match f_at d with EFile k => if u_old s k then UIsFile else USet false | _ => USet false end)
  | UIsFile => at_pc s (match f_at d with EFile _ => UDiff | _ => USet false end)
  | UDiff => at_pc s (match f_at d with
                      | EFile k => if u_old s k then if bytes_eqb (f_data d k) O then UMove else URe
                                   else UDone (Err AttributeError)
                      | _ => UDone (Err AttributeError)
                      end)
  | URe => at_pc s (match f_at d with
                    | EFile k => if bytes_eqb (f_data d k) D then UMove else UDone (Err LocalChangesError)
                    | _ => UDone (Err (OSErr ENOENT))
                    end)
  | UMove => match f_at d with
             | EGone => at_pc s (UDone (Err (OSErr ENOENT)))
             | e => mkU (set_entry EGone d) (u_old s) e (USet true)
             end
  | USet m => at_pc s (match f_at d with EFile _ => USetX m | _ => UMkLink m end)
  | USetX m => match f_at d with
               | EFile k => with_fdisk s (new_meta k d) (after_set m)
               | _ => at_pc s (if m then URestore (OSErr ENOENT) else UDone (Err (OSErr ENOENT)))
               end
  | UMkLink m => with_fdisk s (match f_at d with
                               | EGone => set_entry (ELink false) d
                               | ELink _ => d
                               | EFile k => new_meta k d
                               end) (after_set m)
  | UFetch p => let (p', d') := fturn D got brk p d in
                with_fdisk s d' (match p' with
                                 | FDone (Ok _) => UDone (Ok tt)
                                 | FDone (Err e) => URestore e
                                 | _ => UFetch p'
                                 end)
  | URestore e => match u_bin s with
                  | EGone => at_pc s (UDone (Err (OSErr ENOENT)))
                  | x => mkU (set_entry x d) (u_old s) EGone (UDone (Err e))
                  end
  | UDone r => s
  end.

(** The step raises [e] and does nothing else: a call that fails, or an interrupt *)
Definition ufail (e : exn) (s : ustate) : ustate :=
  at_pc s (match u_pc s with
           | USet true | USetX true | UMkLink true | UFetch _ => URestore e
           | UDone r => UDone r
           | _ => UDone (Err e)
           end).

(** [Write]: the file at the path is opened to write, and [c] written, by its name (with the link of a cache
    this fails); [Save]: [c] is written to a new file and that is renamed to the path. *)
Inductive event : Type := Turn (fail : option exn) | Write (c : bytes) | Save (c : bytes).
Definition ustep (s : ustate) (e : event) : ustate :=
  let d := u_disk s in
  match e with
  | Turn None => uturn s
  | Turn (Some e) => ufail e s
  | Write c => match f_at d with
               | EFile k => with_fdisk s (set_data k c d) (u_pc s)
               | EGone => mkU (set_data (f_next d) c (make d)) (fun j => if Nat.eqb (f_next d) j then false else u_old s j) (u_bin s) (u_pc s)
               | ELink _ => s
               end
  | Save c => mkU (set_data (f_next d) c (make d)) (fun j => if Nat.eqb (f_next d) j then false else u_old s j) (u_bin s) (u_pc s)
  end.
Definition urun (s : ustate) (l : list event) : ustate := fold_left ustep l s.
End Edit.
