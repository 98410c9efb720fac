(** * Programs that set the metadata of one path at the same time:
    /repo/augpathlib/caches.py:138-169, 743-757, 1143-1173, 1184-1274, 1281-1312, meta.py:421-424

    What [Cache.symlink_set] does in one go, here call by call, with any number of programs taking turns
    in any order.  Simplified: nothing is at the path but links that lead to nothing, so [exists] is always
    False (1186, 1164, 1286) and is left out; the directory of the trash is there (155); nobody else changes
    the path or the trash and no call fails otherwise; what is read of a link is what was written (C09);
    the objects are new ones, which remember nothing; the cache has no backup (1302). *)
From Coq Require Import String NArith Bool List.
From Verif Require Import Model.Py.
Import ListNotations.

(** Where a program is: the call it makes next. *)
Inductive lpc : Type :=
| LLook                      (* 1187: is there a link? *)
| LMeta1 | LLink1            (* 1188 with 1163 and meta.py:424; then 1189-1242 *)
| LIs2 | LMeta2 | LLink2     (* 746, [if self.meta], with 1294, 1163 and meta.py:424 *)
| LIs3 | LMeta3 | LLink3     (* 747, [self.meta.id], the same again; then 146 *)
| LMove (name : str)         (* 162, into the trash *)
| LMake                      (* 1271 *)
| LDone (r : res bool).      (* True when its link was made, False when it returned without *)

Section Race.
Variable M : Type.                          (* metadata in a link *)
Variable replace : M -> M -> res bool.      (* [Cache.may_replace], 1189-1242 *)
Variable name_of : M -> option str.         (* [fs_safe_id] of the id (146), when that is text *)

(** The path, and the trash. *)
Record ldisk : Type := mkLD { l_path : option M; l_trash : str -> option M }.

Definition lput (n : str) (x : M) (t : str -> option M) : str -> option M :=
  fun k => if str_eqb k n then Some x else t k.

(** One call of a program that sets [m]. *)
Definition lturn (m : M) (p : lpc) (d : ldisk) : lpc * ldisk :=
  match p with
  | LLook => (match l_path d with Some _ => LMeta1 | None => LMake end, d)
  | LMeta1 => (match l_path d with Some _ => LLink1 | None => LDone (Err NoCachedMetadataError) end, d)   (* 1172 *)
  | LLink1 => (match l_path d with
               | Some old => match replace old m with
                             | Ok true => LIs2
                             | Ok false => LDone (Ok false)
                             | Err e => LDone (Err e)
                             end
               | None => LDone (Err (OSErr ENOENT))
               end, d)
  | LIs2 => (match l_path d with Some _ => LMeta2 | None => LDone (Err AttributeError) end, d)   (* fs_safe_id(None) *)
  | LMeta2 => (match l_path d with Some _ => LLink2 | None => LDone (Err AttributeError) end, d)
  | LLink2 => (match l_path d with Some _ => LIs3 | None => LDone (Err (OSErr ENOENT)) end, d)
  | LIs3 => (match l_path d with Some _ => LMeta3 | None => LDone (Err AttributeError) end, d)   (* None.id *)
  | LMeta3 => (match l_path d with Some _ => LLink3 | None => LDone (Err AttributeError) end, d)
  | LLink3 => (match l_path d with
               | Some x => match name_of x with Some n => LMove n | None => LDone (Err AttributeError) end
               | None => LDone (Err (OSErr ENOENT))
               end, d)
  | LMove n => match l_path d with
               | Some x => (LMake, mkLD None (lput n x (l_trash d)))
               | None => (LDone (Err (OSErr ENOENT)), d)
               end
  | LMake => match l_path d with
             | None => (LDone (Ok true), mkLD (Some m) (l_trash d))
             | Some _ => (LDone (Err (OSErr EEXIST)), d)
             end
  | LDone r => (LDone r, d)
  end.

(** The programs, by number, and the disk. *)
Record lstate : Type := mkLS { l_disk : ldisk; l_pc : nat -> lpc }.
Definition lstep (new : nat -> M) (s : lstate) (i : nat) : lstate :=
  let (p, d) := lturn (new i) (l_pc s i) (l_disk s) in
  mkLS d (fun j => if Nat.eqb i j then p else l_pc s j).
(** [l] says whose turn it is. *)
Definition lrun (new : nat -> M) (s : lstate) (l : list nat) : lstate := fold_left (lstep new) l s.
End Race.
