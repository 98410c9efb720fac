(** * What can be observed of a file system *)
From Coq Require Import String NArith ZArith Bool List.
From Verif Require Import Model.Py Model.PurePath Model.Fs.
Import ListNotations.

Inductive thing : Type :=
| AFile (data : bytes) (xs : xattrs)
| ADir (xs : xattrs)
| ALink (target : str).

(** What is at a place; what is in a directory is seen at the places below it. *)
Definition look (fs : node) (p : place) : option thing :=
  match get fs p with
  | Some (File d xs) => Some (AFile d xs)
  | Some (Dir xs _) => Some (ADir xs)
  | Some (Link t) => Some (ALink t)
  | None => None
  end.

(** [q] is [p] or below it. *)
Definition below (p q : place) : Prop := exists r, q = p ++ r.

(** A name a directory can have for an entry. *)
Definition good_name (x : str) : Prop := x <> [] /\ x <> $"." /\ x <> $".." /\ ~ In (chr "/") x.

(** A file system as it can be: names are good and unique in each directory. *)
Inductive good : node -> Prop :=
| good_file d xs : good (File d xs)
| good_link t : good (Link t)
| good_dir xs es : NoDup (map fst es) -> (forall x, In x (map fst es) -> good_name x) ->
    (forall x c, In (x, c) es -> good c) -> good (Dir xs es).

(** Where a path leads to when a link at its end is not followed. *)
Definition leads (fs : node) (cwd : place) (p : ppath) (q : place) : Prop :=
  exists n, walk fs cwd false p = Found q n.

(** The path by which a place is called. *)
Definition path_of (q : place) : ppath := mkPP true q.

(** A run starts here. *)
Definition start (fs : node) (cwd : place) (fault : nat -> option exn) : world :=
  mkWorld fs cwd [fs] 0 fault.

(** Every state there is from the start of the run to its end. *)
Definition states (w' : world) : list node := w_fs w' :: w_hist w'.

(** Calls fail with an error of the machine (or are interrupted); they do not
    claim that something does not exist. *)
Definition honest (fault : nat -> option exn) : Prop :=
  forall t e, fault t = Some e ->
    e = KeyboardInterrupt \/
    exists n, e = OSErr n /\ n <> ENOENT /\ n <> ENOTDIR /\ n <> ELOOP.

(** The whole: a directory, with good names. *)
Definition good_fs (fs : node) : Prop := good fs /\ exists xs es, fs = Dir xs es.

Definition is_dir_at (fs : node) (q : place) : Prop := exists xs, look fs q = Some (ADir xs).
