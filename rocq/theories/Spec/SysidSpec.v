(** * What an identifier of a machine is taken from *)
From Coq Require Import String Strings.Byte NArith ZArith Bool List.
From Verif Require Import Model.Py Model.PurePath Model.Fs Spec.FsSpec Spec.CopySpec.
Import ListNotations.

(** Something that is not empty and may be read is where [p] leads. *)
Definition gives (readable : ppath -> bool) (dirsize : nat) (fs : node) (cwd : place) (p : ppath) : Prop :=
  readable p = true /\
  exists q n, walk fs cwd true p = Found q n /\
    match n with File d _ => d <> [] | Dir _ _ => (0 < dirsize)%nat | Link _ => False end.

(** letters, digits, "-" and "_" *)
Definition id_char (c : N) : Prop :=
  (48 <= c <= 57)%N \/ (65 <= c <= 90)%N \/ (97 <= c <= 122)%N \/ c = 45%N \/ c = 95%N.

(** The alphabet of RFC 4648, section 5 *)
Definition alphabet64 : str := $"ABCDEFGHIJKLMNOPQRSTUVWXYZabcdefghijklmnopqrstuvwxyz0123456789-_".
Fixpoint position (c : N) (s : str) : N :=
  match s with [] => 0%N | x :: r => if N.eqb x c then 0%N else (1 + position c r)%N end.
Definition digit64 (c : N) : N := position c alphabet64.
(** The numbers two texts are, to the base of 64 and of 256; [acc] comes before. *)
Definition value64 (acc : N) (s : str) : N := fold_left (fun a d => a * 64 + d)%N (map digit64 s) acc.
Definition value256 (acc : N) (b : bytes) : N := fold_left (fun a d => a * 256 + d)%N (map Byte.to_N b) acc.

(** The file of the system and the one made when there is none. *)
Definition system_file : ppath := mkPP true [$"etc"; $"machine-id"].
Definition own_file : ppath := mkPP true [$"var"; $"tmp"; $"machine-id"].

(** None of [l] differs from [fs] but where the own file is; that is as it was, empty,
    or the new identifier. *)
Definition only_made (fs : node) (cwd : place) (uuid : bytes) (l : list node) : Prop :=
  (forall s, In s l -> s = fs) \/
  exists T, writes fs cwd own_file T /\
    forall s, In s l -> only_at T fs s /\ (look s T = look fs T \/ exists d, (d = [] \/ d = uuid) /\ look s T = Some (AFile d (file_xattrs fs T))).

(** Where there is a file, [r] is the identifier of its data; no other thing has one. *)
Definition id_read (of : bytes -> str) (fs : node) (cwd : place) (p : ppath) (r : res str) : Prop :=
  match walk fs cwd true p with
  | Found _ (File d _) => r = Ok (of d)
  | _ => r = Err TypeError
  end.
