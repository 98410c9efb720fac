(** * Metadata that describes what is there *)
From Coq Require Import ZArith List.
From Verif Require Import Model.Py Model.LocalMeta.
Import ListNotations.

(** The metadata of a path says of what is there: nothing if it is missing, and
    otherwise what [stat] says; a checksum is that of the data. *)
Definition describes (name id : str) (digest : bytes -> bytes) (n : option inode) (m : lmeta) : Prop :=
  l_name m = name /\ l_id m = id /\
  match n with
  | None => l_size m = None /\ l_created m = None /\ l_updated m = None /\ l_checksum m = None /\ l_mode m = None /\
      l_file_id m = None /\ l_user_id m = None /\ l_gid m = None
  | Some i => l_size m = Some (n_size i) /\ l_created m = Some (n_mtime i) /\ l_updated m = Some (n_ctime i) /\
      l_mode m = Some (n_mode i) /\ l_file_id m = Some (n_ino i) /\ l_user_id m = Some (n_uid i) /\ l_gid m = Some (n_gid i) /\
      (l_checksum m = None \/ n_file i = true /\ l_checksum m = Some (digest (n_data i)))
  end.

(** All that ever was at the path in a history starting with [now]. *)
Fixpoint states (l : list event) (now : option inode) : list (option inode) :=
  match l with
  | [] => [now]
  | Becomes n :: r => now :: states r n
  | Asks _ _ :: r => states r now
  end.

(** What differs, differs in its times. *)
Definition told_apart (l : list (option inode)) : Prop :=
  forall a b, In (Some a) l -> In (Some b) l -> n_ctime a = n_ctime b -> n_mtime a = n_mtime b -> a = b.

(** Every change moves the ctime forward. *)
Fixpoint forward (l : list event) (last : option Z) : Prop :=
  match l with
  | [] => True
  | Becomes (Some n) :: r => match last with Some t => (t < n_ctime n)%Z | None => True end /\ forward r (Some (n_ctime n))
  | _ :: r => forward r last
  end.

Definition all_answered (l : list (res lmeta)) : Prop := forall r, In r l -> exists m, r = Ok m.
Definition asks_all (l : list event) : Prop := forall w c, In (Asks w c) l -> w = true.

(** What is there, each time it is asked for. *)
Fixpoint asked (l : list event) (now : option inode) : list (option inode) :=
  match l with
  | [] => []
  | Becomes n :: r => asked r n
  | Asks _ _ :: r => now :: asked r now
  end.

(** All can be read, and no etag is asked for. *)
Definition readable (l : list (option inode)) : Prop := forall i, In (Some i) l -> n_fails i = None.
Definition no_chunks (l : list event) : Prop := forall w c, In (Asks w c) l -> c = None.

(** Each change, taken by itself, changes one of the times. *)
Fixpoint stepwise (l : list event) (now : option inode) : Prop :=
  match l with
  | [] => True
  | Becomes n :: r => match now, n with Some a, Some b => n_ctime a <> n_ctime b \/ n_mtime a <> n_mtime b | _, _ => True end /\ stepwise r n
  | Asks _ _ :: r => stepwise r now
  end.
