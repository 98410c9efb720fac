(** * Several files written from one *)
From Coq Require Import String NArith ZArith Bool List.
From Verif Require Import Model.Py Model.PurePath Model.Fs Spec.FsSpec Spec.CopySpec.
Import ListNotations.

(** What is to be written: a path, whether what is there is kept, and where it leads. *)
Definition part : Type := (ppath * bool * place)%type.
Definition where_ (t : part) : place := snd t.
Definition asked (t : part) : ppath * bool := fst t.
(** The paths lead to places of their own, where files are or can be made, and the source
    is at none of them. *)
Definition apart (fs : node) (cwd : place) (S : place) (ts : list part) : Prop :=
  NoDup (map where_ ts) /\ ~ In S (map where_ ts) /\ forall p a T, In (p, a, T) ts -> writes fs cwd p T.
(** What a file starts with. *)
Definition before (fs : node) (a : bool) (T : place) : bytes :=
  if a then match content fs T with Some b => b | None => [] end else [].
(** All but those places is as it was. *)
Definition only_in (Ts : list place) (fs s : node) : Prop := forall q, ~ In q Ts -> look s q = look fs q.
(** A file is as it was, or is being written. *)
Definition written (fs : node) (d : bytes) (a : bool) (T : place) (s : node) : Prop :=
  look s T = look fs T \/ exists m, look s T = Some (AFile (before fs a T ++ firstn m d) (file_xattrs fs T)).
(** A file has been written. *)
Definition has_all (fs : node) (d : bytes) (a : bool) (T : place) (s : node) : Prop :=
  look s T = Some (AFile (before fs a T ++ d) (file_xattrs fs T)).
