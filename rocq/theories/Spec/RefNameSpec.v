(** * How git calls a commit *)
From Coq Require Import String NArith ZArith Bool List.
From Verif Require Import Model.Py Model.RefName.
Import ListNotations.

(** "git name-rev" on a reference: only the directory of branches is left out. *)
Definition rev_path (r : ref) : str :=
  match r_kind r with
  | Head => r_name r
  | Remote => $"remotes/" ++ r_name r
  | Tag => $"tags/" ++ r_name r
  end.
(** On the commit the reference leads to *)
Definition rev_name (r : ref) : str := rev_path r ++ (if r_annotated r then $"^0" else []).

(** Git allows no blanks, "~" and "^" in the names of references, and only tags are
    objects of their own. *)
Definition ref_ok (r : ref) : Prop :=
  r_name r <> [] /\ (forall c, In c (r_name r) -> is_space c = false /\ c <> chr "~" /\ c <> chr "^") /\
  (r_annotated r = true -> r_kind r = Tag).
Definition hash_ok (h : str) : Prop := h <> [] /\ forall c, In c h -> is_space c = false.

Definition name_rev_line (hash name : str) : str := hash ++ $" " ++ name.

(** The same two words, with other white space *)
Definition spaced (a hash b name c : str) : Prop :=
  forallb is_space (a ++ b ++ c) = true /\ b <> [] /\ hash_ok hash /\ hash_ok name.

(** No two references have the same name, not even of different kinds. *)
Definition names_differ (refs : list ref) : Prop :=
  forall a b, In a refs -> In b refs -> r_name a = r_name b -> a = b.
