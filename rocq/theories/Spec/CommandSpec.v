(** * What is asked of a release command *)
From Coq Require Import String NArith ZArith Bool List.
From Verif Require Import Model.Py Model.Version.
Import ListNotations.

(** A version as [packaging] makes them: there is a release, and the segments of a local
    part, of which there is one, are numbers or texts of small letters and digits, not all
    of them digits. *)
Definition small (c : N) : Prop := ((48 <= c <= 57) \/ (97 <= c <= 122))%N.
Definition proper_segment (s : segment) : Prop :=
  match s with SNum _ => True | SText t => Forall small t /\ exists c, In c t /\ (97 <= c)%N end.
Definition proper_version (v : version) : Prop :=
  v_release v <> [] /\
  forall l, v_local v = Some l -> l <> [] /\ Forall proper_segment l.
