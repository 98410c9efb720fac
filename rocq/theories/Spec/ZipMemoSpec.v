(** * Answers of a process that has not asked anything yet *)
From Coq Require Import String NArith Bool List.
From Verif Require Import Model.Py Model.PurePath Model.Zip Model.ZipMemo Spec.ZipSpec.
Import ListNotations.

Definition first_answer (path_at : nat -> ppath) (d : disk) (i : nat) (q : question) : answer :=
  fst (ask_one path_at d i q fresh).

(** What is taken for an archive on the way to a path can be opened. *)
Definition sound (d : disk) (p : ppath) : Prop :=
  forall z, at_or_below z p -> archive (d_is_zip d) dot_zip z -> exists l, d_zip d z = Ok l.

(** Other files may change: what is an archive stays one with the same entries, and
    nothing becomes one or stops being one. *)
Definition same_zips (d d' : disk) : Prop := forall z, d_is_zip d' z = d_is_zip d z /\ d_zip d' z = d_zip d z.
Fixpoint steady (path_at : nat -> ppath) (d : disk) (es : list event) : Prop :=
  match es with
  | [] => True
  | Ask i _ :: es => sound d (path_at i) /\ steady path_at d es
  | Change d' :: es => same_zips d d' /\ steady path_at d' es
  end.
