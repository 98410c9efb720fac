(** * Tags and releases, independently of how a package finds them *)
From Coq Require Import String NArith ZArith Bool List.
From Verif Require Import Model.Py Model.Version Model.PackageTags.
Import ListNotations.

(** The tag of a version: with its name in front for a package that is not at the top
    of its repository. *)
Definition tag_for (name : str) (prefix : bool) (v : str) : str :=
  if prefix then name ++ $"-" ++ v else v.

(** A text [packaging] takes for a version *)
Definition version_text (parse : str -> res version) (v : str) : Prop := exists x, parse v = Ok x.
Definition own_tag (parse : str -> res version) (name : str) (prefix : bool) (t : str) : Prop :=
  exists v, version_text parse v /\ t = tag_for name prefix v.

Definition digit_led (t : str) : Prop := exists c r, t = c :: r /\ is_digit c = true.

(** Somewhere in the text *)
Definition inside (a b : str) : Prop := exists l r, b = l ++ a ++ r.

(** What a tag of the package is recognised by: on GitHub and in the history *)
Definition passes (name : str) (prefix : bool) (t : str) : Prop :=
  if prefix then inside name t else digit_led t.
Definition fits (name : str) (prefix : bool) (t : str) : Prop :=
  if prefix then exists r, t = name ++ $"-" ++ r else digit_led t.

(** The commits after the latest release of the package. *)
Inductive since (own : str -> Prop) : list commit -> list commit -> Prop :=
| since_tagged c r t : In t (c_tags c) -> own t -> since own (c :: r) []
| since_none : since own [] []
| since_more c r q : (forall t, In t (c_tags c) -> ~ own t) -> since own r q -> since own (c :: r) (c :: q).

(** The lines of the commits that changed a file of the release. *)
Definition lines (h : list commit) : list str := map c_line (filter c_touches h).

(** A line of the log *)
Definition line_ok (c : commit) : Prop := c_line c <> [] /\ ~ In nl (c_line c).
