(** * Stamps that metadata is made from *)
From Verif Require Import Model.Py Model.Meta.

(** Nothing, a number, a moment or a text *)
Definition text_or_ok (v : pyval) : Prop := stamp_ok v = true \/ exists s, v = PStr s.
