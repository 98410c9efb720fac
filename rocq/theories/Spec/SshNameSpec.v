(** * The name of a remote path *)
From Coq Require Import String NArith ZArith Bool List.
From Verif Require Import Model.Py Model.PurePath.
Import ListNotations.

(** A path as pathlib keeps it. *)
Definition proper (p : ppath) : Prop := forall x, In x (pp_parts p) -> x <> [] /\ x <> $"." /\ ~ In (chr "/") x.
(** The path on the host: relative ones begin at the anchor. *)
Definition remote_file (anchor p : ppath) : ppath :=
  if pp_abs p then p else mkPP (pp_abs anchor) (pp_parts anchor ++ pp_parts p).
(** The directories above a path as it is written, the nearest first. *)
Definition above (p : ppath) : list ppath :=
  map (fun k => mkPP (pp_abs p) (firstn k (pp_parts p))) (rev (seq 0 (length (pp_parts p)))).
