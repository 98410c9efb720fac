(** * Metadata in extended attributes, independently of the codec *)
From Coq Require Import String NArith ZArith Bool List.
From Verif Require Import Model.Py Model.Meta Spec.MetaSpec.
Import ListNotations.

(** Text that UTF-8 can express: no surrogates. *)
Definition encodable (s : str) : Prop :=
  forall c, In c s -> (c < 55296 \/ 57343 < c < 1114112)%N.

(** A value that is absent or empty. *)
Definition blank (v : pyval) : bool :=
  match v with PNone | PStr [] | PBytes [] | PStrs [] => true | _ => false end.

(** What is stored: empty text and empty checksums count as absent. *)
Definition shown (a : args) : args :=
  fun f => if blank (a f) then no_args f else a f.

(** The values that survive storage in extended attributes. *)
Definition xattr_safe_field (f : field) (v : pyval) : Prop :=
  match f, v with
  | (Fname | Fid | Fparent_id | Fold_id | Fmode | Fchecksum_cypher), PStr s => encodable s
  | Fuser_id, PStr s => encodable s /\ py_int s = None
  | Fetag, PEtag _ n => (0 <= n)%Z
  | Ferrors, PStrs l => forall e, In e l -> encodable e /\ e <> [] /\ lacks ";" e
  | _, _ => True
  end.
Definition xattr_safe (a : args) : Prop := forall f, xattr_safe_field f (a f).

Definition prefix_ok (prefix : option str) : Prop :=
  match prefix with Some p => encodable p | None => True end.

(** The name of an attribute under a prefix. *)
Definition under (prefix : option str) (k : str) : str :=
  match prefix with Some (c :: p) => (c :: p) ++ $"." ++ k | _ => k end.

(** An attribute that does not belong to the prefix. *)
Definition foreign (prefix : option str) (key : bytes) : Prop :=
  exists k, utf8_dec key = Some k /\ forall k', k <> under prefix k'.

(** The new value where there is one, else the old one. *)
Definition overlay (old new : args) : args :=
  fun f => if blank (new f) then old f else new f.
