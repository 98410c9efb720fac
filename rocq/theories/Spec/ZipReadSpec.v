(** * What readers of an archive get *)
From Coq Require Import String NArith Bool List Arith.
From Verif Require Import Model.Py Model.PurePath Model.Zip Model.ZipRead.
Import ListNotations.

Definition trace : Type := list (event * outcome).
(** What came of the calls of [next] on generator [r]; before there is such a generator
    that is no call. *)
Definition answer (r : nat) (x : event * outcome) : list outcome :=
  match x with
  | (ENext _, OAbsent) => []
  | (ENext r', o) => if Nat.eqb r' r then [o] else []
  | _ => []
  end.
Definition answers (r : nat) (t : trace) : list outcome := flat_map (answer r) t.
Definition chunk_of (o : outcome) : bytes := match o with OChunk b => b | _ => [] end.
Definition got (l : list outcome) : bytes := concat (map chunk_of l).
(** [r] is the generator that [data] of [p] gave. *)
Definition reader_of (t : trace) (r : nat) (p : ppath) : Prop := In (EData p, OMade r) t.
Definition dropped (r : nat) (t : trace) : Prop := exists o, o <> OAbsent /\ In (EDrop r, o) t.
(** What came of reading the file that [open] gave with number [u]. *)
Definition taken (u : nat) (x : event * outcome) : list outcome :=
  match x with (ERead u' _, o) => if Nat.eqb u' u then [o] else [] | _ => [] end.
Definition read_from (u : nat) (t : trace) : list outcome := flat_map (taken u) t.
Definition opened_as (t : trace) (u : nat) (p : ppath) : Prop := In (EOpen p, OMade u) t.
Definition shut (u : nat) (t : trace) : Prop := exists o, o <> OAbsent /\ In (EShut u, o) t.

(** What the [k]th call of [next] has to give. *)
Definition kth (n : nat) (d : bytes) (k : nat) : outcome :=
  match firstn n (skipn (k * n) d) with [] => OStop | b => OChunk b end.
Definition in_order (n : nat) (d : bytes) (l : list outcome) : Prop := l = map (kth n d) (seq 0 (length l)).
(** Chunks in order; then perhaps one exception, or the generator was closed, and from
    then on it is at its end. *)
Definition truthful (n : nat) (d : bytes) (gone : Prop) (l : list outcome) : Prop :=
  in_order n d l \/
  (gone /\ exists l1 j, l = l1 ++ repeat OStop j /\ in_order n d l1) \/
  (exists l1 e j, l = l1 ++ ORaise e :: repeat OStop j /\ in_order n d l1).
(** [p] is read by one generator, and [p.close()] is not called. *)
Definition alone (p : ppath) (t : trace) : Prop :=
  (forall r r', reader_of t r p -> reader_of t r' p -> r = r') /\ ~ exists o, In (EClose p, o) t.
