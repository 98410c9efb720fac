(** * What is expected of local paths, caches and remotes *)
From Coq Require Import String NArith Bool List.
From Verif Require Import Model.Py Model.PurePath Model.Triangle.
Import ListNotations.

Section Spec.
Variable cwd : list str.

(** The path a local path, a cache has *)
Definition local_at (h : heap) (l : nat) (q : list str) : Prop :=
  exists o, nth_error (h_locals h) l = Some o /\ place cwd (l_path o) = q.
Definition cache_at (h : heap) (c : nat) (q : list str) : Prop :=
  exists o, nth_error (h_caches h) c = Some o /\ place cwd (c_path o) = q.

(** A call puts no id where another one is *)
Definition keeps (d : list str -> option str) (q : list str) (i : str) : Prop := d q = None \/ d q = Some i.
Definition quiet_call (k : call) (h : heap) : Prop :=
  match k with
  | CSet c i _ => forall q, cache_at h c q -> keeps (h_disk h) q i
  | RBind r c u =>
      u <> Raises /\
      forall q o k, cache_at h c q -> nth_error (h_remotes h) r = Some o -> nth_error (h_caches h) c = Some k ->
        c_primary k = true /\
        match u with NoUpdate => h_disk h q = Some (r_id o) | _ => keeps (h_disk h) q (r_id o) end
  | Outside q v => forall i, h_disk h q = Some i -> v = Some i
  | _ => True
  end.
Variables anchored configured rc_anchor : bool.
Fixpoint quiet (ks : list call) (h : heap) : Prop :=
  match ks with
  | [] => True
  | k :: r => quiet_call k h /\ quiet r (snd (step cwd anchored configured rc_anchor k h))
  end.
(** No two paths have the same id *)
Definition distinct (d : list str -> option str) : Prop :=
  forall q q' i, d q = Some i -> d q' = Some i -> q = q'.
End Spec.
