(** * What anchoring is to do *)
From Coq Require Import String NArith Bool List.
From Verif Require Import Model.Py Model.PurePath Model.Fs Model.Cache Model.Anchor Spec.FsSpec.
Import ListNotations.

(** The id stored at [p], read when nothing fails, is the one given. *)
Definition id_at (K : conf) (fs : node) (cwd : place) (p : ppath) (i : pyval) : Prop :=
  exists w, cache_id K p (start fs cwd (fun _ => None)) = (Ok i, w).

(** The directory [p] is that of the root the remote class is bound to. *)
Definition is_root (K : conf) (k : classes) (w : world) (p : ppath) : Prop :=
  forall r, k_root k = Some r ->
    exists i, id_at K (w_fs w) (w_cwd w) p i /\ (py_eq r i = true \/ exists rr, k_remote_root k = Some rr /\ py_eq rr i = true).
