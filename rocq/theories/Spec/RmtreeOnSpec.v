(** * What [onerror] is told of *)
From Coq Require Import String NArith Bool List.
From Verif Require Import Model.Py Model.PurePath Model.Fs Model.RmtreeOn Spec.FsSpec.
Import ListNotations.

(** The path is [p] or goes on from it. *)
Definition within (p q : ppath) : Prop := pp_abs q = pp_abs p /\ exists s, pp_parts q = pp_parts p ++ s.
(** It is [p] or an entry of it. *)
Definition at_or_in (p q : ppath) : Prop := pp_abs q = pp_abs p /\ exists s, length s <= 1 /\ pp_parts q = pp_parts p ++ s.

(** One that looks on, returns and changes nothing *)
Definition watches (onerror : func -> ppath -> exn -> M unit) : Prop :=
  forall f q e w, exists w', onerror f q e w = (Ok tt, w') /\
    w_fs w' = w_fs w /\ w_cwd w' = w_cwd w /\ w_hist w' = w_hist w /\ w_fault w' = w_fault w.
