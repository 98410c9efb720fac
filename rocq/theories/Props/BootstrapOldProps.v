(** * C84: directories that the remote no longer has *)
From Coq Require Import String NArith Bool List Permutation.
From Verif Require Import Model.Py Model.PurePath Model.Fs Model.PathOps Model.BootstrapOld Spec.BootstrapOldSpec
  Proofs.BootstrapOldProofs.
Import ListNotations.

(** When it ends, every local directory that is gone from the remote and has a cache was
    refreshed, once, no other was, and what is above came before what is below; whatever the
    order of the sets. *)
Theorem C84_refreshed :
  forall cached handed, hands_out handed -> forall dirs rd n fuel l,
    NoDup dirs -> old_loop cached handed fuel n dirs rd = (l, None) ->
    shorter_first l /\ NoDup l /\ forall d, In d l <-> gone_there dirs rd d /\ cached d = true.
Proof. exact refreshed_exact. Qed.
Print Assumptions C84_refreshed.
(** It ends exactly when each such directory has a cache, or has a text that begins with that
    of one that has.  Missing from the full statement: the others ([C84_refuted]). *)
Theorem C84_ends_partial :
  forall cached handed, hands_out handed -> forall dirs rd n,
    (exists fuel, snd (old_loop cached handed fuel n dirs rd) = None) <->
    forall d, gone_there dirs rd d -> cached d = true \/ exists d', gone_there dirs rd d' /\ cached d' = true /\ text_below d' d.
Proof. exact loop_exact. Qed.
Print Assumptions C84_ends_partial.

Definition c84_cached (d : ppath) : bool := negb (pp_eqb d (pp_parse $"mine")).
(** A directory made by hand, without metadata and not on the remote: bootstrapping never ends. *)
Theorem C84_refuted :
  forall fuel n, snd (old_loop c84_cached (fun _ l => l) fuel n [pp_parse $"data"; pp_parse $"mine"] [pp_parse $"data"]) = Some OutOfFuel.
Proof.
  apply (loop_never c84_cached (fun _ l => l) (fun _ _ => Permutation_refl _) _ _ (pp_parse $"mine")).
  split; [split; [right; now left|intros [A|[]]; discriminate A]|].
  intros d [[<-|[<-|[]]] N] C; [destruct N; now left|discriminate C].
Qed.
Print Assumptions C84_refuted.
(** That the text begins with it does not mean it is below: old-notes has no cache and is not
    below old. *)
Theorem C84_text_refuted :
  exists l, old_loop (fun d => pp_eqb d (pp_parse $"old")) (fun _ l => l) 1 0 [pp_parse $"old-notes"; pp_parse $"old"] [] = (l, None) /\
    ~ In (pp_parse $"old-notes") l.
Proof. eexists. split; [vm_compute; reflexivity|]. intros [A|[]]. discriminate A. Qed.
Print Assumptions C84_text_refuted.

Example C84_case :
  hands_out (fun n l => if Nat.even n then rev l else l) /\
  NoDup [pp_parse $"a"; pp_parse $"a/b"; pp_parse $"a/b/c"; pp_parse $"d"; pp_parse $"x y"] /\
  old_loop (fun _ => true) (fun n l => if Nat.even n then rev l else l) 1 0
    [pp_parse $"a"; pp_parse $"a/b"; pp_parse $"a/b/c"; pp_parse $"d"; pp_parse $"x y"] [pp_parse $"d"] =
    ([pp_parse $"a"; pp_parse $"x y"; pp_parse $"a/b"; pp_parse $"a/b/c"], None).
Proof.
  split; [intros n l; destruct (Nat.even n); [symmetry; apply Permutation_rev|reflexivity]|].
  split; [|vm_compute; reflexivity].
  repeat constructor; intros A; vm_compute in A; repeat (destruct A as [A|A]; [discriminate A|]); exact A.
Qed.
