(** * C35, C36: the next version *)
From Coq Require Import String NArith ZArith Bool List.
From Verif Require Import Model.Py Model.Version Spec.VersionSpec Proofs.VersionProofs.
Import ListNotations.

(** C35.  [rel_comp] is one of release, major, minor and micro. *)
Theorem C35_next_version_newer :
  forall v p c v',
    v_release v <> [] -> comp_of c <> None -> next_version v p c = Ok v' -> newer v' v.
Proof. exact (fun v p c v' Hr Hc H => proj1 (next_cases v p c v' Hr Hc H)). Qed.
Print Assumptions C35_next_version_newer.

(** The order is a strict one, so a chain of next versions never repeats. *)
Theorem C35_newer_order :
  (forall v, ~ newer v v) /\ (forall a b, newer a b -> ~ newer b a) /\
  (forall a b c, newer a b -> newer b c -> newer a c).
Proof. exact newer_order. Qed.
Print Assumptions C35_newer_order.

(** C36. *)
Theorem C36_next_version_phase :
  forall v p c v',
    v_release v <> [] -> comp_of c <> None -> next_version v p c = Ok v' ->
    in_phase v p v' /\ v_epoch v' = v_epoch v /\
    (v_release v' = v_release v \/
     exists d q, comp_of d = Some q /\ (d = p \/ d = c \/ p = Current /\ d = Release) /\
       one_step q (v_release v) (v_release v')).
Proof. exact (fun v p c v' Hr Hc H => proj2 (next_cases v p c v' Hr Hc H)). Qed.
Print Assumptions C36_next_version_phase.

(** C36, when it refuses. *)
Theorem C36_refused_requests :
  forall v p c, v_release v <> [] -> comp_of c <> None ->
    (exists e, next_version v p c = Err e) <->
    refuses (current_state v) (length (v_release v)) p c.
Proof. exact refused. Qed.
Print Assumptions C36_refused_requests.

(** 1!2.0.7.post3 and what becomes of it; 1.0a1.dev2; a local version. *)
Example C35_case :
  let v := mkV 1 [2; 0; 7]%N None (Some 3%N) None None in
  let w := mkV 0 [1; 0]%N (Some (La, 1%N)) None (Some 2%N) None in
  comp_of Minor <> None /\
  next_version v Dev Minor = Ok (mkV 1 [2; 1; 0]%N None None (Some 0%N) None) /\
  next_version v Release Release = Ok (mkV 1 [2; 0; 8]%N None None None None) /\
  next_version w Current Release = Ok (mkV 0 [1; 0]%N (Some (La, 2%N)) None None None) /\
  next_version w PhB Major = Ok (mkV 0 [2; 0]%N (Some (Lb, 2%N)) None None None) /\
  next_version w Local Release = Ok (mkV 0 [1; 0]%N (Some (La, 1%N)) None (Some 2%N) (Some [SNum 0])) /\
  next_version w Micro Release = Err IndexError /\
  newer (mkV 0 [1; 0]%N None None None None) w /\
  version_cmp (mkV 0 [1; 0]%N None None None None) (mkV 0 [1]%N None None None None) = Eq.
Proof. cbn zeta. split; [discriminate|]. repeat split; reflexivity. Qed.

(** A component that is none of the four can lead backwards, which is why it is
    excluded: "1.0" with rel_comp 'a' and phase 'dev' becomes "1.0a0.dev0". *)
Example C35_other_component :
  let v := mkV 0 [1; 0]%N None None None None in
  exists v', next_version v Dev PhA = Ok v' /\ newer v v'.
Proof. eexists. split; reflexivity. Qed.
