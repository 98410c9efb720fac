(** * C47: where a remote is below its anchor *)
From Coq Require Import String NArith Bool List.
From Verif Require Import Model.Py Model.PurePath Model.RelPath Model.RemoteTree Spec.RemoteSpec Proofs.PyLemmas Proofs.RemoteProofs.
Import ListNotations.

(** The parts are the names on the way from the anchor, for every hierarchy and
    depth, and nothing is noted as deleted.  Missing from the full statement: remotes
    that have a cache there. *)
Theorem C47_partial :
  forall H a ns x, leads H a ns x -> forall n, length ns <= n -> remote_parts H n x a NoCache = Ok (ns, true).
Proof. exact parts_leads. Qed.
Print Assumptions C47_partial.
Theorem C47_found :
  forall H a n ns x, remote_parts H n x a NoCache = Ok (ns, true) -> leads H a ns x.
Proof. exact parts_found. Qed.
Print Assumptions C47_found.
(** It is noted as deleted only where no way leads to it. *)
Theorem C47_deleted :
  forall H a n ns x, remote_parts H n x a NoCache = Ok (ns, false) -> forall ms, ~ leads H a ms x.
Proof. exact parts_lost. Qed.
Print Assumptions C47_deleted.
(** A cache whose parent is not the remote's, or that is directly in the anchor, makes no
    difference. *)
Theorem C47_elsewhere :
  forall H a x p i l n, h_parent H x = Some p -> i <> Some p \/ p = a ->
    remote_parts H n x a (CacheIn i l) = remote_parts H n x a NoCache.
Proof. exact parts_elsewhere. Qed.
Print Assumptions C47_elsewhere.
(** The way leads to one remote only where names in one place differ. *)
Theorem C47_determines :
  forall H a, names_differ H -> forall ns x y, leads H a ns x -> leads H a ns y -> x = y.
Proof. exact leads_determines. Qed.
Print Assumptions C47_determines.
(** With a cache the name of the anchor comes first as well, at every depth below the
    first. *)
Theorem C47_refuted :
  forall H a ns y x p rest n, leads H a ((ns ++ [y]) ++ [h_name H x]) x -> h_parent H x = Some p -> (forall z, In z ns -> z <> h_name H a) ->
    remote_parts H n x a (CacheIn (Some p) (rev ns ++ h_name H a :: rest)) = Ok (h_name H a :: (ns ++ [y]) ++ [h_name H x], true).
Proof. exact parts_cached. Qed.
Print Assumptions C47_refuted.
(** The version of ssh remotes for their anchor. *)
Theorem C47_ssh :
  forall anchor l, pp_abs anchor = true -> ssh_parts_relative anchor (mkPP true (pp_parts anchor ++ l)) = Ok l.
Proof. exact ssh_below. Qed.
Print Assumptions C47_ssh.

Definition c47_tree : hierarchy :=
  mkHierarchy (fun x => if str_eqb x $"4" then Some $"3" else if str_eqb x $"3" then Some $"2" else if str_eqb x $"2" then Some $"1"
                        else if str_eqb x $"1" then Some $"0" else if str_eqb x $"0" then Some $"0" else None)
              (fun x => if str_eqb x $"1" then $"top" else if str_eqb x $"3" then $"a" else if str_eqb x $"4" then $"f" else $"a").
Example C47_case :
  leads c47_tree $"1" [$"a"; $"a"; $"f"] $"4" /\
  remote_parts c47_tree 9 $"4" $"1" NoCache = Ok ([$"a"; $"a"; $"f"], true) /\
  remote_parts c47_tree 9 $"1" $"4" NoCache = Ok ([$"a"; $"a"; $"top"], false) /\
  remote_parts c47_tree 9 $"4" $"1" (CacheIn (Some $"3") [$"a"; $"top"; $"home"]) = Ok ([$"top"; $"a"; $"a"; $"f"], true) /\
  remote_parts c47_tree 9 $"4" $"1" (CacheIn (Some $"7") [$"b"; $"top"; $"home"]) = Ok ([$"a"; $"a"; $"f"], true) /\
  remote_parts c47_tree 9 $"4" $"1" NotAnchored = Err AttributeError /\
  ssh_parts_relative (pp_parse $"/home/u") (pp_parse $"/home/u/d/f") = Ok [$"d"; $"f"] /\
  ssh_parts_relative (pp_parse $"/home/u") (pp_parse $"/home/v") = Err ValueError /\
  ssh_parts (pp_parse $"/home/u") (pp_parse $"/home/u/d/f") = [$"/"; $"home"; $"u"; $"d"; $"f"].
Proof.
  split; [|vm_compute; repeat split; reflexivity].
  apply (leads_down c47_tree $"1" [$"a"; $"a"] $"3" $"4"); [|discriminate|reflexivity].
  apply (leads_down c47_tree $"1" [$"a"] $"2" $"3"); [|discriminate|reflexivity].
  apply (leads_down c47_tree $"1" [] $"1" $"2"); [constructor|discriminate|reflexivity].
Qed.
