(** * C83: the identifier of an ssh remote *)
From Coq Require Import String NArith ZArith Bool List.
From Verif Require Import Model.Py Model.PurePath Model.RemoteTree Model.SshName Spec.SshNameSpec Proofs.PathLemmas Proofs.SshNameProofs.
Import ListNotations.

(** Two remotes, of any hosts and anchors, have one identifier exactly when they are one path
    on one host; and that is when they compare equal. *)
Theorem C83_one_file :
  forall hp host anchor p hp' host' anchor' p',
    ssh_init hp = Ok (host, anchor) -> ssh_init hp' = Ok (host', anchor') -> proper p -> proper p' ->
    (ssh_id host anchor p = ssh_id host' anchor' p' <-> host = host' /\ remote_file anchor p = remote_file anchor' p') /\
    exists b, ssh_eq host anchor p (ORemote host' anchor' p') = Ok b /\
      (b = true <-> host = host' /\ remote_file anchor p = remote_file anchor' p').
Proof.
  exact (fun hp host anchor p hp' host' anchor' p' I I' P P' =>
    match init_shape _ _ _ I, init_shape _ _ _ I' with
    | conj N (conj A _), conj N' (conj A' _) => conj (id_inj _ _ _ _ _ _ N N' A A' P P') (eq_remote _ _ _ _ _ _ N N' A A' P P')
    end).
Qed.
Print Assumptions C83_one_file.
(** A remote made from an identifier has that identifier.  Missing from the full statement:
    anchors that are not absolute ([C83_anchor_refuted]). *)
Theorem C83_again_partial :
  forall hp host anchor p, ssh_init hp = Ok (host, anchor) -> pp_abs anchor = true -> proper p ->
    ssh_new host (NText (ssh_id host anchor p)) = remote_file anchor p /\
    ssh_id host anchor (ssh_new host (NText (ssh_id host anchor p))) = ssh_id host anchor p.
Proof.
  exact (fun hp host anchor p I A P => match init_shape _ _ _ I with conj N (conj PA _) => again host anchor p N A PA P end).
Qed.
Print Assumptions C83_again_partial.
(** A text that does not begin with the host is the path it says.  Missing: those that do
    ([C83_name_refuted]). *)
Theorem C83_text_partial :
  forall host s, startswith s (host ++ $":") = false -> ssh_new host (NText s) = pp_parse s.
Proof. exact new_other. Qed.
Print Assumptions C83_text_partial.
(** The parents are the directories above as the path is written, the nearest first, and the
    parent is the parent on the host.  Missing: a path without components
    ([C83_root_refuted]); that equal remotes have the same parents ([C83_parents_refuted]). *)
Theorem C83_parents_partial :
  forall hp host anchor p, ssh_init hp = Ok (host, anchor) -> proper p -> pp_parts p <> [] ->
    ssh_parents host anchor p = Ok (above p) /\ remote_file anchor (ssh_parent p) = pp_parent (remote_file anchor p).
Proof.
  exact (fun hp host anchor p I P N => match init_shape _ _ _ I with conj NH (conj PA _) =>
    conj (parents_above host anchor p NH PA P N) (parent_file anchor p P N) end).
Qed.
Print Assumptions C83_parents_partial.

Definition c83_id (hp s : str) : res str :=
  do i <- ssh_init hp ; Ok (ssh_id (fst i) (snd i) (ssh_new (fst i) (NText s))).
(** The anchor h:d is relative to the home of the user: h:d/f made again is h:d/d/f. *)
Theorem C83_anchor_refuted : c83_id $"h:d" $"f" = Ok $"h:d/f" /\ c83_id $"h:d" $"h:d/f" = Ok $"h:d/d/f".
Proof. vm_compute. split; reflexivity. Qed.
Print Assumptions C83_anchor_refuted.
(** On the host h, the file called h:f is another one than it says; by a path object it is
    not. *)
Theorem C83_name_refuted :
  c83_id $"h:/a" $"h:f" = Ok $"h:/a/f" /\ ssh_id $"h" (pp_parse $"/a") (ssh_new $"h" (NPath (pp_parse $"h:f"))) = $"h:/a/h:f".
Proof. vm_compute. split; reflexivity. Qed.
Print Assumptions C83_name_refuted.
(** The root is one of its own parents. *)
Theorem C83_root_refuted : ssh_parents $"h" (pp_parse $"/a") (pp_parse $"/") = Ok [pp_parse $"/"].
Proof. vm_compute. reflexivity. Qed.
Print Assumptions C83_root_refuted.
(** Two remotes that are equal, one with two directories above it and one with one. *)
Theorem C83_parents_refuted :
  ssh_eq $"h" (pp_parse $"/a") (pp_parse $"f") (ORemote $"h" (pp_parse $"/a") (pp_parse $"/a/f")) = Ok true /\
  ssh_parents $"h" (pp_parse $"/a") (pp_parse $"/a/f") = Ok [pp_parse $"/a"; pp_parse $"/"] /\
  ssh_parents $"h" (pp_parse $"/a") (pp_parse $"f") = Ok [pp_parse $"."].
Proof. vm_compute. repeat split; reflexivity. Qed.
Print Assumptions C83_parents_refuted.

Example C83_case :
  ssh_init $"me@host:/srv/data" = Ok ($"me@host", pp_parse $"/srv/data") /\ ssh_init $"host" = Err ValueError /\
  ssh_init $"h:a:b" = Ok ($"h", pp_parse $"a:b") /\
  proper (pp_parse $"d/f.txt") /\ c83_id $"h:/srv" $"d/f.txt" = Ok $"h:/srv/d/f.txt" /\ c83_id $"h:/srv" $"h:/srv/d/f.txt" = Ok $"h:/srv/d/f.txt" /\
  c83_id $"h:/srv" $"/etc/passwd" = Ok $"h:/etc/passwd" /\ c83_id $"h:/srv" $"h:/srv/x:y" = Ok $"h:/srv/x:y" /\
  ssh_eq $"h" (pp_parse $"/srv") (pp_parse $"f") OFalse = Ok false /\
  ssh_eq $"h" (pp_parse $"/srv") (pp_parse $"f") ONoId = Err AttributeError /\
  ssh_parents $"h" (pp_parse $"/srv") (pp_parse $"/srv/d/f") = Ok [pp_parse $"/srv/d"; pp_parse $"/srv"; pp_parse $"/"].
Proof.
  split; [vm_compute; reflexivity|]. split; [vm_compute; reflexivity|]. split; [vm_compute; reflexivity|].
  split; [apply proper_norm, norm_parse|]. repeat split; vm_compute; reflexivity.
Qed.
