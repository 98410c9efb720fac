(** * C39, C52: zip files as directories *)
From Coq Require Import String NArith Bool List Relations.
From Verif Require Import Model.Py Model.PurePath Model.RelPath Model.Fs Model.PathOps Model.Zip Spec.ZipSpec Proofs.PyLemmas Proofs.ZipProofs.
Import ListNotations.

(** What exists inside is what the names of the entries imply, for every list of
    entries. *)
Theorem C39_exists :
  forall l p, z_exists l p = true <-> implied (map (fun z => pp_parse (z_name z)) l) p.
Proof. exact exists_implied. Qed.
Print Assumptions C39_exists.
Theorem C39_closed :
  forall l p, z_exists l p = true -> z_exists l (pp_parent p) = true.
Proof. exact exists_parent. Qed.
Print Assumptions C39_closed.
Theorem C39_children :
  forall l p q, In q (z_children l p) <-> z_exists l q = true /\ right_below p q.
Proof. exact children_iff. Qed.
Print Assumptions C39_children.
(** What is not at the top is a child of one path only. *)
Theorem C39_one_parent :
  forall l q, z_exists l q = true -> pp_parent q <> q -> forall p, In q (z_children l p) <-> p = pp_parent q.
Proof. exact one_parent. Qed.
Print Assumptions C39_one_parent.
Theorem C39_rchildren :
  forall l p q, In q (z_rchildren l p) <-> z_exists l q = true /\ deep_below p q.
Proof. exact rchildren_iff. Qed.
Print Assumptions C39_rchildren.
(** These are what is reached from child to child. *)
Theorem C39_steps :
  forall l p q, In q (z_rchildren l p) <-> clos_trans ppath (fun a b => In b (z_children l a)) p q.
Proof. exact children_steps. Qed.
Print Assumptions C39_steps.
Theorem C39_listed_once :
  forall l p, NoDup (z_children l p) /\ NoDup (z_rchildren l p).
Proof. exact children_nodup. Qed.
Print Assumptions C39_listed_once.
(** Nothing is below a file. *)
Theorem C39_files :
  forall l p, z_is_dir l p = false -> z_rchildren l p = [].
Proof. exact file_leaf. Qed.
Print Assumptions C39_files.
(** What is opened: the first entry of that path, not one of a directory, when no
    entry is below it. *)
Theorem C39_opens :
  forall l p z, z_open l p = Ok z <->
    zi_is_dir z = false /\ (forall q, In q (map (fun z => pp_parse (z_name z)) l) -> ~ deep_below p q) /\
    exists before after, l = before ++ z :: after /\ pp_parse (z_name z) = p /\
      ~ In p (map (fun z => pp_parse (z_name z)) before).
Proof. exact open_iff. Qed.
Print Assumptions C39_opens.

Definition c39_zip : list zinfo :=
  [mkZinfo $"a/b/c.txt" 0; mkZinfo $"a/d/" 1; mkZinfo $"e" 2; mkZinfo $"a/" 3; mkZinfo $"e" 4; mkZinfo $"f" 5; mkZinfo $"f/g" 6].
Example C39_case :
  z_exists c39_zip (pp_parse $"a/b") = true /\ z_exists c39_zip (pp_parse $"a/c") = false /\ pp_parent (pp_parse $"a/b") <> pp_parse $"a/b" /\
  z_children c39_zip (pp_parse $".") = [pp_parse $"a"; pp_parse $"f"; pp_parse $"e"] /\
  z_children c39_zip (pp_parse $"a") = [pp_parse $"a/b"; pp_parse $"a/d"] /\
  z_rchildren c39_zip (pp_parse $"a") = [pp_parse $"a/b"; pp_parse $"a/b/c.txt"; pp_parse $"a/d"] /\
  z_is_dir c39_zip (pp_parse $"a/d") = true /\ z_is_dir c39_zip (pp_parse $"a/b/c.txt") = false /\
  z_open c39_zip (pp_parse $"e") = Ok (mkZinfo $"e" 2) /\ z_open c39_zip (pp_parse $"f") = Err (OSErr EISDIR) /\
  z_is_dir c39_zip (pp_parse $"nothing") = true /\ z_exists [] (pp_parse $".") = false.
Proof. vm_compute. repeat split; try reflexivity; discriminate. Qed.

(** ** Paths on the disk *)
(** The zip file of a path is that path or above it; it is the innermost that is one,
    or, when none is, the outermost named as one. *)
Theorem C52_which :
  forall is_zipfile zip_file p z, zip_path is_zipfile zip_file p = Ok (Some z) ->
    at_or_below z p /\ archive is_zipfile dot_zip z /\
    (forall q, deep_below z q -> at_or_below q p -> is_zipfile q = false) /\ exists l, zip_file z = Ok l.
Proof. exact (fun a b p z => zip_path_spec a b p (Some z)). Qed.
Print Assumptions C52_which.
Theorem C52_none :
  forall is_zipfile zip_file p, zip_path is_zipfile zip_file p = Ok None ->
    forall q, at_or_below q p -> pp_parts q <> [] -> is_zipfile q = false /\ dot_zip q = false.
Proof. exact (fun a b p => zip_path_spec a b p None). Qed.
Print Assumptions C52_none.
(** The relative path leads back. *)
Theorem C52_relative :
  forall is_zipfile zip_file p z, zip_path is_zipfile zip_file p = Ok (Some z) ->
    exists l r, zip_file z = Ok l /\ zip_relative_path is_zipfile zip_file p = Ok (Some (l, r)) /\ pp_abs r = false /\ pp_join z r = p.
Proof. exact zip_relative. Qed.
Print Assumptions C52_relative.
(** Missing from the full statement: paths that are in no zip file and do not exist,
    see [C52_refuted]. *)
Theorem C52_partial :
  forall is_zipfile zip_file on_disk p z l r, zip_path is_zipfile zip_file p = Ok (Some z) -> zip_file z = Ok l ->
    pp_abs r = false -> pp_join z r = p -> zp_exists is_zipfile zip_file on_disk p = Ok (z_exists l r).
Proof. exact zip_exists. Qed.
Print Assumptions C52_partial.
Theorem C52_rchildren :
  forall is_zipfile zip_file p z l, zip_path is_zipfile zip_file p = Ok (Some z) -> zip_file z = Ok l ->
    exists c, zp_rchildren is_zipfile zip_file p = Ok (Some c) /\ NoDup c /\
      forall q, In q c <-> deep_below p q /\ exists r, pp_abs r = false /\ q = pp_join z r /\ z_exists l r = true.
Proof. exact zip_rchildren. Qed.
Print Assumptions C52_rchildren.
(** Outside of zip files [exists] is never false: it raises. *)
Theorem C52_refuted :
  forall is_zipfile zip_file on_disk p, zip_path is_zipfile zip_file p = Ok None ->
    zp_exists is_zipfile zip_file on_disk p = if on_disk p then Ok true else Err AttributeError.
Proof. exact zip_exists_outside. Qed.
Print Assumptions C52_refuted.

Definition c52_is (p : ppath) : bool := pp_eqb p (pp_parse $"/d/x.zip").
Definition c52_file (p : ppath) : res (list zinfo) := if c52_is p then Ok c39_zip else Err (OSErr ENOENT).
Example C52_case :
  zip_path c52_is c52_file (pp_parse $"/d/x.zip/a/y.zip") = Ok (Some (pp_parse $"/d/x.zip")) /\
  zip_relative_path c52_is c52_file (pp_parse $"/d/x.zip/a/b") = Ok (Some (c39_zip, pp_parse $"a/b")) /\
  zp_exists c52_is c52_file (fun _ => false) (pp_parse $"/d/x.zip/a/b") = Ok true /\
  zp_exists c52_is c52_file (fun _ => false) (pp_parse $"/d/x.zip/a/c") = Ok false /\
  zp_rchildren c52_is c52_file (pp_parse $"/d/x.zip/a/b") = Ok (Some [pp_parse $"/d/x.zip/a/b/c.txt"]) /\
  zip_path c52_is c52_file (pp_parse $"/d/.zip") = Ok None /\
  zip_path c52_is c52_file (pp_parse $"/d/none.zip/a") = Err (OSErr ENOENT) /\
  zp_exists c52_is c52_file (fun _ => false) (pp_parse $"/d/none") = Err AttributeError.
Proof. vm_compute. repeat split; reflexivity. Qed.
