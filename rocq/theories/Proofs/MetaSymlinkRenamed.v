(** * A link that was renamed *)
From Coq Require Import String NArith ZArith Bool List.
From Coq Require Import Init.Byte.
From Verif Require Import Model.Py Model.PurePath Model.Meta Model.MetaEncode Model.MetaSymlink.
From Verif Require Import Spec.MetaSpec Proofs.MetaSymlinkProofs Proofs.MetaLinkMore.
Import ListNotations.

Lemma any_name name ln raw lower lower' m :
  from_symlink ln raw true lower = Ok m -> from_symlink name raw false lower' = Ok m.
Proof.
  unfold from_symlink. destruct (parts (pp_parse raw)) as [|l ps]; [easy|]. destruct ps as [|x [|y ps]]; try easy.
  - cbn [andb]. destruct (negb (str_eqb ln l)); [now destruct lower|easy].
  - cbn [andb]. destruct (negb (str_eqb ln l)); [now destruct lower|easy].
Qed.
Lemma renamed dp a m ln lower : typed a -> file_name ln -> meta_init a = Ok m -> link_safe a ->
  exists p m', as_symlink dp m (Some ln) = Ok p /\ (forall name, from_symlink name (pp_str p) false lower = Ok m') /\ carries m' a.
Proof.
  intros T F I L. destruct (link_safe_round_trip dp a m ln lower T F I L) as (p & m' & A & B & C).
  exists p, m'. split; [exact A|]. split; [|exact C]. intro name. exact (any_name name ln _ lower lower _ B).
Qed.
