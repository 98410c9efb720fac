(** * Merging the same metadata a second time *)
From Coq Require Import String NArith ZArith Bool List.
From Verif Require Import Model.Py Model.Meta Model.MetaUpdate Spec.MetaSpec Spec.XattrSpec Spec.MergeSpec Proofs.PyLemmas Proofs.AttrLemmas Proofs.MergeProofs.
Import ListNotations.

Lemma list_eqb_refl {A} (e : A -> A -> bool) l : (forall a, e a a = true) -> list_eqb e l l = true.
Proof. intro H. induction l as [|a l IH]; [reflexivity|]. cbn. now rewrite H, IH. Qed.

Lemma py_eq_refl v : py_eq v v = true.
Proof.
  assert (B : forall b, bytes_eqb b b = true) by (intro; now apply bytes_eqb_eq).
  destruct v; cbn [py_eq]; try reflexivity.
  - apply Z.eqb_refl.
  - apply Z.eqb_refl.
  - apply str_eqb_refl.
  - apply B.
  - unfold dt_eqb. now rewrite eqb_reflx, Z.eqb_refl.
  - apply list_eqb_refl, str_eqb_refl.
  - now rewrite B, Z.eqb_refl.
Qed.

Lemma merged_differs old new : differs (merged old new) new = false.
Proof.
  apply differs_false. intros (f & _ & _ & _ & B & E). unfold merged in E. rewrite B in E. now rewrite py_eq_refl in E.
Qed.

Lemma merged_twice old new f : kinds new -> merged (merged old new) new f = merged old new f.
Proof.
  intro Kn. unfold merged at 1. rewrite merged_differs. cbn [andb]. destruct (blank (new f)) eqn:B.
  2:{ unfold merged. now rewrite B. }
  destruct f; try reflexivity. destruct (py_eq (merged old new Fid) (new Fid)) eqn:E; [reflexivity|].
  unfold merged in E |- *. rewrite B, andb_false_r. cbn [andb].
  destruct (blank (new Fid)) eqn:Bi; [|now rewrite py_eq_refl in E].
  destruct (differs old new && negb (field_eqb Fid Fold_id) && is_none (new Fid))%bool eqn:Q.
  - apply andb_true_iff in Q as [_ Q]. destruct (new Fid); try discriminate.
  - now rewrite E.
Qed.

Lemma merge_twice dp o n old new d m : describes dp o old -> describes dp n new -> kinds old -> kinds new ->
  meta_bool n = true -> update_meta dp (Some o) (Some n) = Ok (d, Some m) ->
  exists m2, update_meta dp (Some m) (Some n) = Ok (false, Some m2) /\
    (meta_bool m = true -> forall f, getf dp m2 f = getf dp m f).
Proof.
  intros Do Dn Ko Kn Bn H. destruct (meta_bool m) eqn:Bm.
  2:{ exists n. unfold update_meta. rewrite Bm. split; [reflexivity|discriminate]. }
  assert (M : exists res, describes dp m res /\ kinds res /\ differs res new = false /\ forall f, merged res new f = res f).
  { unfold update_meta in H. rewrite Bn in H. destruct (meta_bool o) eqn:Bo; cbn [negb] in H.
    - destruct (merge_spec dp o n old new Do Dn Ko Kn) as (m' & E & D & _). rewrite E in H. cbn [rbind fst snd] in H.
      apply Ok_inj in H. injection H as _ <-. exists (merged old new). split; [assumption|]. split; [now apply merged_kinds|].
      split; [apply merged_differs|]. intro f. now apply merged_twice.
    - apply Ok_inj in H. injection H as _ <-. exists new. split; [assumption|]. split; [assumption|].
      assert (Q : differs new new = false).
      { apply differs_false. intros (f & _ & _ & _ & _ & E). now rewrite py_eq_refl in E. }
      split; [assumption|]. intro f. unfold merged. rewrite Q, py_eq_refl. cbn [andb]. destruct (blank (new f)); [|reflexivity]. now destruct f. }
  destruct M as (res & D & Kr & Q & R). destruct (merge_spec dp m n res new D Dn Kr Kn) as (m2 & E & D2 & _).
  exists m2. split; [rewrite upd_both, E, Q by assumption; reflexivity|]. intros _ f. now rewrite D2, D, R.
Qed.
