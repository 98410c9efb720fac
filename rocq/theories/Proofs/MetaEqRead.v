(** * Equality of metadata when the stamps of both were read, and of different texts *)
From Coq Require Import String NArith ZArith Bool List Lia.
From Verif Require Import Model.Py Model.Meta Spec.XattrSpec Spec.MergeSpec Spec.MetaEqSpec Proofs.PyLemmas Proofs.MergeProofs Proofs.MergeTwice Proofs.MetaEqProofs.
Import ListNotations.

Lemma read_both dp a b m n m' n' :
  text_or_ok (a Fcreated) -> text_or_ok (a Fupdated) -> text_or_ok (b Fcreated) -> text_or_ok (b Fupdated) ->
  same_kind (a Fcreated) (b Fcreated) -> same_kind (a Fupdated) (b Fupdated) ->
  meta_init a = Ok m -> meta_init b = Ok n -> force dp m = Ok m' -> force dp n = Ok n' ->
  meta_eq m' n' = meta_eq m n.
Proof.
  intros Tac Tau Tbc Tbu Kc Ku Hm Hn Fm Fn. unfold same_kind in *. unfold meta_init, meta_init_x in Hm, Hn.
  destruct (negb _ && negb _ && negb _)%bool in Hm; [discriminate|].
  destruct (match a Fid with PNone | PStr _ => false | _ => true end); [discriminate|].
  destruct (match a Fsize with PNone => Ok PNone | v => filesize v end) as [sz|]; [|discriminate].
  cbn [rbind] in Hm. destruct (errors_tuple (a Ferrors)) as [er|]; [|discriminate]. cbn [rbind] in Hm.
  apply Ok_inj in Hm. subst m.
  destruct (negb _ && negb _ && negb _)%bool in Hn; [discriminate|].
  destruct (match b Fid with PNone | PStr _ => false | _ => true end); [discriminate|].
  destruct (match b Fsize with PNone => Ok PNone | v => filesize v end) as [sz'|]; [|discriminate].
  cbn [rbind] in Hn. destruct (errors_tuple (b Ferrors)) as [er'|]; [|discriminate]. cbn [rbind] in Hn.
  apply Ok_inj in Hn. subst n.
  rewrite <- Kc, <- Ku in *. unfold force in Fm, Fn.
  destruct (stamp_ok (a Fcreated)) eqn:Sc; destruct (stamp_ok (a Fupdated)) eqn:Su;
    cbn [get_created get_updated m_created m_created_ok m_updated m_updated_ok rbind m_name m_size m_checksum m_checksum_cypher
       m_etag m_chunksize m_multi m_parent_id m_id m_file_id m_old_id m_gid m_user_id m_mode m_errors m_kwargs] in Fm, Fn.
  - apply Ok_inj in Fm, Fn. now subst.
  - destruct Tau as [?|(s & Eu)]; [congruence|]. destruct Tbu as [?|(t & Eu')]; [congruence|]. rewrite Eu, Eu' in *.
    destruct (dp (PStr s)) as [x|] eqn:Ex; [|discriminate]. destruct (dp (PStr t)) as [y|] eqn:Ey; [|discriminate].
    cbn [rbind] in Fm, Fn. apply Ok_inj in Fm, Fn. subst m' n'. unfold meta_eq, dict.
    cbn [m_created m_created_ok m_updated m_updated_ok m_name m_size m_checksum m_checksum_cypher
       m_etag m_chunksize m_multi m_parent_id m_id m_file_id m_old_id m_gid m_user_id m_mode m_errors m_kwargs app eq_loop find fst attr_eqb field_eqb].
    assert (Z1 : dval_eq (DV (PStr s)) (DV (PStr t)) = true -> dval_eq (DV x) (DV y) = true).
    { intro H. cbn in H. apply str_eqb_eq in H. subst. assert (x = y) by congruence. subst y. apply py_eq_refl. }
    destruct (dval_eq (DV (PStr s)) (DV (PStr t))); rewrite ?Z1 by reflexivity;
      repeat (match goal with |- context [if dval_eq ?u ?v then _ else _] => destruct (dval_eq u v) end; try reflexivity).
  - destruct Tac as [?|(s & Eu)]; [congruence|]. destruct Tbc as [?|(t & Eu')]; [congruence|]. rewrite Eu, Eu' in *.
    destruct (dp (PStr s)) as [x|] eqn:Ex; [|discriminate]. destruct (dp (PStr t)) as [y|] eqn:Ey; [|discriminate].
    cbn [rbind] in Fm, Fn. apply Ok_inj in Fm, Fn. subst m' n'. unfold meta_eq, dict.
    cbn [m_created m_created_ok m_updated m_updated_ok m_name m_size m_checksum m_checksum_cypher
       m_etag m_chunksize m_multi m_parent_id m_id m_file_id m_old_id m_gid m_user_id m_mode m_errors m_kwargs app eq_loop find fst attr_eqb field_eqb].
    assert (Z1 : dval_eq (DV (PStr s)) (DV (PStr t)) = true -> dval_eq (DV x) (DV y) = true).
    { intro H. cbn in H. apply str_eqb_eq in H. subst. assert (x = y) by congruence. subst y. apply py_eq_refl. }
    destruct (dval_eq (DV (PStr s)) (DV (PStr t))); rewrite ?Z1 by reflexivity;
      repeat (match goal with |- context [if dval_eq ?u ?v then _ else _] => destruct (dval_eq u v) end; try reflexivity).
  - destruct Tac as [?|(s & Ec)]; [congruence|]. destruct Tbc as [?|(t & Ec')]; [congruence|].
    destruct Tau as [?|(s2 & Eu)]; [congruence|]. destruct Tbu as [?|(t2 & Eu')]; [congruence|]. rewrite Eu, Eu', Ec, Ec' in *.
    destruct (dp (PStr s)) as [x|] eqn:Ex; [|discriminate]. destruct (dp (PStr t)) as [y|] eqn:Ey; [|discriminate].
    destruct (dp (PStr s2)) as [x2|] eqn:Ex2; [|discriminate]. destruct (dp (PStr t2)) as [y2|] eqn:Ey2; [|discriminate].
    cbn [rbind] in Fm, Fn. apply Ok_inj in Fm, Fn. subst m' n'. unfold meta_eq, dict.
    cbn [m_created m_created_ok m_updated m_updated_ok m_name m_size m_checksum m_checksum_cypher
       m_etag m_chunksize m_multi m_parent_id m_id m_file_id m_old_id m_gid m_user_id m_mode m_errors m_kwargs app eq_loop find fst attr_eqb field_eqb].
    assert (Z1 : dval_eq (DV (PStr s)) (DV (PStr t)) = true -> dval_eq (DV x) (DV y) = true).
    { intro H. cbn in H. apply str_eqb_eq in H. subst. assert (x = y) by congruence. subst y. apply py_eq_refl. }
    assert (Z2 : dval_eq (DV (PStr s2)) (DV (PStr t2)) = true -> dval_eq (DV x2) (DV y2) = true).
    { intro H. cbn in H. apply str_eqb_eq in H. subst. assert (x2 = y2) by congruence. subst y2. apply py_eq_refl. }
    destruct (dval_eq (DV (PStr s)) (DV (PStr t))); destruct (dval_eq (DV (PStr s2)) (DV (PStr t2))); rewrite ?Z1, ?Z2 by reflexivity;
      repeat (match goal with |- context [if dval_eq ?u ?v then _ else _] => destruct (dval_eq u v) end; try reflexivity).
Qed.

Lemma text_unequal dp a s t c m n : plain (set_arg Fcreated (PStr s) a) -> plain (set_arg Fcreated (PStr t) a) -> s <> t ->
  dp (PStr s) = Ok c -> dp (PStr t) = Ok c ->
  meta_init (set_arg Fcreated (PStr s) a) = Ok m -> meta_init (set_arg Fcreated (PStr t) a) = Ok n ->
  (forall f, getf dp m f = getf dp n f) /\ meta_eq m n = Ok false.
Proof.
  intros Pa Pb N Ds Dt Hm Hn. split.
  - unfold meta_init, meta_init_x in Hm, Hn. change (set_arg Fcreated (PStr s) a Fid) with (a Fid) in *. change (set_arg Fcreated (PStr t) a Fid) with (a Fid) in *.
    change (set_arg Fcreated (PStr s) a Ffile_id) with (a Ffile_id) in *. change (set_arg Fcreated (PStr t) a Ffile_id) with (a Ffile_id) in *.
    change (set_arg Fcreated (PStr s) a Fsize) with (a Fsize) in *. change (set_arg Fcreated (PStr t) a Fsize) with (a Fsize) in *.
    change (set_arg Fcreated (PStr s) a Ferrors) with (a Ferrors) in *. change (set_arg Fcreated (PStr t) a Ferrors) with (a Ferrors) in *.
    destruct (negb _ && negb _ && negb _)%bool; [discriminate|].
    destruct (match a Fid with PNone | PStr _ => false | _ => true end); [discriminate|].
    destruct (match a Fsize with PNone => Ok PNone | v => filesize v end) as [sz|]; [|discriminate].
    cbn [rbind] in *. destruct (errors_tuple (a Ferrors)) as [er|]; [|discriminate]. cbn [rbind] in *.
    apply Ok_inj in Hm, Hn. subst m n. intros []; try reflexivity. cbn [getf get_created m_created_ok m_created set_arg field_eqb stamp_ok]. congruence.
  - destruct (eq_fields _ _ m n Pa Pb eq_refl eq_refl Hm Hn) as (r & E & I). rewrite E. destruct r; [|reflexivity].
    exfalso. pose proof (proj1 I eq_refl Fcreated) as K. cbn in K. apply str_eqb_eq in K. contradiction.
Qed.
