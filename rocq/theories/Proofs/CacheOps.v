(** * What writing metadata and fetching do to one place *)
From Coq Require Import String NArith ZArith Bool List Lia.
From Verif Require Import Model.Py Model.PurePath Model.Meta Model.MetaEncode Model.MetaXattr Model.MetaSymlink Model.MetaUpdate Model.Access
  Model.Fs Model.PathOps Model.Sparse Model.Copy Model.Cache
  Spec.FsSpec Spec.LoopSpec Spec.CopySpec Spec.CacheSpec
  Proofs.PyLemmas Proofs.PathLemmas Proofs.FsLemmas Proofs.RunLemmas Proofs.RmtreeProofs Proofs.RmdirtreeProofs Proofs.SparseProofs
  Proofs.MoveLemmas Proofs.LoopProofs Proofs.CopyProofs Proofs.MergeProofs Proofs.Hoare Proofs.SlotLemmas Proofs.CacheLemmas.
Import ListNotations.

Section Ops.
Variables (K : conf) (D : place) (x : str).
Hypothesis Hx : good_name x.
Notation P := (D ++ [x]).
Notation p := (path_of (D ++ [x])).
Notation fine := (fine D x).
Notation St := (St D x).
Variables (I : node -> Prop) (F : node) (J : option thing -> Prop).
Hypothesis HI : forall s v, St F v s -> J v -> I s.

Lemma St_fine v s : St F v s -> fine s. Proof. now intros (H & _). Qed.
Hint Resolve St_fine : core.
Ltac stf := let s := fresh "s" in let H := fresh "H" in intros s H; apply (St_fine _ _ (proj1 H)) || apply (St_fine _ _ H) || (apply (St_fine _ _ (proj1 (proj1 H)))).

(** Facts about the value of a place that is known. *)
Lemma tk_exists v : tri I (St F v) (p_exists p) (kp (St F v) (fun b _ => b = isE v)).
Proof. eapply tri_post; [apply t_exists; [exact Hx|apply St_fine]|]. intros r s ((H1 & H2 & H3) & E). split; [now split|]. intros a ->. rewrite <- H3. now apply E. Qed.
Lemma tk_is_file v : tri I (St F v) (p_is_file p) (kp (St F v) (fun b _ => b = isF v)).
Proof. eapply tri_post; [apply t_is_file; [exact Hx|apply St_fine]|]. intros r s ((H1 & H2 & H3) & E). split; [now split|]. intros a ->. rewrite <- H3. now apply E. Qed.
Lemma tk_is_dir v : tri I (St F v) (p_is_dir p) (kp (St F v) (fun b _ => b = isD v)).
Proof. eapply tri_post; [apply t_is_dir; [exact Hx|apply St_fine]|]. intros r s ((H1 & H2 & H3) & E). split; [now split|]. intros a ->. rewrite <- H3. now apply E. Qed.
Lemma tk_is_symlink v : tri I (St F v) (p_is_symlink p) (kp (St F v) (fun b _ => b = isL v)).
Proof. eapply tri_post; [apply t_is_symlink; [exact Hx|apply St_fine]|]. intros r s ((H1 & H2 & H3) & E). split; [now split|]. intros a ->. rewrite <- H3. now apply E. Qed.
Lemma tk_broken v : tri I (St F v) (p_is_broken_symlink p) (kp (St F v) (fun b _ => b = isL v)).
Proof. eapply tri_post; [apply t_broken; [exact Hx|apply St_fine]|]. intros r s ((H1 & H2 & H3) & E). split; [now split|]. intros a ->. rewrite <- H3. now apply E. Qed.
Lemma tk_ens v : tri I (St F v) (p_exists_not_symlink p) (kp (St F v) (fun b _ => b = isE v)).
Proof. eapply tri_post; [apply t_exists_not_symlink; [exact Hx|apply St_fine]|]. intros r s ((H1 & H2 & H3) & E). split; [now split|]. intros a ->. rewrite <- H3. now apply E. Qed.
Lemma tk_cache_meta v : tri I (St F v) (cache_meta K p) (kp (St F v) (fun m _ => recorded K x v = Ok m)).
Proof. eapply tri_post; [apply (t_cache_meta K D x Hx); apply St_fine|]. intros r s ((H1 & H2 & H3) & E). split; [now split|]. intros a ->. rewrite <- H3. now apply E. Qed.
Lemma tk_parent v : tri I (St F v) (p_exists (pp_parent p)) (kp (St F v) (fun b _ => b = true)).
Proof. rewrite pp_parent_of. apply t_exists_dir. intros s ((G & Dd & _) & _). now split. Qed.

(** drops a known fact from the precondition *)
Lemma tri_known {A} (Fa : Prop) (R : node -> Prop) (m : M A) Q : (Fa -> tri I R m Q) -> tri I (fun s => R s /\ Fa) m Q.
Proof. intros T w r w' Ho (Hr & f). now apply (T f). Qed.

(** ** Attributes *)
Lemma t_setxattrs_file d : forall l xs, (forall k, J (Some (AFile d (setall (firstn k l) xs)))) ->
  tri I (St F (Some (AFile d xs))) (p_setxattrs p l)
    (fun r s => match r with Ok _ => St F (Some (AFile d (setall l xs))) s | Err _ => exists k, St F (Some (AFile d (setall (firstn k l) xs))) s end).
Proof.
  induction l as [|[k v] l IH]; intros xs HJ; unfold p_setxattrs; cbn [each].
  - apply tri_ret. intros s H. exact H.
  - eapply tri_bind.
    + apply t_setxattr_file; [exact Hx|]. intros s H. apply (HI _ _ H). exact (HJ 1%nat).
    + intros []. cbn [fst snd]. eapply tri_post; [apply IH|].
      * intro j. exact (HJ (S j)).
      * intros [[]|e] s H; [exact H|]. destruct H as (j & H). exists (S j). exact H.
    + intros e s H. exists 0%nat. exact H.
Qed.
Lemma t_setxattrs_dir : forall l xs, (forall k, J (Some (ADir (setall (firstn k l) xs)))) ->
  tri I (St F (Some (ADir xs))) (p_setxattrs p l) (fun r s => exists k, St F (Some (ADir (setall (firstn k l) xs))) s).
Proof.
  induction l as [|[k v] l IH]; intros xs HJ; unfold p_setxattrs; cbn [each].
  - apply tri_ret. intros s H. exists 0%nat. exact H.
  - eapply tri_bind.
    + apply t_setxattr_dir; [exact Hx|]. intros s H. apply (HI _ _ H). exact (HJ 1%nat).
    + intros []. cbn [fst snd]. eapply tri_post; [apply IH|].
      * intro j. exact (HJ (S j)).
      * intros r s (j & H). exists (S j). exact H.
    + intros e s H. exists 0%nat. exact H.
Qed.

Definition set_list (m : pathmeta) : res MetaXattr.xattrs := as_xattrs (c_dateparse K) m (c_prefix K).

Lemma t_eat_set_file d xs m : (forall l k, set_list m = Ok l -> J (Some (AFile d (setall (firstn k l) xs)))) ->
  tri I (St F (Some (AFile d xs))) (eat_set K p m)
    (fun r s => match r with
       | Ok _ => exists l, set_list m = Ok l /\ St F (Some (AFile d (setall l xs))) s
       | Err _ => exists l k, (l = [] \/ set_list m = Ok l) /\ St F (Some (AFile d (setall (firstn k l) xs))) s end).
Proof.
  intro HJ. unfold eat_set.
  assert (E0 : forall e s, St F (Some (AFile d xs)) s -> match (@Err unit e) with
       | Ok _ => exists l, set_list m = Ok l /\ St F (Some (AFile d (setall l xs))) s
       | Err _ => exists l k, (l = [] \/ set_list m = Ok l) /\ St F (Some (AFile d (setall (firstn k l) xs))) s end).
  { intros e s H. exists [], 0%nat. split; [now left|exact H]. }
  eapply tri_bindk; [apply tk_exists| |intros e s H; now apply (E0 e)]. intros b. cbv beta iota; apply tri_known; intros ->. cbn [isE].
  eapply tri_bindk; [apply tk_is_symlink| |intros e s H; now apply (E0 e)]. intros b. cbv beta iota; apply tri_known; intros ->. cbn [isL].
  eapply tri_bindk; [apply tri_liftk| |intros e s H; now apply (E0 e)]. intros l. cbv beta iota; apply tri_known; intro El.
  eapply tri_post; [apply t_setxattrs_file; intro k; now apply HJ|].
  intros [[]|e] s H; [eauto|]. destruct H as (k & H). eauto 6.
Qed.
Lemma t_eat_set_dir xs m : (forall l k, set_list m = Ok l -> J (Some (ADir (setall (firstn k l) xs)))) ->
  tri I (St F (Some (ADir xs))) (eat_set K p m) (fun r s => exists ys, St F (Some (ADir ys)) s).
Proof.
  intro HJ. unfold eat_set.
  eapply tri_bindk; [apply tk_exists| |eauto]. intros b. cbv beta iota; apply tri_known; intros ->. cbn [isE].
  eapply tri_bindk; [apply tk_is_symlink| |eauto]. intros b. cbv beta iota; apply tri_known; intros ->. cbn [isL].
  eapply tri_bindk; [apply tri_liftk| |eauto]. intros l. cbv beta iota; apply tri_known; intro El.
  eapply tri_post; [apply t_setxattrs_dir; intro k; now apply HJ|]. intros r s (k & H). eauto.
Qed.

(** ** Writing metadata *)
Lemma t_cache_set_file d xs m : meta_bool m = true -> (forall l k, set_list m = Ok l -> J (Some (AFile d (setall (firstn k l) xs)))) ->
  tri I (St F (Some (AFile d xs))) (cache_set K p (Some m))
    (fun r s => match r with
       | Ok _ => exists l, set_list m = Ok l /\ St F (Some (AFile d (setall l xs))) s
       | Err _ => exists l k, (l = [] \/ set_list m = Ok l) /\ St F (Some (AFile d (setall (firstn k l) xs))) s end).
Proof.
  intros Em HJ. unfold cache_set. rewrite Em.
  eapply tri_bindk; [apply tk_ens| |].
  - intros b. cbv beta iota; apply tri_known; intros ->. cbn [isE]. now apply t_eat_set_file.
  - intros e s H. exists [], 0%nat. split; [now left|exact H].
Qed.

Definition free_kinds (v : option thing) : Prop :=
  v = None \/ (exists t, v = Some (ALink t)) \/ (r_is_dir (c_remote K) = true /\ exists xs, v = Some (ADir xs)).

Lemma t_prepare_free : (forall v, free_kinds v -> J v) ->
  tri I (St F None) (prepare K p) (fun r s => match r with
    | Ok _ => (r_is_dir (c_remote K) = true /\ St F (Some (ADir [])) s) \/ (r_is_dir (c_remote K) = false /\ St F None s)
    | Err _ => St F None s end).
Proof.
  intro HJ. unfold prepare.
  eapply tri_bindk with (Q := fun d _ => d = r_is_dir (c_remote K)); [| |intros e s H; exact H].
  { apply tri_askk. intros s cwd a _ H. apply Ok_inj in H. now subst. }
  intro b. cbv beta iota; apply tri_known; intros ->. destruct (r_is_dir (c_remote K)) eqn:Ed.
  - eapply tri_bindk; [apply tk_exists| |intros e s H; exact H]. intros b. cbv beta iota; apply tri_known; intros ->. cbn [isE negb when].
    eapply tri_post; [apply t_mkdir; [exact Hx|]|].
    + intros s H. apply (HI _ _ H), HJ. right. right. eauto.
    + intros [[]|e] s H; [now left|exact H].
  - eapply tri_bindk with (Q := fun d _ => True); [| |intros e s H; exact H].
    { apply tri_askk. auto. }
    intro b. cbv beta iota; apply tri_known; intros _. destruct b.
    + eapply tri_bindk; [apply tk_parent| |intros e s H; exact H]. intros b. cbv beta iota; apply tri_known; intros ->. cbn [negb when].
      apply tri_ret. intros s H. right. now split.
    + apply tri_raise. intros s H. exact H.
Qed.

Lemma t_symlink_set_free m : m_id m <> PStr [] -> (forall v, free_kinds v -> J v) ->
  tri I (St F None) (symlink_set K p m) (fun r s => match r with Ok _ => exists t, St F (Some (ALink t)) s | Err _ => St F None s end).
Proof.
  intros Hi HJ. unfold symlink_set.
  eapply tri_bindk; [apply tk_exists| |intros e s H; exact H]. intros b. cbv beta iota; apply tri_known; intros ->. cbn [isE].
  eapply tri_bindk; [apply tk_is_symlink| |intros e s H; exact H]. intros b. cbv beta iota; apply tri_known; intros ->. cbn [isL].
  eapply tri_bindk with (Q := fun b _ => b = true); [apply tri_ret| |intros e s H; exact H].
  { intros s H. split; [assumption|]. intros a Ea. now injection Ea as <-. }
  intros b. cbv beta iota; apply tri_known; intros ->. rewrite pp_name_of.
  eapply tri_bindk; [apply tri_liftk| |intros e s H; exact H]. intros t. cbv beta iota; apply tri_known; intro Et.
  eapply tri_post; [apply t_symlink; [exact Hx|now apply (as_symlink_rel (c_dateparse K) m)|]|].
  - intros s H. apply (HI _ _ H), HJ. right. left. eauto.
  - intros [[]|e] s H; [eauto|exact H].
Qed.

Lemma t_cache_set_free m : m_id m <> PStr [] -> (forall v, free_kinds v -> J v) ->
  tri I (St F None) (cache_set K p (Some m)) (fun r s => exists v, free_kinds v /\ St F v s).
Proof.
  intros Hi HJ. unfold cache_set.
  assert (E0 : forall s, St F None s -> exists v, free_kinds v /\ St F v s) by (intros s H; exists None; split; [now left|exact H]).
  destruct (meta_bool m); [|apply tri_ret; auto].
  eapply tri_bindk; [apply tk_ens| |intros e s H; auto]. intros b. cbv beta iota; apply tri_known; intros ->. cbn [isE].
  eapply tri_bind; [apply t_prepare_free, HJ| |intros e s H; auto]. intros [].
  cbv beta iota; apply tri_or.
  - cbv beta iota; apply tri_fact; intro Ed. eapply tri_bindk; [apply tk_exists| |].
    + intros b. cbv beta iota; apply tri_known; intros ->. cbn [isE].
      eapply tri_post; [apply t_eat_set_dir|].
      * intros l k _. apply HJ. right. right. eauto.
      * intros r s (ys & H). exists (Some (ADir ys)). split; [|exact H]. right. right. eauto.
    + intros e s H. exists (Some (ADir [])). split; [|exact H]. right. right. eauto.
  - cbv beta iota; apply tri_fact; intro Ed. eapply tri_bindk; [apply tk_exists| |intros e s H; auto].
    intros b. cbv beta iota; apply tri_known; intros ->. cbn [isE].
    eapply tri_post; [now apply t_symlink_set_free|].
    intros [[]|e] s H; [|auto]. destruct H as (t & H). exists (Some (ALink t)). split; [|exact H]. right. left. eauto.
Qed.

(** ** Fetching *)
Notation chunks := (r_chunks (c_remote K)).
Notation data := (concat (r_chunks (c_remote K))).

Lemma t_write_chunks_file d xs : (forall d', J (Some (AFile d' xs))) ->
  tri I (St F (Some (AFile d xs))) (write_chunks p (remote_feed chunks (r_break (c_remote K))))
    (fun r s => match r with Ok _ => r_break (c_remote K) = None /\ St F (Some (AFile data xs)) s | Err _ => exists d', St F (Some (AFile d' xs)) s end).
Proof.
  intro HJ. unfold write_chunks.
  eapply tri_bindk with (Q := fun v _ => match chunks with
     | c :: l' => v = Some (c, remote_feed l' (r_break (c_remote K))) | [] => v = None /\ r_break (c_remote K) = None end).
  - apply t_pull.
  - intro v. cbv beta iota; apply tri_known; intro Ev. destruct chunks as [|c l] eqn:Ec.
    + destruct Ev as [-> _]. apply tri_raise. intros s H. eauto.
    + subst v. eapply tri_bind; [apply t_create_file; [exact Hx|intros s H; now apply (HI _ _ H)]| |].
      * intros q. cbv beta iota; apply tri_fact; intros ->. eapply tri_bind; [apply t_append; [exact Hx|intros s H; now apply (HI _ _ H)]| |].
        -- intros []. cbv beta iota. cbn [app]. eapply tri_post; [apply t_drain; [exact Hx|intros s d' H _; now apply (HI _ _ H)]|].
           intros [[]|e] s H; cbn [concat]; [exact H|]. destruct H as (k & H). eauto.
        -- cbv beta iota. eauto.
      * cbv beta iota. eauto.
  - eauto.
Qed.

Lemma t_set_data_file d xs : (forall d', J (Some (AFile d' xs))) ->
  tri I (St F (Some (AFile d xs))) (cache_set_data K p (remote_feed chunks (r_break (c_remote K))))
    (fun r s => match r with Ok _ => r_break (c_remote K) = None /\ St F (Some (AFile data xs)) s | Err _ => exists d', St F (Some (AFile d' xs)) s end).
Proof.
  intro HJ. unfold cache_set_data.
  eapply tri_bindk; [apply tk_cache_meta| |eauto]. intros m0. cbv beta iota; apply tri_known; intros _.
  eapply tri_bind; [now apply t_write_chunks_file| |intros e s H; exact H]. intros [].
  cbv beta iota; apply tri_fact; intros Eb.
  eapply tri_bindk; [apply tk_cache_meta| |eauto]. intros m1. cbv beta iota; apply tri_known; intros _.
  destruct (meta_true m1); [|apply tri_raise; eauto].
  eapply tri_bindk; [apply tk_cache_meta| |eauto]. intros m2. cbv beta iota; apply tri_known; intros _.
  destruct (meta_true m2); [|apply tri_raise; eauto].
  eapply tri_bindk; [apply tk_cache_meta| |eauto]. intros m3. cbv beta iota; apply tri_known; intros _.
  destruct (meta_true m3); [|apply tri_raise; eauto].
  apply tri_ret. auto.
Qed.

(** what fetch does once there is a file, caches.py:904-930 *)
Definition fetch_rest (meta : pathmeta) : M unit :=
  let! _ <- p_exists (c_object K) ;
  let! _ <- cache_set_data K p (remote_feed (r_chunks (c_remote K)) (r_break (c_remote K))) ;
  let! st <- sys_stat true p ;
  let size := match st with File d _ => Z.of_nat (length d) | _ => 0%Z end in
  if negb (py_eq (PInt size) (m_size meta)) then raise ValueError
  else if existsb (str_eqb mismatch) (m_errors meta) then ret tt
  else
    let! cy <- instance_cypher K p ;
    let! lc <- local_checksum K p cy ;
    if (negb (is_none (m_checksum meta)) && negb (py_eq lc (m_checksum meta)))%bool then
      let! nm <- lift (with_mismatch K meta) ;
      cache_set K p (Some nm)
    else ret tt.

Definition cypher_for (m : pathmeta) : option str :=
  match m_checksum_cypher m with PNone => Some (c_cypher K) | PStr s => Some s | _ => None end.

Definition rest_ok (meta : pathmeta) (xs xs' : Fs.xattrs) : Prop :=
  py_eq (PInt (Z.of_nat (length data))) (m_size meta) = true /\
  ((existsb (str_eqb mismatch) (m_errors meta) = true /\ xs' = xs) \/
   (xs' = xs /\ exists cm cy, recorded K x (Some (AFile data xs)) = Ok (Some cm) /\ cypher_for cm = Some cy /\
      (m_checksum meta = PNone \/ py_eq (PBytes (c_digest K (used_cypher K cy) data)) (m_checksum meta) = true)) \/
   (exists nm l, with_mismatch K meta = Ok nm /\ set_list nm = Ok l /\ xs' = setall l xs)).

Lemma with_mismatch_errors meta nm : with_mismatch K meta = Ok nm -> m_errors nm = m_errors meta ++ [mismatch] /\ meta_bool nm = true.
Proof.
  intro H. unfold with_mismatch in H. destruct (items (c_dateparse K) meta) as [l|]; [|discriminate]. cbn [rbind] in H.
  set (a := set_arg Ferrors (PStrs (m_errors meta ++ [mismatch])) (item_args l)) in H.
  assert (Ea : a Ferrors = PStrs (m_errors meta ++ [mismatch])) by reflexivity. clearbody a.
  assert (Te : truthy (PStrs (m_errors meta ++ [mismatch])) = true) by (destruct (m_errors meta); reflexivity).
  assert (Ee : errors_tuple (PStrs (m_errors meta ++ [mismatch])) = Ok (m_errors meta ++ [mismatch])) by (unfold errors_tuple; now rewrite Te).
  split.
  - unfold meta_init, meta_init_x in H. rewrite Ea, Ee in H.
    repeat (match type of H with (if ?b then _ else _) = _ => destruct b; [discriminate|] end).
    match type of H with (do _ <- ?b ; _) = _ => destruct b; [cbn [rbind] in H|discriminate] end.
    apply Ok_inj in H. now subst nm.
  - apply (proj2 (init_bool a [] nm H)). left. exists Ferrors. rewrite Ea. split; [discriminate|]. now intros _.
Qed.

Definition rest_kinds (meta : pathmeta) (xs : Fs.xattrs) (v : option thing) : Prop :=
  exists d k l, v = Some (AFile d (setall (firstn k l) xs)) /\ (l = [] \/ exists nm, with_mismatch K meta = Ok nm /\ set_list nm = Ok l).
Lemma rest_plain meta xs d : rest_kinds meta xs (Some (AFile d xs)).
Proof. exists d, 0%nat, []. split; [reflexivity|now left]. Qed.
Hint Resolve rest_plain : core.

Lemma t_rest meta d xs : (forall v, rest_kinds meta xs v -> J v) ->
  tri I (St F (Some (AFile d xs))) (fetch_rest meta)
    (fun r s => match r with
       | Ok _ => r_break (c_remote K) = None /\ exists xs', rest_ok meta xs xs' /\ St F (Some (AFile data xs')) s
       | Err _ => exists v, rest_kinds meta xs v /\ St F v s end).
Proof.
  intro HJ. unfold fetch_rest.
  assert (E0 : forall d s, St F (Some (AFile d xs)) s -> exists v, rest_kinds meta xs v /\ St F v s) by eauto.
  eapply tri_bindk; [apply tri_quietk; auto with quiet| |eauto]. intros b0. cbv beta iota; apply tri_known; intros _.
  eapply tri_bind; [apply t_set_data_file; intro d'; apply HJ; auto| |].
  2:{ intros e s (d' & H). eauto. }
  intros []. cbv beta iota; apply tri_fact; intros Eb.
  eapply tri_bindk; [apply (t_stat D x Hx); apply St_fine| |eauto]. intros st.
  eapply tri_pre with (P' := fun s => St F (Some (AFile data xs)) s /\ st = File data xs).
  2:{ intros s ((H1 & H2 & H3) & G). split; [now split|]. apply look_file in H3. congruence. }
  apply tri_known. intros ->. destruct (py_eq (PInt (Z.of_nat (length data))) (m_size meta)) eqn:Es; cbn [negb]; [|apply tri_raise; eauto].
  destruct (existsb (str_eqb mismatch) (m_errors meta)) eqn:Em.
  { apply tri_ret. intros s H. split; [assumption|]. exists xs. split; [|assumption]. split; [assumption|]. now left. }
  eapply tri_bindk with (Q := fun cy _ => exists cm, recorded K x (Some (AFile data xs)) = Ok (Some cm) /\ cypher_for cm = Some cy).
  - unfold instance_cypher. eapply tri_bindk; [apply tk_cache_meta| |auto]. intros m. cbv beta iota; apply tri_known; intros Er.
    destruct m as [cm|]; [|apply tri_raise; auto]. unfold cypher_for.
    destruct (m_checksum_cypher cm) eqn:Ec; try (apply tri_raise; now auto).
    + apply tri_ret. intros s H. split; [assumption|]. intros a Ea. injection Ea as <-. exists cm. rewrite Ec. now split.
    + destruct (c_known K s); [|apply tri_raise; now auto].
      apply tri_ret. intros s' H. split; [assumption|]. intros a Ea. injection Ea as <-. exists cm. rewrite Ec. now split.
  - intros cy. cbv beta iota; apply tri_known; intros (cm & Er & Ec).
    eapply tri_bindk with (Q := fun lc _ => lc = PBytes (c_digest K (used_cypher K cy) data)).
    + unfold local_checksum. eapply tri_bindk; [apply tk_is_file| |auto]. intros b. cbv beta iota; apply tri_known; intros ->. cbn [isF].
      eapply tri_bindk; [apply (t_read_all D x Hx); apply St_fine| |auto]. intros d'.
      eapply tri_pre with (P' := fun s => St F (Some (AFile data xs)) s /\ d' = data).
      2:{ intros s ((H1 & H2 & H3) & ys & G). split; [now split|]. congruence. }
      apply tri_known. intros ->. apply tri_ret. intros s H. split; [assumption|]. intros a Ea. now injection Ea as <-.
    + intros lc. cbv beta iota; apply tri_known; intros ->.
      destruct (negb (is_none (m_checksum meta)) && negb (py_eq (PBytes (c_digest K (used_cypher K cy) data)) (m_checksum meta)))%bool eqn:Eq.
      * eapply tri_bindk; [apply tri_liftk| |eauto]. intros nm. cbv beta iota; apply tri_known; intros En.
        pose proof (with_mismatch_errors meta nm En) as [_ Bn].
        eapply tri_post; [apply (t_cache_set_file data xs nm Bn)|].
        -- intros l k El. apply HJ. exists data, k, l. split; [reflexivity|]. right. eauto.
        -- intros [[]|e] s H.
           ++ destruct H as (l & El & H). split; [assumption|]. exists (setall l xs). split; [|assumption]. split; [assumption|]. right. right. eauto.
           ++ destruct H as (l & k & El & H). eexists. split; [|exact H]. exists data, k, l. split; [reflexivity|]. destruct El as [->|El]; [now left|]. right. eauto.
      * apply tri_ret. intros s H. split; [assumption|]. exists xs. split; [|assumption]. split; [assumption|]. right. left.
        split; [reflexivity|]. exists cm, cy. split; [assumption|]. split; [assumption|].
        apply andb_false_iff in Eq. rewrite !negb_false_iff in Eq. destruct Eq as [Eq|Eq]; [|now right]. left. destruct (m_checksum meta); try discriminate; reflexivity.
    + eauto.
  - eauto.
Qed.

(** fetch of a file *)
Definition fetches (meta : pathmeta) (limit : option N) : bool :=
  (negb (is_none (m_file_id meta)) && match limit with None => true | Some l => size_below (m_size meta) l end)%bool.

Variable Rf : res unit -> node -> Prop.     (* after refresh *)
Lemma t_fetch_file d xs limit :
  (forall m v, recorded K x (Some (AFile d xs)) = Ok (Some m) -> rest_kinds m xs v -> J v) ->
  (forall m, recorded K x (Some (AFile d xs)) = Ok (Some m) -> m_file_id m = PNone -> tri I (St F (Some (AFile d xs))) (c_refresh K p) Rf) ->
  tri I (St F (Some (AFile d xs))) (fetch K p limit)
    (fun r s => (Rf r s /\ exists m, recorded K x (Some (AFile d xs)) = Ok (Some m) /\ m_file_id m = PNone) \/
       match r with
       | Ok _ => exists m, recorded K x (Some (AFile d xs)) = Ok (Some m) /\ m_file_id m <> PNone /\
                 (fetches m limit = false /\ St F (Some (AFile d xs)) s \/
                  fetches m limit = true /\ r_break (c_remote K) = None /\ exists xs', rest_ok m xs xs' /\ St F (Some (AFile data xs')) s)
       | Err _ => St F (Some (AFile d xs)) s \/ exists m v, recorded K x (Some (AFile d xs)) = Ok (Some m) /\ rest_kinds m xs v /\ St F v s end).
Proof.
  intros HJ TR. unfold fetch.
  eapply tri_bindk; [apply tk_cache_meta| |auto]. intros m. cbv beta iota; apply tri_known; intros Er.
  eapply tri_bindk; [apply tk_is_dir| |auto]. intros b. cbv beta iota; apply tri_known; intros ->. cbn [isD].
  destruct m as [m|]; [|apply tri_raise; auto].
  destruct (is_none (m_file_id m)) eqn:Ef.
  { assert (En : m_file_id m = PNone) by (destruct (m_file_id m); try discriminate; reflexivity).
    eapply tri_post; [exact (TR m Er En)|]. intros r s H. left. split; [assumption|]. eauto. }
  assert (Nf : m_file_id m <> PNone) by (intro E; rewrite E in Ef; discriminate).
  assert (Fe : fetches m limit = match limit with None => true | Some l => size_below (m_size m) l end) by (unfold fetches; now rewrite Ef).
  rewrite <- Fe. destruct (fetches m limit) eqn:Ee.
  - eapply tri_bindk; [apply tk_broken| |auto]. intros b. cbv beta iota; apply tri_known; intros ->. cbn [isL when].
    eapply tri_bindk with (Q := fun _ _ => True); [apply tri_ret; intros s H; split; [assumption|auto]| |auto]. intros _. cbv beta iota; apply tri_known; intros _.
    eapply tri_post; [apply (t_rest m d xs); intros v; now apply HJ|].
    intros [[]|e] s H; right.
    + exists m. split; [assumption|]. split; [assumption|]. right. now split.
    + destruct H as (v & H1 & H2). right. eauto.
  - apply tri_ret. intros s H. right. exists m. split; [assumption|]. split; [assumption|]. left. now split.
Qed.

(** fetch of a link *)
Definition link_kinds (m : pathmeta) (t : str) (v : option thing) : Prop :=
  v = Some (ALink t) \/ v = None \/
  (exists l k, (l = [] \/ meta_bool m = true /\ set_list m = Ok l) /\ v = Some (AFile [] (setall (firstn k l) []))) \/
  (exists l, (if meta_bool m then set_list m = Ok l else l = []) /\ rest_kinds m (setall l []) v).

Lemma t_fetch_link t limit :
  (forall m v, recorded K x (Some (ALink t)) = Ok (Some m) -> link_kinds m t v -> J v) ->
  (forall m, recorded K x (Some (ALink t)) = Ok (Some m) -> m_file_id m = PNone -> tri I (St F (Some (ALink t))) (c_refresh K p) Rf) ->
  tri I (St F (Some (ALink t))) (fetch K p limit)
    (fun r s => (Rf r s /\ exists m, recorded K x (Some (ALink t)) = Ok (Some m) /\ m_file_id m = PNone) \/
       match r with
       | Ok _ => exists m, recorded K x (Some (ALink t)) = Ok (Some m) /\ m_file_id m <> PNone /\
                 (fetches m limit = false /\ St F (Some (ALink t)) s \/
                  fetches m limit = true /\ r_break (c_remote K) = None /\
                  exists l xs', (if meta_bool m then set_list m = Ok l else l = []) /\ rest_ok m (setall l []) xs' /\ St F (Some (AFile data xs')) s)
       | Err _ => St F (Some (ALink t)) s \/ exists m v, recorded K x (Some (ALink t)) = Ok (Some m) /\ link_kinds m t v /\ St F v s end).
Proof.
  intros HJ TR. unfold fetch.
  eapply tri_bindk; [apply tk_cache_meta| |auto]. intros m. cbv beta iota; apply tri_known; intros Er.
  eapply tri_bindk; [apply tk_is_dir| |auto]. intros b. cbv beta iota; apply tri_known; intros ->. cbn [isD].
  destruct m as [m|]; [|apply tri_raise; auto]. specialize (fun v => HJ m v Er).
  destruct (is_none (m_file_id m)) eqn:Ef.
  { assert (En : m_file_id m = PNone) by (destruct (m_file_id m); try discriminate; reflexivity).
    eapply tri_post; [exact (TR m Er En)|]. intros r s H. left. split; [assumption|]. eauto. }
  assert (Nf : m_file_id m <> PNone) by (intro E; rewrite E in Ef; discriminate).
  assert (Fe : fetches m limit = match limit with None => true | Some l => size_below (m_size m) l end) by (unfold fetches; now rewrite Ef).
  rewrite <- Fe. destruct (fetches m limit) eqn:Ee.
  - eapply tri_bindk; [apply tk_broken| |auto]. intros b. cbv beta iota; apply tri_known; intros ->. cbn [isL when].
    eapply tri_bind with (R := fun r s => match r with
       | Ok _ => exists l, (if meta_bool m then set_list m = Ok l else l = []) /\ St F (Some (AFile [] (setall l []))) s
       | Err _ => exists v, link_kinds m t v /\ St F v s end).
    + eapply tri_bind; [apply t_unlink; [exact Hx|]| |].
      * intros s H. apply (HI _ _ H), HJ. right. now left.
      * intros []. cbv beta iota. eapply tri_bind; [apply t_touch; [exact Hx|]| |].
        -- intros s H. apply (HI _ _ H), HJ. right. right. left. exists [], 0%nat. split; [now left|reflexivity].
        -- intros []. cbv beta iota. destruct (meta_bool m) eqn:Bm.
           ++ eapply tri_post; [apply (t_cache_set_file [] [] m Bm)|].
              ** intros l k El. apply HJ. right. right. left. exists l, k. split; [now right|reflexivity].
              ** intros [[]|e] s H; [exact H|]. destruct H as (l & k & El & H). eexists. split; [|exact H].
                 right. right. left. exists l, k. split; [|reflexivity]. destruct El; [now left|now right].
           ++ unfold cache_set. rewrite Bm. apply tri_ret. intros s H. exists []. split; [reflexivity|exact H].
        -- intros e s H. exists None. split; [|exact H]. right. now left.
      * intros e s H. exists (Some (ALink t)). split; [now left|exact H].
    + intros []. cbv beta iota. apply tri_ex. intro l. cbv beta. apply tri_fact. intro El.
      eapply tri_post; [apply (t_rest m [] (setall l []))|].
      * intros v Hv. apply HJ. right. right. right. eauto.
      * intros [[]|e] s H; right.
        -- destruct H as (Eb & xs' & H1 & H2). exists m. split; [assumption|]. split; [assumption|]. right. split; [assumption|]. split; [assumption|]. eauto.
        -- destruct H as (v & H1 & H2). right. exists m, v. split; [assumption|]. split; [|assumption]. right. right. right. eauto.
    + intros e s (v & H1 & H2). right. right. eauto.
  - apply tri_ret. intros s H. right. exists m. split; [assumption|]. split; [assumption|]. left. now split.
Qed.

(** fetch where there is nothing, or a directory *)
Lemma t_fetch_none limit : tri I (St F None) (fetch K p limit) (fun r s => St F None s /\ r <> Ok tt).
Proof.
  unfold fetch. eapply tri_bindk; [apply tk_cache_meta| |split; [assumption|discriminate]]. intros m. cbv beta iota; apply tri_known; intros Er.
  eapply tri_bindk; [apply tk_is_dir| |split; [assumption|discriminate]]. intros b. cbv beta iota; apply tri_known; intros ->. cbn [isD].
  cbn [recorded] in Er. injection Er as <-. apply tri_raise. split; [assumption|discriminate].
Qed.
Lemma t_fetch_dir ys limit : tri I (St F (Some (ADir ys))) (fetch K p limit) (fun r s => St F (Some (ADir ys)) s /\ r <> Ok tt).
Proof.
  unfold fetch. eapply tri_bindk; [apply tk_cache_meta| |split; [assumption|discriminate]]. intros m. cbv beta iota; apply tri_known; intros Er.
  eapply tri_bindk; [apply tk_is_dir| |split; [assumption|discriminate]]. intros b. cbv beta iota; apply tri_known; intros ->. cbn [isD].
  apply tri_raise. split; [assumption|discriminate].
Qed.
End Ops.
