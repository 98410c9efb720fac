(** * What the methods of caches do to one place *)
From Coq Require Import String NArith ZArith Bool List Lia.
From Verif Require Import Model.Py Model.PurePath Model.Meta Model.MetaEncode Model.MetaXattr Model.MetaSymlink Model.MetaUpdate Model.Access
  Model.Fs Model.PathOps Model.Sparse Model.Copy Model.Cache
  Spec.FsSpec Spec.LoopSpec Spec.CopySpec Spec.CacheSpec
  Proofs.PyLemmas Proofs.PathLemmas Proofs.FsLemmas Proofs.RunLemmas Proofs.RmtreeProofs Proofs.RmdirtreeProofs Proofs.SparseProofs
  Proofs.MoveLemmas Proofs.LoopProofs Proofs.CopyProofs Proofs.MetaSymlinkProofs Proofs.Hoare Proofs.SlotLemmas.
Import ListNotations.

(** ** Links of metadata are relative *)
Lemma as_symlink_rel dp m x q : m_id m <> PStr [] -> good_name x -> as_symlink dp m (Some x) = Ok q -> starts_with_name x (pp_str q).
Proof.
  intros Hi Hx H. apply (cache_link dp m x q Hx H). unfold as_symlink in H.
  destruct (symlink_text dp m) as [t|] eqn:Et; [|discriminate]. cbn [rbind] in H. apply Ok_inj in H. subst q.
  unfold symlink_text in Et. destruct (encode (EF Fid) (m_id m)) as [i|] eqn:Ei; [|discriminate].
  cbn [rbind] in Et. match type of Et with (do fs <- ?e ; _) = _ => destruct e as [fs|]; [|discriminate] end.
  cbn [rbind] in Et. apply Ok_inj in Et.
  assert (Ci : ~ In 47%N i). { apply encode_clean in Ei; [|discriminate]. unfold clean in Ei. tauto. }
  assert (Ni : i <> []).
  { destruct (m_id m) as [| | |s| | | |]; try discriminate.
    - apply Ok_inj in Ei. subst i. discriminate.
    - rewrite encode_str_case in Ei by discriminate. apply enc_str_length in Ei. intros ->. destruct s; [now elim Hi|discriminate]. }
  destruct i as [|c i]; [congruence|].
  assert (S : startswith t $"/" = false).
  { subst t. rewrite startswith_slash. cbn [app]. apply N.eqb_neq. intros <-. apply Ci. now left. }
  unfold pp_join, pp_parse at 1. cbn [pp_abs]. rewrite S. cbn [pp_abs]. unfold pp_parse. cbn [pp_abs].
  destruct Hx as (X1 & X2 & X3 & X4). rewrite startswith_slash. destruct x as [|d x]; [reflexivity|]. apply N.eqb_neq. intros <-. apply X4. now left.
Qed.

(** ** The id of merged metadata *)
Lemma merge_loop_id l : forall kw d d' kw', kw Fid <> PStr [] -> merge_loop l kw d = Ok (d', kw') -> kw' Fid <> PStr [].
Proof.
  induction l as [|[k v] l IH]; intros kw d d' kw' Hk H; cbn [merge_loop] in H.
  - apply Ok_inj in H. injection H as <- <-. assumption.
  - destruct (skipped v) eqn:Es; [now apply (IH _ _ _ _ Hk) in H|].
    assert (K : set_arg k v kw Fid <> PStr []).
    { unfold set_arg. destruct (field_eqb k Fid); [|assumption]. intros ->. discriminate. }
    destruct (negb (is_none (kw k)) && negb (py_eq (kw k) v))%bool.
    + destruct (hexable k (kw k) v); [|discriminate]. now apply (IH _ _ _ _ K) in H.
    + now apply (IH _ _ _ _ K) in H.
Qed.
Lemma strip_loop_id l : forall kw, kw Fid <> PStr [] -> strip_loop l kw Fid <> PStr [].
Proof.
  induction l as [|[k v] l IH]; intros kw Hk; [assumption|]. cbn [strip_loop].
  assert (K : forall f, set_arg f PNone kw Fid <> PStr []). { intro f. unfold set_arg. destruct (field_eqb f Fid); [discriminate|assumption]. }
  destruct k; try (destruct (is_none v); apply IH; [apply K|assumption]). now apply IH.
Qed.
Lemma init_id a m : meta_init a = Ok m -> m_id m = a Fid.
Proof.
  intro H. unfold meta_init, meta_init_x in H.
  repeat (match type of H with (if ?b then _ else _) = _ => destruct b; [discriminate|] end).
  repeat (match type of H with (do _ <- ?b ; _) = _ => destruct b; [cbn [rbind] in H|discriminate] end).
  apply Ok_inj in H. now subst m.
Qed.
Lemma merge_id dp o n d u : m_id o <> PStr [] -> merge dp o n = Ok (d, u) -> m_id u <> PStr [].
Proof.
  intros Ho H. unfold merge in H. destruct (items dp o) as [oi|] eqn:Eo; [|discriminate]. cbn [rbind] in H.
  destruct (items dp n) as [ni|] eqn:En; [|discriminate]. cbn [rbind] in H.
  match type of H with (do dk <- merge_loop _ ?kw _ ; _) = _ => set (kw0 := kw) in *; destruct (merge_loop ni kw0 false) as [[d' kw']|] eqn:Em; [|discriminate] end.
  cbn [rbind fst snd] in H. destruct (meta_init (if d' then strip_loop ni kw' else kw')) as [m|] eqn:Ei; [|discriminate].
  cbn [rbind] in H. apply Ok_inj in H. injection H as <- <-. rewrite (init_id _ _ Ei).
  assert (K0 : kw0 Fid <> PStr []).
  { assert (E : item_args oi Fid = m_id o).
    { unfold items, item_fields in Eo. cbn [rmap getf rbind] in Eo.
      destruct (get_created dp o); [|discriminate]. cbn [rbind] in Eo. destruct (get_updated dp o); [|discriminate].
      cbn [rbind] in Eo. apply Ok_inj in Eo. now subst oi. }
    unfold kw0. destruct (py_eq (m_id o) (m_id n)); [now rewrite E|]. unfold set_arg. cbn [field_eqb]. now rewrite E. }
  apply (merge_loop_id ni kw0 false d' kw' K0) in Em. destruct d'; [now apply strip_loop_id|assumption].
Qed.

(** ** Reading *)
Definition kp {A} (R : node -> Prop) (Q : A -> node -> Prop) : res A -> node -> Prop :=
  fun r s => R s /\ forall a, r = Ok a -> Q a s.

Lemma tri_bindk I {A B} (R : node -> Prop) (Q : A -> node -> Prop) (m : M A) (f : A -> M B) (Q' : res B -> node -> Prop) :
  tri I R m (kp R Q) -> (forall a, tri I (fun s => R s /\ Q a s) (f a) Q') -> (forall e s, R s -> Q' (Err e) s) -> tri I R (bind m f) Q'.
Proof.
  intros T1 T2 He. eapply tri_bind; [exact T1| |].
  - intro a. eapply tri_pre; [apply T2|]. intros s (K1 & K2). split; [assumption|now apply K2].
  - intros e s (K1 & _). now apply He.
Qed.
Lemma tri_askk I {A} (R : node -> Prop) (g : node -> place -> res A) (Q : A -> node -> Prop) :
  (forall s cwd a, R s -> g s cwd = Ok a -> Q a s) -> tri I R (ask g) (kp R Q).
Proof.
  intros Hg w r w' _ Hr H. apply ask_inv in H as [S H]. split; [|now apply runs_same]. destruct S as (-> & _).
  split; [assumption|]. intros a ->. destruct H as [H|(e & H & _)]; [|discriminate]. symmetry in H. now apply Hg in H.
Qed.
Lemma tri_quietk I {A} (R : node -> Prop) (m : M A) : quiet m -> tri I R m (kp R (fun _ _ => True)).
Proof. intro Q. eapply tri_post; [apply tri_quiet, Q|]. intros r s K. split; [assumption|auto]. Qed.
Lemma tri_liftk I {A} (R : node -> Prop) (v : res A) : tri I R (lift v) (kp R (fun a _ => v = Ok a)).
Proof. apply tri_lift. intros s K. split; [assumption|]. intros a E. exact E. Qed.
Lemma kp_err {A} (R : node -> Prop) (Q : A -> node -> Prop) e s : R s -> kp R Q (Err e) s.
Proof. intro K. split; [assumption|discriminate]. Qed.
#[export] Hint Resolve kp_err : core.

Lemma quiet_gather l e : quiet (gather (remote_feed l e)).
Proof.
  induction l as [|c l IH]; intros w r w' H; cbn [remote_feed gather] in H;
  match type of H with match ?f w with _ => _ end = _ => destruct (f w) as [r1 w1] eqn:E end; apply ask_inv in E as [S E].
  - destruct r1 as [[[]|]|].
    + destruct E as [E|(e' & E & _)]; [|discriminate]. destruct e; discriminate.
    + injection H as <- <-. assumption.
    + injection H as <- <-. assumption.
  - assert (r1 = Ok (Some (c, remote_feed l e)) \/ exists e', r1 = Err e') as [->|(e' & ->)].
    { destruct E as [->|(e' & -> & _)]; [now left|right; eauto]. }
    + destruct (gather (remote_feed l e) w1) as [[d|e2] w2] eqn:E2; apply IH in E2; injection H as <- <-; now apply (same_trans _ w1).
    + injection H as <- <-. assumption.
Qed.

Section Reading.
Variable K : conf.
Lemma quiet_xattrs p : quiet (p_xattrs p). Proof. apply quiet_ask. Qed.
#[local] Hint Resolve quiet_xattrs quiet_gather : quiet.
Lemma quiet_cache_meta p : quiet (cache_meta K p).
Proof. unfold cache_meta, eat_meta, symlink_meta. quiet_tac. Qed.
#[local] Hint Resolve quiet_cache_meta : quiet.
Lemma quiet_cache_id p : quiet (cache_id K p).
Proof. unfold cache_id. quiet_tac. Qed.
#[local] Hint Resolve quiet_cache_id : quiet.
Lemma quiet_trashed_path p : quiet (trashed_path K p).
Proof. unfold trashed_path. quiet_tac. Qed.
Lemma quiet_instance_cypher p : quiet (instance_cypher K p).
Proof. unfold instance_cypher. quiet_tac. Qed.
Lemma quiet_read_all p : quiet (read_all p). Proof. apply quiet_ask. Qed.
#[local] Hint Resolve quiet_read_all : quiet.
Lemma quiet_local_checksum p cy : quiet (local_checksum K p cy).
Proof. unfold local_checksum. quiet_tac. Qed.
#[local] Hint Resolve quiet_local_checksum : quiet.
Lemma quiet_local_meta_checksum p : quiet (local_meta_checksum K p).
Proof. unfold local_meta_checksum. quiet_tac. Qed.
Lemma quiet_cache_checksum p : quiet (cache_checksum K p).
Proof. unfold cache_checksum. quiet_tac. Qed.
#[local] Hint Resolve quiet_local_meta_checksum quiet_cache_checksum : quiet.
Lemma quiet_content_different p : quiet (p_content_different K p).
Proof. unfold p_content_different. quiet_tac. Qed.
End Reading.
#[export] Hint Resolve quiet_xattrs quiet_gather quiet_cache_meta quiet_cache_id quiet_trashed_path quiet_instance_cypher quiet_read_all
  quiet_local_checksum quiet_local_meta_checksum quiet_cache_checksum quiet_content_different : quiet.

Lemma pp_name_of D x : pp_name (path_of (D ++ [x])) = x.
Proof. unfold pp_name, path_of. cbn [pp_parts]. apply last_last. Qed.
Lemma pp_parent_of D x : pp_parent (path_of (D ++ [x])) = path_of D.
Proof. unfold pp_parent, path_of. cbn [pp_parts pp_abs]. now rewrite removelast_last. Qed.

(** the attributes after setting a list of them *)
Definition setall (l : MetaXattr.xattrs) (xs : Fs.xattrs) : Fs.xattrs :=
  fold_left (fun xs kv => xset (xkey (key_text (fst kv))) (snd kv) xs) l xs.

Lemma t_exists_dir I (R : node -> Prop) Q : (forall s, R s -> good_fs s /\ is_dir_at s Q) -> tri I R (p_exists (path_of Q)) (kp R (fun b _ => b = true)).
Proof.
  intros RF w r w' Ho Hr H. apply test_honest in H as [S H]; [|assumption]. split; [|now apply runs_same].
  destruct S as (-> & _). split; [assumption|]. intros b ->. destruct b; [reflexivity|].
  destruct (RF _ Hr) as (G & ys & L). apply look_dir in L as (es & L).
  symmetry. now apply (H Q (Dir ys es)), walk_of.
Qed.

Section Ops.
Variables (K : conf) (D : place) (x : str).
Hypothesis Hx : good_name x.
Notation P := (D ++ [x]).
Notation p := (path_of (D ++ [x])).
Notation fine := (fine D x).
Notation St := (St D x).

Section AnyState.
Variables (I R : node -> Prop).
Hypothesis RF : forall s, R s -> fine s.

Lemma t_xattrs : tri I R (p_xattrs p) (kp R (fun v s => match look s P with Some (AFile _ xs) | Some (ADir xs) => v = user_attrs xs | _ => False end)).
Proof.
  apply tri_askk. intros s cwd a Hr H. unfold lookup in H. rewrite (walk_true D x Hx s cwd (RF _ Hr)) in H. rewrite look_get.
  destruct (get s P) as [[d xs|xs es|t]|]; try discriminate; cbn [rbind snd node_xattrs] in H; now apply Ok_inj in H.
Qed.
Lemma t_readlink : tri I R (sys_readlink p) (kp R (fun v s => look s P = Some (ALink v))).
Proof.
  apply tri_askk. intros s cwd a Hr H. unfold lookup in H. rewrite (walk_false D x Hx s cwd (RF _ Hr)) in H. rewrite look_get.
  destruct (get s P) as [[d xs|xs es|t]|]; try discriminate; cbn [rbind snd] in H; apply Ok_inj in H; now subst.
Qed.
Lemma t_read_all : tri I R (read_all p) (kp R (fun v s => exists xs, look s P = Some (AFile v xs))).
Proof.
  apply tri_askk. intros s cwd a Hr H. unfold lookup in H. rewrite (walk_true D x Hx s cwd (RF _ Hr)) in H. rewrite look_get.
  destruct (get s P) as [[d xs|xs es|t]|]; try discriminate; cbn [rbind snd] in H; apply Ok_inj in H; subst; eauto.
Qed.
Lemma t_stat : tri I R (sys_stat true p) (kp R (fun n s => get s P = Some n)).
Proof.
  apply tri_askk. intros s cwd a Hr H. unfold lookup in H. rewrite (walk_true D x Hx s cwd (RF _ Hr)) in H.
  destruct (get s P) as [[d xs|xs es|t]|]; try discriminate; cbn [rbind snd] in H; apply Ok_inj in H; now subst.
Qed.
End AnyState.

Ltac rf RF := let s := fresh "s" in let H := fresh "H" in intros s H; apply RF; tauto.

Section Meta.
Variables (I R : node -> Prop).
Hypothesis RF : forall s, R s -> fine s.

Lemma t_eat_meta : tri I R (eat_meta K p) (kp R (fun v s => match look s P with
  | Some (AFile _ xs) | Some (ADir xs) => exists m, v = Some m /\ from_xattrs (c_legacy K) (user_attrs xs) (c_prefix K) = Ok m
  | _ => v = None end)).
Proof.
  unfold eat_meta. eapply tri_bindk; [apply t_exists; assumption| |auto]. intros [].
  - eapply tri_bindk; [apply t_xattrs; rf RF| |intros e s (H & _); auto]. intro xs.
    eapply tri_bindk; [apply tri_liftk| |intros e s ((H & _) & _); auto]. intro m.
    apply tri_ret. intros s (((Hr & E) & X) & Fm). split; [assumption|]. intros a Ea. injection Ea as <-.
    destruct (look s P) as [[]|]; try contradiction; subst xs; eauto.
  - apply tri_ret. intros s (Hr & E). split; [assumption|]. intros a Ea. injection Ea as <-.
    destruct (look s P) as [[]|]; try discriminate; reflexivity.
Qed.
Lemma t_symlink_meta : tri I R (symlink_meta p) (fun r s => R s /\ match look s P with
  | Some (ALink t) => (forall m, r = Ok m -> from_symlink x t false false = Ok m) /\ (r = Err NoCachedMetadataError -> from_symlink x t false false = Err NoCachedMetadataError)
  | _ => forall m, r <> Ok m end).
Proof.
  unfold symlink_meta. rewrite pp_name_of.
  assert (W : forall (m : M pathmeta), tri I R m (fun r s => R s /\ match look s P with
     | Some (ALink t) => (forall m, r = Ok m -> from_symlink x t false false = Ok m) /\ (r = Err NoCachedMetadataError -> from_symlink x t false false = Err NoCachedMetadataError)
     | _ => forall m, r <> Ok m end) -> tri I R m (fun r s => R s /\ match look s P with
     | Some (ALink t) => (forall m, r = Ok m -> from_symlink x t false false = Ok m) /\ (r = Err NoCachedMetadataError -> from_symlink x t false false = Err NoCachedMetadataError)
     | _ => forall m, r <> Ok m end)) by auto.
  clear W.
  intros w r w' Ho Hr H. apply bind_inv in H as [(b & w1 & H1 & H)|(e & H1 & ->)].
  - destruct (t_is_symlink D x Hx I R RF w _ w1 Ho Hr H1) as ((Hr1 & K1) & R1). specialize (K1 b eq_refl).
    pose proof R1 as (F1 & _). rewrite <- F1 in Ho. destruct b.
    + apply bind_inv in H as [(b & w2 & H2 & H)|(e & H2 & ->)].
      * destruct (t_exists D x Hx I R RF w1 _ w2 Ho Hr1 H2) as ((Hr2 & K2) & R2). specialize (K2 b eq_refl).
        pose proof (quiet_exists _ _ _ _ H2) as S2. pose proof S2 as (E2 & _).
        rewrite E2 in K2. destruct b; [destruct (look (w_fs w1) P) as [[]|]; discriminate|].
        pose proof R2 as (F2 & _). rewrite <- F2 in Ho. apply bind_inv in H as [(raw & w3 & H3 & H)|(e & H3 & ->)].
        -- destruct (t_readlink I R RF w2 _ w3 Ho Hr2 H3) as ((Hr3 & K3) & R3). specialize (K3 raw eq_refl).
           injection H as <- <-. split; [|now apply (runs_trans _ _ w1); [|apply (runs_trans _ _ w2)]].
           split; [assumption|]. rewrite K3. split; auto.
        -- destruct (t_readlink I R RF w2 _ w' Ho Hr2 H3) as ((Hr3 & K3) & R3).
           split; [|now apply (runs_trans _ _ w1); [|apply (runs_trans _ _ w2)]]. split; [assumption|].
           assert (e <> NoCachedMetadataError).
           { unfold sys_readlink in H3. apply ask_inv in H3 as [_ [H3|(e' & H3 & Hf)]].
             - unfold lookup in H3. rewrite (walk_false D x Hx _ _ (RF _ Hr2)) in H3. destruct (get (w_fs w2) P) as [[| |]|]; unfold fail in H3; cbn [rbind snd] in H3; congruence.
             - injection H3 as <-. intros ->. destruct (Ho _ _ Hf) as [?|(n & ? & _)]; discriminate. }
           destruct (look (w_fs w') P) as [[]|]; try congruence. split; congruence.
      * destruct (t_exists D x Hx I R RF w1 _ w' Ho Hr1 H2) as ((Hr2 & K2) & R2).
        split; [|now apply (runs_trans _ _ w1)]. split; [assumption|].
        assert (e <> NoCachedMetadataError).
        { apply test_honest in H2 as [_ H2]; [|assumption]. intros ->. destruct H2 as [?|(n & ?)]; discriminate. }
        destruct (look (w_fs w') P) as [[]|]; try congruence. split; congruence.
    + injection H as <- <-. split; [|assumption]. split; [assumption|].
      destruct (look (w_fs w1) P) as [[]|]; try discriminate.
  - destruct (t_is_symlink D x Hx I R RF w _ w' Ho Hr H1) as ((Hr1 & K1) & R1). split; [|assumption]. split; [assumption|].
    assert (e <> NoCachedMetadataError).
    { apply test_honest in H1 as [_ H1]; [|assumption]. intros ->. destruct H1 as [?|(n & ?)]; discriminate. }
    destruct (look (w_fs w') P) as [[]|]; try congruence. split; congruence.
Qed.
Lemma t_cache_meta : tri I R (cache_meta K p) (kp R (fun v s => recorded K x (look s P) = Ok v)).
Proof.
  unfold cache_meta. eapply tri_bindk; [apply t_exists; assumption| |auto]. intros [].
  - eapply tri_bind with (R := kp R (fun m s => match look s P with
      | Some (AFile _ xs) | Some (ADir xs) => exists m', m = Some m' /\ from_xattrs (c_legacy K) (user_attrs xs) (c_prefix K) = Ok m' | _ => False end)).
    + intros w r w' Ho Hp H.
      assert (Qe : quiet (eat_meta K p)) by (unfold eat_meta; quiet_tac). pose proof (Qe _ _ _ H) as (Efs & _).
      destruct (t_eat_meta w r w' Ho (proj1 Hp) H) as [[Hr Hm] K2]. split; [|exact K2]. split; [assumption|].
      destruct Hp as (_ & E). rewrite <- Efs in E. intros m Em. specialize (Hm m Em). destruct (look (w_fs w') P) as [[]|]; try discriminate; exact Hm.
    + intro m. destruct (meta_true m) eqn:Em; apply tri_ret; intros s (Hr & Hm); (split; [assumption|]); intros a Ea; injection Ea as <-;
        specialize (Hm m eq_refl); destruct (look s P) as [[]|]; try contradiction; destruct Hm as (m' & -> & E); cbn [meta_true] in Em;
        cbn [recorded]; rewrite E; cbn [rbind]; now rewrite Em.
    + intros e s (Hr & _). auto.
  - eapply tri_bindk; [apply t_is_symlink; [exact Hx|rf RF]| |intros e s (H & _); auto]. intros [].
    + eapply tri_catch with (R := fun r s => R s /\ exists t, look s P = Some (ALink t) /\
         (forall a, r = Ok a -> exists m, a = Some m /\ from_symlink x t false false = Ok m) /\ (r = Err NoCachedMetadataError -> from_symlink x t false false = Err NoCachedMetadataError)).
      * intros w r w' Ho Hp H. apply bind_inv in H as [(m & w1 & H1 & H)|(e & H1 & ->)];
          (assert (Qs : quiet (symlink_meta p)) by (unfold symlink_meta; quiet_tac)); pose proof (Qs _ _ _ H1) as (Efs & _);
          destruct (t_symlink_meta w _ _ Ho (proj1 (proj1 Hp)) H1) as [[K1 K2] K3]; destruct Hp as (_ & L); rewrite <- Efs in L.
        -- injection H as <- <-. split; [|assumption]. split; [assumption|]. destruct (look (w_fs w1) P) as [[]|]; try discriminate.
           eexists. split; [reflexivity|]. split; [|discriminate]. intros a Ea. injection Ea as <-. destruct K2 as [K2 _]. eauto.
        -- split; [|assumption]. split; [assumption|]. destruct (look (w_fs w') P) as [[]|]; try discriminate.
           eexists. split; [reflexivity|]. split; [discriminate|]. intro E. destruct K2 as [_ K2]. apply K2. congruence.
      * intro e. destruct e; try (apply tri_raise; intros s (Hr & _); now auto).
        apply tri_ret. intros s (Hr & t & L & _ & E). split; [assumption|]. intros a Ea. injection Ea as <-.
        rewrite L. cbn [recorded]. now rewrite (E eq_refl).
      * intros a s (Hr & t & L & E & _). split; [assumption|]. intros a' Ea. injection Ea as <-. destruct (E a eq_refl) as (m & -> & E').
        rewrite L. cbn [recorded]. now rewrite E'.
    + apply tri_ret. intros s ((Hr & E1) & E2). split; [assumption|]. intros a Ea. injection Ea as <-.
      destruct (look s P) as [[]|]; try discriminate; reflexivity.
Qed.
Definition id_of (m : option pathmeta) : pyval := match m with Some x => if meta_bool x then m_id x else PNone | None => PNone end.
Lemma t_cache_id : tri I R (cache_id K p) (kp R (fun v s => exists m, recorded K x (look s P) = Ok m /\ v = id_of m)).
Proof.
  unfold cache_id. eapply tri_bindk; [apply t_cache_meta| |auto]. intros m.
  assert (G : forall v, v = id_of m -> tri I (fun s => R s /\ recorded K x (look s P) = Ok m) (ret v) (kp R (fun v s => exists m, recorded K x (look s P) = Ok m /\ v = id_of m))).
  { intros v ->. apply tri_ret. intros s (Hr & E). split; [assumption|]. intros a Ea. injection Ea as <-. eauto. }
  destruct m as [m|]; [|now apply G]. destruct (meta_bool m) eqn:Em; apply G; cbn [id_of]; now rewrite Em.
Qed.
Lemma t_trashed_path : tri I R (trashed_path K p) (kp R (fun t s => exists m i, recorded K x (look s P) = Ok (Some m) /\ meta_bool m = true /\
    m_id m = PStr i /\ t = pp_join (c_trash K) (pp_parse (fs_safe_id i)))).
Proof.
  unfold trashed_path. eapply tri_bindk; [apply t_cache_id| |auto]. intros v.
  destruct v as [| | |i| | | |]; try (apply tri_raise; intros s (Hr & _); now auto).
  apply tri_ret. intros s (Hr & m & E & Ei). split; [assumption|]. intros a Ea. injection Ea as <-.
  destruct m as [m|]; [|discriminate]. cbn [id_of] in Ei. destruct (meta_bool m) eqn:Em; [|discriminate]. eauto 6.
Qed.
End Meta.
End Ops.
