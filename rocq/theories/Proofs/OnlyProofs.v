(** * Writing metadata where there is a directory, or nothing: what is in the directory stays *)
From Coq Require Import String NArith ZArith Bool List Lia.
From Verif Require Import Model.Py Model.PurePath Model.Meta Model.MetaXattr Model.MetaUpdate Model.Access Model.MetaSymlink Model.Fs Model.PathOps Model.Sparse Model.Cache
  Spec.FsSpec Spec.LoopSpec Spec.CopySpec Spec.CacheSpec
  Proofs.PyLemmas Proofs.PathLemmas Proofs.FsLemmas Proofs.RunLemmas Proofs.MoveLemmas Proofs.Hoare Proofs.SlotLemmas Proofs.CacheLemmas Proofs.CacheOps.
Import ListNotations.

Section Only.
Variables (K : conf) (D : place) (x : str).
Hypothesis Hx : good_name x.
Notation P := (D ++ [x]).
Notation p := (path_of (D ++ [x])).
Notation St := (St D x).
Variable F : node.

Definition only (s : node) : Prop := forall q, q <> P -> look s q = look F q.
Definition St2 (v : option thing) (s : node) : Prop := St F v s /\ only s.
Definition I2 (s : node) : Prop := exists v, St2 v s.

Lemma lift2 {A} (m : M A) v (Q : A -> node -> Prop) : quiet m -> tri (fun _ => True) (St F v) m (kp (St F v) Q) -> tri I2 (St2 v) m (kp (St2 v) Q).
Proof.
  intros Qm T w r w' Ho (S & O) H. destruct (T w r w' Ho S H) as [[S' E] _]. apply Qm in H. split; [|now apply runs_same].
  split; [|exact E]. split; [exact S'|]. destruct H as (-> & _). exact O.
Qed.
Lemma put_dir_only s xs ys es q : get s P = Some (Dir xs es) -> q <> P -> look (put s P (Dir ys es)) q = look s q.
Proof.
  intros G N. destruct (below_dec P q) as [(r & ->)|B]; [|now apply look_put_other].
  destruct r as [|y r]; [rewrite app_nil_r in N; congruence|]. rewrite (look_app _ _ _ _ G). unfold look.
  rewrite get_put_below; [reflexivity|]. apply get_above in G as (zs & fs & G). destruct P eqn:E; [exact Logic.I|]. rewrite <- E in *. rewrite removelast_last. eauto.
Qed.

Lemma t2_setxattr_dir xs k v : tri I2 (St2 (Some (ADir xs))) (p_setxattr p k v)
  (fun r s => match r with Ok _ => St2 (Some (ADir (xset (xkey k) v xs))) s | Err _ => St2 (Some (ADir xs)) s end).
Proof.
  apply tri_sys; [intros; assumption|]. intros s cwd a s' ((Hf & Ho & L) & On) E. unfold lookup in E.
  rewrite (walk_true D x Hx s cwd Hf) in E. apply look_dir in L as (es & L). rewrite L in E. cbn [rbind fst snd node_xattrs with_xattrs] in E.
  apply Ok_inj in E. injection E as <- <-.
  assert (Q : St2 (Some (ADir (xset (xkey k) v xs))) (put s P (Dir (xset (xkey k) v xs) es))).
  { split.
    - apply (fine_put D x Hx F s (Dir (xset (xkey k) v xs) es)); try assumption.
      + destruct Hf as ((G & _) & _). pose proof (good_get _ _ _ G L) as Gd. inversion Gd; subst. now constructor.
      + intros t' E. congruence.
    - intros q Nq. rewrite (put_dir_only s xs) by assumption. now apply On. }
  split; [exact Q|]. exists (Some (ADir (xset (xkey k) v xs))). exact Q.
Qed.
Lemma t2_setxattrs_dir : forall l xs, tri I2 (St2 (Some (ADir xs))) (p_setxattrs p l) (fun r s => exists ys, St2 (Some (ADir ys)) s).
Proof.
  induction l as [|[k v] l IH]; intros xs; unfold p_setxattrs; cbn [each].
  - apply tri_ret. eauto.
  - eapply tri_bind; [apply t2_setxattr_dir| |intros e s H; exists xs; exact H]. intros []. apply IH.
Qed.
Lemma t2_eat_set_dir xs m : tri I2 (St2 (Some (ADir xs))) (eat_set K p m) (fun r s => exists ys, St2 (Some (ADir ys)) s).
Proof.
  unfold eat_set.
  eapply tri_bindk; [apply lift2; [auto with quiet|apply (tk_exists D x Hx)]| |intros e s H; exists xs; exact H]. intros b. cbv beta iota; apply tri_known; intros ->. cbn [isE].
  eapply tri_bindk; [apply lift2; [auto with quiet|apply (tk_is_symlink D x Hx)]| |intros e s H; exists xs; exact H]. intros b. cbv beta iota; apply tri_known; intros ->. cbn [isL].
  eapply tri_bindk; [apply tri_liftk| |intros e s H; exists xs; exact H]. intros l. cbv beta iota; apply tri_known; intros _. apply t2_setxattrs_dir.
Qed.
Lemma quiet_ens q : quiet (p_exists_not_symlink q).
Proof. unfold p_exists_not_symlink. quiet_tac. Qed.
Lemma t2_cache_set_dir xs m : tri I2 (St2 (Some (ADir xs))) (cache_set K p m) (fun r s => exists ys, St2 (Some (ADir ys)) s).
Proof.
  unfold cache_set. destruct m as [m|]; [|apply tri_ret; eauto]. destruct (meta_bool m); [|apply tri_ret; eauto].
  eapply tri_bindk; [apply lift2; [apply quiet_ens|apply (tk_ens D x Hx)]| |intros e s H; exists xs; exact H]. intros b. cbv beta iota; apply tri_known; intros ->. cbn [isE].
  apply t2_eat_set_dir.
Qed.

(** A new directory *)
Lemma t2_mkdir : tri I2 (St2 None) (sys_mkdir p) (fun r s => match r with Ok _ => St2 (Some (ADir [])) s | Err _ => St2 None s end).
Proof.
  apply tri_sys; [intros; assumption|]. intros s cwd a s' ((Hf & Ho & L) & On) E.
  rewrite (walk_false D x Hx s cwd Hf) in E. pose proof (proj1 (look_none _ _) L) as L0. rewrite L0 in E. apply Ok_inj in E. injection E as <- <-.
  assert (Q : St2 (Some (ADir [])) (put s P (Dir [] []))).
  { split.
    - apply (fine_put D x Hx F s (Dir [] [])); try assumption; [constructor; [constructor|now intros|now intros]|]. intros t' E. congruence.
    - intros q Nq. rewrite <- (On q Nq). destruct (below_dec P q) as [(r & ->)|B]; [|now apply look_put_other].
      destruct r as [|y r]; [rewrite app_nil_r in Nq; congruence|]. transitivity (@None thing).
      + unfold look. rewrite get_put_below; [reflexivity|]. destruct Hf as (_ & (zs & Ld) & _). apply look_dir in Ld as (fs & Ld).
        destruct P eqn:E; [exact Logic.I|]. rewrite <- E. rewrite removelast_last. eauto.
      + symmetry. unfold look. now rewrite get_app, L0. }
  split; [exact Q|]. exists (Some (ADir [])). exact Q.
Qed.
Lemma t2_prepare : r_is_dir (c_remote K) = true ->
  tri I2 (St2 None) (prepare K p) (fun r s => match r with Ok _ => St2 (Some (ADir [])) s | Err _ => St2 None s end).
Proof.
  intro Ed. unfold prepare.
  eapply tri_bindk with (Q := fun d _ => d = r_is_dir (c_remote K)); [| |intros e s H; exact H].
  { apply tri_askk. intros s cwd a _ H. apply Ok_inj in H. now subst. }
  intro b. cbv beta iota; apply tri_known; intros ->. rewrite Ed.
  eapply tri_bindk; [apply lift2; [auto with quiet|apply (tk_exists D x Hx)]| |intros e s H; exact H]. intros b. cbv beta iota; apply tri_known; intros ->. cbn [isE negb when].
  apply t2_mkdir.
Qed.
Lemma t2_cache_set_new m : r_is_dir (c_remote K) = true -> meta_bool m = true ->
  tri I2 (St2 None) (cache_set K p (Some m)) (fun r s => exists v, St2 v s /\ (v = None \/ exists xs, v = Some (ADir xs)) /\ (r = Ok tt -> exists xs, v = Some (ADir xs))).
Proof.
  intros Ed Hm. unfold cache_set. rewrite Hm.
  assert (E0 : forall (e : exn) s, St2 None s -> exists v, St2 v s /\ (v = None \/ exists xs, v = Some (ADir xs)) /\ (@Err unit e = Ok tt -> exists xs, v = Some (ADir xs)))
    by (intros e s H; exists None; split; [exact H|split; [now left|discriminate]]).
  eapply tri_bindk; [apply lift2; [apply quiet_ens|apply (tk_ens D x Hx)]| |intros e s H; auto]. intros b. cbv beta iota; apply tri_known; intros ->. cbn [isE].
  eapply tri_bind; [apply (t2_prepare Ed)| |intros e s H; auto]. intros [].
  eapply tri_bindk; [apply lift2; [auto with quiet|apply (tk_exists D x Hx)]| |].
  - intros b. cbv beta iota; apply tri_known; intros ->. cbn [isE].
    eapply tri_post; [apply t2_eat_set_dir|]. intros r s (ys & H). exists (Some (ADir ys)). split; [exact H|]. split; eauto.
  - intros e s H. exists (Some (ADir [])). split; [exact H|]. split; [eauto|discriminate].
Qed.
End Only.
