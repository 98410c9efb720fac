(** * Updating metadata *)
From Coq Require Import String NArith ZArith Bool List Lia.
From Verif Require Import Model.Py Model.PurePath Model.Meta Model.MetaEncode Model.MetaXattr Model.MetaSymlink Model.MetaUpdate Model.Access
  Model.Fs Model.PathOps Model.Sparse Model.Copy Model.Cache
  Spec.FsSpec Spec.LoopSpec Spec.CopySpec Spec.CacheSpec
  Proofs.PyLemmas Proofs.PathLemmas Proofs.FsLemmas Proofs.RunLemmas Proofs.RmtreeProofs Proofs.RmdirtreeProofs Proofs.SparseProofs
  Proofs.MoveLemmas Proofs.CopyProofs Proofs.Hoare Proofs.SlotLemmas Proofs.CacheLemmas Proofs.CacheOps Proofs.TrashProofs.
Import ListNotations.

Section Update.
Variables (K : conf) (D : place) (x : str) (TR : place).
Hypothesis Hx : good_name x.
Hypothesis Htr : c_trash K = path_of TR.
Notation P := (D ++ [x]).
Notation p := (path_of (D ++ [x])).
Notation fine := (fine D x).
Notation St := (St D x).
Notation rdir := (r_is_dir (c_remote K)).
Hypothesis Hconf : confined P (c_refresh K p).

Definition Inv1 (F s : node) : Prop := good_fs s /\ off D x F s /\ (rdir = false -> ~ is_dir_at s P).
Definition okv (v : option thing) : Prop := rdir = false -> isD v = false.

Lemma St_Inv1 F s v : St F v s -> okv v -> Inv1 F s.
Proof.
  intros ((G & _) & O & L) Ok_. split; [assumption|]. split; [assumption|]. intros R (xs & E). rewrite E in L. subst v. now specialize (Ok_ R).
Qed.

Lemma t_refresh F v : okv v -> tri (Inv1 F) (St F v) (c_refresh K p) (fun _ s => Inv1 F s).
Proof.
  intros Hv w r w' Ho Hs H. destruct (Hconf w r w' (proj1 (proj1 Hs)) H) as (E1 & E2 & l & E3 & E4).
  assert (A : forall s, In s (w_fs w' :: l) -> Inv1 F s).
  { intros s Is. apply E4 in Is as (G & O & Dd). split; [assumption|]. split.
    - intros q Nq. rewrite O by assumption. now apply Hs.
    - intros R Hd. apply Dd in Hd as (xs & Hd). destruct Hs as (_ & _ & L). rewrite Hd in L. subst v. now specialize (Hv R). }
  split; [apply A; now left|]. split; [assumption|]. split; [assumption|]. exists l. split; [assumption|]. apply Forall_forall. intros s Is. apply A. now right.
Qed.

Lemma free_okv v : free_kinds K v -> okv v.
Proof. intros [->|[(t & ->)|(R & xs & ->)]] R'; try reflexivity. congruence. Qed.

(** Where refreshing returns, there is a file. *)
Definition files : Prop := forall w a w', c_refresh K p w = (Ok a, w') -> exists d xs, look (w_fs w') P = Some (AFile d xs).

Lemma t_body F u : m_id u <> PStr [] ->
  tri (Inv1 F) (St F None) (let! _ <- cache_set K p (Some u) ; when true (fetch K p None))
    (fun r s => Inv1 F s /\ (files -> forall a, r = Ok a -> exists d xs, look s P = Some (AFile d xs))).
Proof.
  intro Hu.
  assert (HI : forall s v, St F v s -> okv v -> Inv1 F s) by (intros s v; apply St_Inv1).
  eapply tri_bind; [apply (t_cache_set_free K D x Hx (Inv1 F) F okv HI u Hu); apply free_okv| |].
  - intros []. cbv beta. apply tri_ex. intro v. apply tri_fact. intros Hv. cbn [when].
    destruct Hv as [->|[(t & ->)|(R & xs & ->)]].
    + eapply tri_post; [apply (t_fetch_none K D x Hx)|]. intros r s (H & Nr). split; [apply (HI _ _ H); intro R; reflexivity|]. intros _ [] ->. congruence.
    + eapply tri_post; [apply (t_fetch_link K D x Hx (Inv1 F) F okv HI (fun r s => Inv1 F s /\ (files -> forall a, r = Ok a -> exists d xs, look s P = Some (AFile d xs))))|].
      * intros m v _ Hk R. destruct Hk as [->|[->|[(l & k & _ & ->)|(l & _ & d & k & l' & -> & _)]]]; reflexivity.
      * intros m _ _ w r w' Ho Hw H. destruct (t_refresh F (Some (ALink t)) ltac:(intro R; reflexivity) w r w' Ho Hw H) as [A B]. split; [|exact B]. split; [exact A|].
        intros Nv a ->. now apply (Nv w a).
      * intros r s [((H & Nv) & _)|H]; [split; [exact H|exact Nv]|]. destruct r as [[]|e].
        -- destruct H as (m & _ & Nf & [(Ff & H)|(_ & _ & l & xs' & _ & _ & H)]).
           ++ exfalso. unfold fetches in Ff. destruct (m_file_id m); try discriminate. now apply Nf.
           ++ split; [apply (HI _ _ H); intro R; reflexivity|]. intros _ _ _. exists (concat (r_chunks (c_remote K))), xs'. exact (proj2 (proj2 H)).
        -- split; [|discriminate]. destruct H as [H|(m & v & _ & Hk & H)]; apply (HI _ _ H); intro R; [reflexivity|].
           destruct Hk as [->|[->|[(l & k & _ & ->)|(l & _ & d & k & l' & -> & _)]]]; reflexivity.
    + eapply tri_post; [apply (t_fetch_dir K D x Hx)|]. intros r s (H & Nr). split; [apply (HI _ _ H); intro R'; congruence|]. intros _ [] ->. congruence.
  - intros e s (v & Hv & H). split; [|discriminate]. apply (HI _ _ H). now apply free_okv.
Qed.

Variables (fs : node) (d : bytes) (xs : Fs.xattrs).
Hypothesis Gf : good_fs fs.
Hypothesis Lf : look fs P = Some (AFile d xs).
Hypothesis Ht : is_dir_at fs TR.
Hypothesis Nb : ~ below TR P.
Hypothesis Hid : forall m, recorded K x (Some (AFile d xs)) = Ok (Some m) -> m_id m <> PStr [].

Lemma St0 : St fs (Some (AFile d xs)) fs.
Proof.
  split; [|split; [now intros q _|assumption]]. split; [assumption|]. split.
  - apply (look_above fs D x []). congruence.
  - intros t E. congruence.
Qed.
Definition Inv0 (s : node) : Prop := exists xs', St fs (Some (AFile d xs')) s.

(** the file stays where it is *)
Lemma t_stay u : tri Inv0 (St fs (Some (AFile d xs))) (let! _ <- cache_set K p u ; when false (fetch K p None)) (fun _ s => Inv0 s).
Proof.
  eapply tri_bind with (R := fun _ s => Inv0 s).
  - destruct u as [u|]; [|apply tri_ret; intros s H; now exists xs].
    destruct (meta_bool u) eqn:B.
    + eapply tri_post.
      * apply (t_cache_set_file K D x Hx Inv0 fs (fun v => exists xs', v = Some (AFile d xs'))); [|exact B|eauto].
        intros s v H (xs' & ->). now exists xs'.
      * intros [[]|e] s H.
        -- destruct H as (l & _ & H). eexists. exact H.
        -- destruct H as (l & k & _ & H). eexists. exact H.
    + unfold cache_set. rewrite B. apply tri_ret. intros s H. now exists xs.
  - intros []. apply tri_ret. auto.
  - auto.
Qed.

Definition stayed (w w' : world) : Prop := runs Inv0 w w' /\ Inv0 (w_fs w').
Definition went (w : world) (r : res bool) (w' : world) : Prop :=
  exists w1 w2 t, changed (w_fs w1) w w1 /\ trashed_to K D x TR fs w1 (Ok t) (w_fault w) /\
    runs (Inv1 (w_fs w1)) w1 w2 /\ Inv1 (w_fs w1) (w_fs w2) /\
    ((r = Ok true /\ w' = w2) \/
     (exists r3, sys_rename t p w2 = (r3, w') /\ exists e, r = Err e)).

Lemma changed_trans fs' a b c : same a b -> changed fs' b c -> changed fs' a c.
Proof. intros (A1 & A2 & A3 & A4) (B1 & B2 & B3 & B4). repeat split; congruence. Qed.

Lemma St_moved w1 T : moved fs P T (w_fs w1) -> ~ below P T -> below TR T -> St (w_fs w1) None (w_fs w1).
Proof.
  intros (G & _ & L & O) Nt Bt. split; [|split; [now intros q _|assumption]]. split; [assumption|]. split.
  - destruct (proj1 (proj2 (proj1 St0))) as (ys & Ld).
    assert (Nd : D <> P) by (intro E; apply (f_equal (@length str)) in E; rewrite app_length in E; cbn [length] in E; lia).
    exists ys. rewrite O; [assumption|assumption|]. intros ->. apply Nb. apply (below_trans _ T); [assumption|apply below_app].
  - intros t E. congruence.
Qed.

Lemma P_not_below_trash y : ~ below P (TR ++ [y]).
Proof.
  apply (apart_leaf fs P (File d xs) TR y); try assumption.
  - now apply look_file.
  - intros zs es E. discriminate.
  - intro E. apply Nb. rewrite E. apply below_app.
Qed.

Lemma update_run pm f w r w' : w_fs w = fs -> honest (w_fault w) -> meta_updater K p pm f w = (r, w') ->
  stayed w w' \/ (went w r w' /\ (files -> forall a, r = Ok a -> exists d' xs', look (w_fs w') P = Some (AFile d' xs')) /\ f = true /\ exists m u, recorded K x (Some (AFile d xs)) = Ok (Some m) /\ update_meta (c_dateparse K) (Some m) pm = Ok (true, u)).
Proof.
  intros Ew Ho H. pose proof St0 as H0. rewrite <- Ew in H0.
  assert (Q0 : forall v, same w v -> stayed w v).
  { intros v S. split; [now apply runs_same|]. exists xs. destruct S as (-> & _). rewrite Ew. apply St0. }
  assert (Hs : forall v, same w v -> honest (w_fault v) /\ St fs (Some (AFile d xs)) (w_fs v)).
  { intros v (S1 & _ & _ & S4). rewrite S4, S1, Ew. split; [assumption|apply St0]. }
  unfold meta_updater in H. apply bind_inv in H as [(om & w1 & H1 & H)|(e & H1 & ->)]; [|apply quiet_cache_meta in H1; auto].
  destruct (tk_cache_meta K D x Hx (fun _ => True) fs (Some (AFile d xs)) w _ _ Ho (proj2 (Hs w (same_refl w))) H1) as [[_ Er] _].
  specialize (Er om eq_refl). apply quiet_cache_meta in H1.
  apply bind_inv in H as [([df u] & w2 & H2 & H)|(e & H2 & ->)]; [|apply quiet_lift in H2; left; apply Q0; now apply (same_trans _ w1)].
  unfold lift in H2. injection H2 as Eu <-.
  apply bind_inv in H as [(must & w3 & H3 & H)|(e & H3 & ->)].
  2:{ assert (Q : same w1 w'). { refine (_ : same w1 w'). revert H3. match goal with |- ?m w1 = _ -> _ => assert (Qm : quiet m) by quiet_tac end. apply Qm. }
      left. apply Q0. now apply (same_trans _ w1). }
  assert (S3 : same w w3).
  { apply (same_trans _ w1); [assumption|]. revert H3. match goal with |- ?m w1 = _ -> _ => assert (Qm : quiet m) by quiet_tac end. apply Qm. }
  assert (Emust : must = true -> df = true).
  { intros ->. destruct df; [reflexivity|]. injection H3 as E _. discriminate. }
  assert (Efetch : must = true -> f = true).
  { intros ->. destruct df; [|injection H3 as E _; discriminate]. apply bind_inv in H3 as [(b1 & v1 & _ & H3)|(e & _ & E)]; [|discriminate].
    destruct b1; [|injection H3 as E _; discriminate]. apply bind_inv in H3 as [(b2 & v2 & _ & H3)|(e & _ & E)]; [|discriminate].
    injection H3 as E _. now apply andb_true_iff in E as [_ E]. }
  destruct must.
  - specialize (Emust eq_refl). specialize (Efetch eq_refl). subst df.
    apply bind_inv in H as [(tr & w6 & H6 & H)|(e & H6 & ->)].
    2:{ apply bind_inv in H6 as [(u1 & w4 & H4 & H6)|(e1 & H4 & E)].
        - assert (S4 : same w w4).
          { apply (same_trans _ w3); [assumption|]. revert H4. match goal with |- ?m w3 = _ -> _ => assert (Qm : quiet m) by quiet_tac end. apply Qm. }
          apply bind_inv in H6 as [(t & w5 & H5 & H6)|(e2 & H5 & E)]; [discriminate|]. injection E as <-.
          destruct (Hs w4 S4) as [Ho4 St4].
          destruct (crumple_run K D x TR Hx Htr w4 _ _ (File d xs) (proj1 St4) (proj1 (look_file _ _ _ _) (proj2 (proj2 St4)))
            ltac:(intros zs es E; discriminate) ltac:(destruct S4 as (-> & _); now rewrite Ew) Nb Ho4 H5) as [(S5 & _)|(_ & m & i & y & _ & _ & _ & E & _)]; [|discriminate].
          left. apply Q0. now apply (same_trans _ w4).
        - left. apply Q0. apply (same_trans _ w3); [assumption|]. revert H4. match goal with |- ?m w3 = _ -> _ => assert (Qm : quiet m) by quiet_tac end. apply Qm. }
    apply bind_inv in H6 as [(u1 & w4 & H4 & H6)|(e1 & H4 & E)]; [|discriminate].
    assert (S4 : same w w4).
    { apply (same_trans _ w3); [assumption|]. revert H4. match goal with |- ?m w3 = _ -> _ => assert (Qm : quiet m) by quiet_tac end. apply Qm. }
    apply bind_inv in H6 as [(t & w5 & H5 & H6)|(e2 & H5 & E)]; [|discriminate]. injection H6 as <- <-.
    destruct (Hs w4 S4) as [Ho4 St4]. assert (E4 : w_fs w4 = fs) by (destruct S4 as (-> & _); assumption).
    destruct (crumple_run K D x TR Hx Htr w4 _ _ (File d xs) (proj1 St4) (proj1 (look_file _ _ _ _) (proj2 (proj2 St4)))
      ltac:(intros zs es E; discriminate) ltac:(now rewrite E4) Nb Ho4 H5) as [(_ & e & E)|(C5 & Tt)]; [discriminate|].
    rewrite E4 in Tt. assert (Fw4 : w_fault w4 = w_fault w) by apply S4. rewrite Fw4 in Tt.
    right. pose proof Tt as (m & i & y & Rm & Ei & Hy & Etr & Hc & Nd & Mv).
    assert (Ho5 : honest (w_fault w5)) by (destruct C5 as (_ & _ & _ & ->); assumption).
    rewrite Lf in Rm. rewrite Er in Rm. injection Rm as ->.
    assert (Hm : m_id m <> PStr []) by now apply Hid.
    assert (Eu' : exists u', u = Some u' /\ m_id u' <> PStr []).
    { unfold update_meta in Eu. destruct (negb (meta_bool m)); [discriminate|]. destruct pm as [pm|]; [|discriminate].
      destruct (negb (meta_bool pm)); [discriminate|]. destruct (merge (c_dateparse K) m pm) as [[d1 u1']|] eqn:Em; [|discriminate].
      cbn [rbind fst snd] in Eu. apply Ok_inj in Eu. injection Eu as -> <-. exists u1'. split; [reflexivity|]. now apply (merge_id (c_dateparse K) m pm true). }
    destruct Eu' as (u' & -> & Hu).
    pose proof (St_moved w5 (TR ++ [y]) Mv (P_not_below_trash y) (below_app _ _)) as S5.
    pose proof (changed_trans _ _ _ _ S4 C5) as C5'.
    cut (went w r w' /\ (files -> forall a, r = Ok a -> exists d' xs', look (w_fs w') P = Some (AFile d' xs'))).
    { intros [C1 C2]. split; [exact C1|]. split; [exact C2|]. split; [exact Efetch|exists m, (Some u'); split; [assumption|exact Eu]]. }
    apply bind_inv in H as [(u2 & w6 & H6 & H)|(e & H6 & ->)].
    + injection H as <- <-. apply catch_inv in H6 as [(u3 & H6 & _)|(e & w7 & H6 & H7)].
      * destruct (t_body (w_fs w5) u' Hu w5 _ _ Ho5 S5 H6) as [[B1 B3] B2]. split; [|intros Nv _ _; now apply (B3 Nv u3)]. exists w5, w6, t. split; [assumption|]. split; [exact Tt|]. split; [assumption|]. split; [assumption|]. left. now split.
      * exfalso. apply bind_inv in H7 as [(u4 & w8 & H7 & H8)|(e' & H7 & E)]; discriminate.
    + apply catch_inv in H6 as [(u3 & H6 & E)|(e' & w7 & H6 & H7)]; [discriminate|].
      destruct (t_body (w_fs w5) u' Hu w5 _ _ Ho5 S5 H6) as [[B1 _] B2]. split; [|discriminate]. exists w5, w7, t. split; [assumption|]. split; [exact Tt|]. split; [assumption|]. split; [assumption|]. right.
      apply bind_inv in H7 as [(u4 & w8 & H7 & H8)|(e'' & H7 & E)].
      * injection H8 as <- <-. exists (Ok u4). split; [assumption|]. eauto.
      * exists (Err e''). split; [assumption|]. eauto.
  - unfold bind at 1, ret at 1 in H. destruct (Hs w3 S3) as [Ho3 St3]. left.
    assert (Q3 : forall r2 w2, catch (let! _ <- cache_set K p u ; when false (fetch K p None)) (fun e => let! _ <- ret tt ; raise e) w3 = (r2, w2) -> runs Inv0 w3 w2 /\ Inv0 (w_fs w2)).
    { intros r2 w2 Hc. assert (T : tri Inv0 (St fs (Some (AFile d xs))) (catch (let! _ <- cache_set K p u ; when false (fetch K p None)) (fun e => let! _ <- ret tt ; raise e)) (fun _ s => Inv0 s)).
      { eapply tri_catch; [apply t_stay| |auto]. intro e. intros v rr v' _ Hv Hh. injection Hh as <- <-. split; [assumption|apply runs_refl]. }
      destruct (T _ _ _ Ho3 St3 Hc) as [A1 A2]. now split. }
    apply bind_inv in H as [(u2 & w6 & H6 & H)|(e & H6 & ->)].
    + injection H as <- <-. apply Q3 in H6 as [A1 A2]. split; [|assumption]. apply (runs_trans _ _ w3); [now apply runs_same|assumption].
    + apply Q3 in H6 as [A1 A2]. split; [|assumption]. apply (runs_trans _ _ w3); [now apply runs_same|assumption].
Qed.
End Update.
