(** * The children of a cache *)
From Coq Require Import String NArith ZArith Bool List Lia.
From Verif Require Import Model.Py Model.PurePath Model.Meta Model.MetaUpdate Model.Access Model.MetaSymlink Model.Fs Model.PathOps Model.Cache Model.CacheChildren
  Spec.FsSpec Spec.LoopSpec Spec.CopySpec Spec.CacheSpec Spec.CacheChildrenSpec
  Proofs.PyLemmas Proofs.PathLemmas Proofs.FsLemmas Proofs.RunLemmas Proofs.MoveLemmas Proofs.Hoare Proofs.SlotLemmas Proofs.CacheLemmas Proofs.CacheOps
  Proofs.TrashProofs Proofs.CacheMove Proofs.UpdateProofs Proofs.CacheProofs Proofs.LinkProofs Proofs.UpdateLive.
Import ListNotations.

Section Step.
Variables (K : conf) (D : place) (x : str) (TR : place) (fs : node).
Notation P := (D ++ [x]).
Notation p := (path_of (D ++ [x])).
Notation St := (St D x).
Hypothesis Hx : good_name x.
Hypothesis Htr : c_trash K = path_of TR.
Hypothesis Hconf : confined P (c_refresh K p).
Hypothesis Gf : good_fs fs.
Hypothesis Hd : is_dir_at fs D.
Hypothesis Ht : is_dir_at fs TR.
Hypothesis Nb : ~ below TR P.
Hypothesis Hl : forall t, look fs P = Some (ALink t) -> starts_with_name x t.
Hypothesis Hid : usable_id K x (look fs P).

Definition tname (y : str) : Prop := trash_name K x (look fs P) y.
Definition frame (s : node) : Prop := forall q, ~ below P q -> (forall y, tname y -> ~ below (TR ++ [y]) q) -> look s q = look fs q.
Definition keep (s : node) : Prop := forall d xs, look fs P = Some (AFile d xs) ->
  content s P = Some d \/ exists y, tname y /\ look s (TR ++ [y]) = Some (AFile d xs).
Definition inv (s : node) : Prop := frame s /\ keep s.
(** the new child is there, as what it is at the other end *)
Definition came (pm : option pathmeta) (s : node) : Prop :=
  look fs P = None -> forall m, pm = Some m -> meta_bool m = true ->
  if r_is_dir (c_remote K) then exists xs, look s P = Some (ADir xs) else exists t, look s P = Some (ALink t).
(** the content is that of the other end where the metadata tells of a change *)
Definition fresh (pm : option pathmeta) (s : node) : Prop :=
  (forall w a w', c_refresh K p w = (Ok a, w') -> content (w_fs w') P = Some (concat (r_chunks (c_remote K)))) ->
  forall d xs om b u, look fs P = Some (AFile d xs) -> recorded K x (Some (AFile d xs)) = Ok om -> update_meta (c_dateparse K) om pm = Ok (b, u) ->
  content s P = Some (if b then concat (r_chunks (c_remote K)) else d).
Definition outcome (pm : option pathmeta) (w : world) (r : res bool) (w' : world) : Prop :=
  runs inv w w' /\ inv (w_fs w') /\ (forall b, r = Ok b -> good_fs (w_fs w') /\ came pm (w_fs w') /\ fresh pm (w_fs w')).

Lemma start_fine : fine D x fs.
Proof. split; [assumption|]. split; [assumption|]. exact Hl. Qed.
Lemma start_St : St fs (look fs P) fs.
Proof. split; [apply start_fine|]. split; [now intros q _|reflexivity]. Qed.
Lemma inv_start : inv fs.
Proof. split; [now intros q _ _|]. intros d xs L. left. unfold content. now rewrite L. Qed.
Lemma inv_St v s : (forall d xs, look fs P = Some (AFile d xs) -> exists ys, v = Some (AFile d ys)) -> St fs v s -> inv s.
Proof.
  intros Hv (_ & O & L). split; [intros q Nq _; now apply O|]. intros d xs Lf. destruct (Hv d xs Lf) as (ys & ->). left. unfold content. now rewrite L.
Qed.

Lemma file_step d xs pm w r w' : look fs P = Some (AFile d xs) -> w_fs w = fs -> honest (w_fault w) -> meta_updater K p pm true w = (r, w') -> outcome pm w r w'.
Proof.
  intros Lf Ew Ho H. rewrite Lf in Hid.
  assert (Hid' : forall m, recorded K x (Some (AFile d xs)) = Ok (Some m) -> m_id m <> PStr []).
  { intros m R Q. destruct (Hid m [] R Q) as [N _]. apply N. reflexivity. }
  assert (Cm : forall b, r = Ok b -> came pm (w_fs w') /\ fresh pm (w_fs w')).
  { intros b ->. split; [intro Q; congruence|]. intros Sd d' xs' om b' u L Ro Eu. rewrite Lf in L. injection L as <- <-.
    destruct (update_live K D x TR fs d xs Hx Htr Hconf Sd Gf Lf Ht Nb Hid pm w b w' Ew Ho H) as ((om' & u' & Ro' & Eu') & C).
    rewrite Ro in Ro'. apply Ok_inj in Ro'. subst om'. rewrite Eu in Eu'. apply Ok_inj in Eu'. injection Eu' as <- _. exact C. }
  assert (Kl : forall s, keep s <-> (content s P = Some d \/ exists y, tname y /\ look s (TR ++ [y]) = Some (AFile d xs))).
  { intro s. split; [intro k; now apply k|]. intros k d' xs' L. rewrite Lf in L. injection L as <- <-. exact k. }
  apply (update_run K D x TR Hx Htr Hconf fs d xs Gf Lf Ht Nb Hid' pm true) in H as [[R Q]|((w1 & w2 & t & C & Tt & R & Iv & Z) & _)]; try assumption.
  - assert (A : forall s, Inv0 D x fs d s -> inv s).
    { intros s (xs' & S). apply (inv_St (Some (AFile d xs'))); [|assumption]. intros d' xs'' L. rewrite Lf in L. injection L as <- <-. eauto. }
    split; [now apply (runs_mono _ _ _ _ A)|]. split; [now apply A|]. intros b Eb. split; [|now apply (Cm b)]. destruct Q as (xs' & (G & _) & _). assumption.
  - destruct Tt as (m & i & z & Rm & Ei & Hz & Et & Hc & Nd & Mv). apply Ok_inj in Et. pose proof Rm as Rm'. rewrite Lf in Rm'. pose proof (Hid m i Rm' Ei) as Hi.
    pose proof (P_not_below_trash D x TR fs d xs Lf Ht Nb z) as Ny.
    assert (Tz : tname z) by (destruct Hc as [->|(-> & _)]; [right; exists m, i; auto|now left]).
    assert (Ti : tname (fs_safe_id i)) by (right; exists m, i; auto).
    assert (F1 : frame (w_fs w1)).
    { intros q Nq Nt. destruct Mv as (_ & _ & _ & Mo). apply Mo; intros ->; [apply Nq, below_refl|apply (Nt z Tz), below_refl]. }
    assert (Fi : forall s, Inv1 K D x (w_fs w1) s -> frame s).
    { intros s (_ & O & _) q Nq Nt. rewrite O by assumption. now apply F1. }
    assert (Af : forall s, Inv1 K D x (w_fs w1) s -> look s (TR ++ [z]) = Some (AFile d xs)).
    { intros s (_ & O & _). rewrite O by assumption. destruct Mv as (_ & -> & _). exact Lf. }
    assert (I1 : forall s, Inv1 K D x (w_fs w1) s -> inv s).
    { intros s S. split; [now apply Fi|]. apply Kl. right. exists z. split; [assumption|now apply Af]. }
    assert (R1 : runs inv w w1).
    { apply (runs_changed _ (w_fs w1)); [exact C|]. split; [assumption|]. apply Kl. right. exists z. split; [assumption|]. destruct Mv as (_ & -> & _). exact Lf. }
    assert (R2 : runs inv w1 w2) by now apply (runs_mono (Inv1 K D x (w_fs w1))).
    assert (K2 : inv (w_fs w2)) by now apply I1.
    destruct Z as [(-> & ->)|(r3 & Z & e & ->)].
    + split; [now apply (runs_trans _ _ w1)|]. split; [assumption|]. intros b Eb. split; [apply Iv|now apply (Cm b)].
    + assert (K3 : inv (w_fs w') /\ (same w2 w' \/ changed (w_fs w') w2 w')).
      { destruct (last_rename K D x TR fs d xs Hx Htr Hconf Gf Lf Ht Nb w1 w2 t z i r3 w' Mv Hz Hi Et Iv Z) as (Ch & Q).
        split; [|assumption]. split.
        - intros q Nq Nt. rewrite <- ((proj1 K2) q Nq Nt). rewrite Et, Htr, join_name in Z by assumption.
          apply (rename_off w2 TR (fs_safe_id i) D x r3 w'); try assumption.
          + exact (proj1 Iv).
          + destruct Ht as (zs & Lt). exists zs. rewrite (proj1 K2); [assumption| |].
            * intro B. apply Ny. apply (below_trans _ TR); [assumption|apply below_app].
            * intros y _ (l & E). apply (f_equal (@length str)) in E. rewrite !app_length in E. cbn [length] in E. lia.
          + destruct Hd as (zs & Ld). exists zs. rewrite (proj1 K2); [assumption| |].
            * intros (l & E). apply (f_equal (@length str)) in E. rewrite !app_length in E. cbn [length] in E. lia.
            * intros y _ B. apply Nb. apply (below_trans _ (TR ++ [y])); [apply below_app|]. apply (below_trans _ D); [assumption|apply below_app].
          + now apply Nt.
        - apply Kl. destruct Q as [(_ & L)|(_ & [(S & _)|(_ & Mw)])].
          + right. eauto.
          + destruct S as (-> & _). exact (proj1 (Kl _) (proj2 K2)).
          + left. destruct Mw as (_ & L & _). unfold content. rewrite L, (Af (w_fs w2)) by assumption. reflexivity. }
      destruct K3 as [K3 Ch]. split; [|split; [assumption|discriminate]].
      apply (runs_trans _ _ w1); [assumption|]. apply (runs_trans _ _ w2); [assumption|].
      destruct Ch as [Ch|Ch]; [now apply runs_same|now apply (runs_changed _ (w_fs w'))].
Qed.

(** Where there is no file, the update writes metadata and nothing else. *)
Lemma plain_step pm w r w' : isF (look fs P) = false -> w_fs w = fs -> honest (w_fault w) -> meta_updater K p pm true w = (r, w') ->
  (same w w' /\ exists e, r = Err e) \/
  exists om df u w1 r1, same w w1 /\ recorded K x (look fs P) = Ok om /\ update_meta (c_dateparse K) om pm = Ok (df, u) /\
    cache_set K p u w1 = (r1, w') /\ (forall b, r = Ok b -> r1 = Ok tt).
Proof.
  intros Nf Ew Ho H. unfold meta_updater in H.
  assert (Hs : forall v, same w v -> honest (w_fault v) /\ St fs (look fs P) (w_fs v)).
  { intros v (S1 & _ & _ & S4). rewrite S4, S1, Ew. split; [assumption|apply start_St]. }
  apply bind_inv in H as [(om & w1 & H1 & H)|(e & H1 & ->)]; [|apply quiet_cache_meta in H1; left; split; [assumption|eauto]].
  destruct (tk_cache_meta K D x Hx (fun _ => True) fs (look fs P) w _ _ Ho (proj2 (Hs w (same_refl w))) H1) as [[_ Er] _].
  specialize (Er om eq_refl). apply quiet_cache_meta in H1.
  apply bind_inv in H as [([df u] & w2 & H2 & H)|(e & H2 & ->)]; [|apply quiet_lift in H2; left; split; [now apply (same_trans _ w1)|eauto]].
  unfold lift in H2. injection H2 as Eu <-.
  assert (Q3 : forall rr v, (if df then let! f <- p_is_file p ; if f then let! e <- p_exists p ; ret (e && true)%bool else ret false else ret false) w1 = (rr, v) ->
     same w v /\ (rr = Ok false \/ exists e, rr = Err e)).
  { intros rr v Hm. destruct df; [|injection Hm as <- <-; auto].
    apply bind_inv in Hm as [(f & v1 & G1 & Hm)|(e & G1 & ->)].
    - destruct (Hs w1 H1) as [Ho1 St1].
      destruct (tk_is_file D x Hx (fun _ => True) fs (look fs P) w1 _ _ Ho1 St1 G1) as [[_ Ef] _]. rewrite Nf in Ef. specialize (Ef f eq_refl). subst f.
      injection Hm as <- <-. apply quiet_is_file in G1. split; [now apply (same_trans _ w1)|now left].
    - apply quiet_is_file in G1. split; [now apply (same_trans _ w1)|eauto]. }
  apply bind_inv in H as [(must & w3 & H3 & H)|(e & H3 & ->)]; apply Q3 in H3 as [S3 E3].
  2:{ left. split; [assumption|eauto]. }
  destruct E3 as [E3|(e & E3)]; [|discriminate]. injection E3 as ->.
  unfold bind at 1, ret at 1 in H. right. exists om, df, u, w3.
  assert (Q4 : forall rr v, catch (let! _ <- cache_set K p u ; when false (fetch K p None)) (fun e => let! _ <- ret tt ; raise e) w3 = (rr, v) -> cache_set K p u w3 = (rr, v)).
  { intros rr v Hc. apply catch_inv in Hc as [(a & Hc & ->)|(e & v1 & Hc & Hh)].
    - apply bind_inv in Hc as [([] & v1 & G1 & Hc)|(e & G1 & E)]; [|discriminate]. injection Hc as <- <-. assumption.
    - apply bind_inv in Hc as [([] & v2 & G1 & Hc)|(e1 & G1 & E)]; [discriminate|]. injection E as <-. injection Hh as <- <-. assumption. }
  apply bind_inv in H as [([] & v & H4 & H)|(e & H4 & ->)]; apply Q4 in H4.
  - injection H as <- <-. exists (Ok tt). auto.
  - exists (Err e). split; [assumption|]. split; [assumption|]. split; [assumption|]. split; [assumption|discriminate].
Qed.

Lemma t_cache_set_dir xs m : tri (fun s => exists ys, St fs (Some (ADir ys)) s) (St fs (Some (ADir xs))) (cache_set K p m) (fun r s => exists ys, St fs (Some (ADir ys)) s).
Proof.
  unfold cache_set. destruct m as [m|]; [|apply tri_ret; eauto]. destruct (meta_bool m); [|apply tri_ret; eauto].
  eapply tri_bindk; [apply (tk_ens D x Hx)| |eauto]. intros b. cbv beta iota; apply tri_known; intros ->. cbn [isE].
  apply (t_eat_set_dir K D x Hx _ fs (fun v => exists ys, v = Some (ADir ys))); [|eauto]. intros v s S (ys & ->). eauto.
Qed.

Lemma t_cache_set_new m : m_id m <> PStr [] -> meta_bool m = true ->
  tri (fun s => exists v, free_kinds K v /\ St fs v s) (St fs None) (cache_set K p (Some m)) (fun r s =>
    exists v, free_kinds K v /\ St fs v s /\ (r = Ok tt -> if r_is_dir (c_remote K) then exists xs, v = Some (ADir xs) else exists t, v = Some (ALink t))).
Proof.
  intros Hi Hm. unfold cache_set. rewrite Hm.
  assert (E0 : forall (e : exn) s, St fs None s -> exists v, free_kinds K v /\ St fs v s /\ (@Err unit e = Ok tt -> if r_is_dir (c_remote K) then exists xs, v = Some (ADir xs) else exists t, v = Some (ALink t)))
    by (intros e s H; exists None; split; [now left|split; [exact H|discriminate]]).
  eapply tri_bindk; [apply (tk_ens D x Hx)| |intros e s H; auto]. intros b. cbv beta iota; apply tri_known; intros ->. cbn [isE].
  eapply tri_bind; [apply (t_prepare_free K D x Hx _ fs (free_kinds K)); eauto| |intros e s H; auto]. intros [].
  cbv beta iota; apply tri_or.
  - cbv beta iota; apply tri_fact; intro Ed. eapply tri_bindk; [apply (tk_exists D x Hx)| |].
    + intros b. cbv beta iota; apply tri_known; intros ->. cbn [isE].
      eapply tri_post; [apply (t_eat_set_dir K D x Hx _ fs (free_kinds K)); [eauto|]|].
      * intros l k _. right. right. eauto.
      * intros r s (ys & H). exists (Some (ADir ys)). split; [right; right; eauto|]. split; [exact H|]. rewrite Ed. eauto.
    + intros e s H. exists (Some (ADir [])). split; [right; right; eauto|]. split; [exact H|discriminate].
  - cbv beta iota; apply tri_fact; intro Ed. eapply tri_bindk; [apply (tk_exists D x Hx)| |intros e s H; auto].
    intros b. cbv beta iota; apply tri_known; intros ->. cbn [isE].
    eapply tri_post; [apply (t_symlink_set_free K D x Hx _ fs (free_kinds K)); eauto|].
    intros [[]|e] s H; [|auto]. destruct H as (t & H). exists (Some (ALink t)). split; [right; left; eauto|]. split; [exact H|]. rewrite Ed. eauto.
Qed.

(** A link whose metadata cannot be read stays. *)
Lemma link_stays t m w r w' : look fs P = Some (ALink t) -> (forall o, from_symlink x t false false <> Ok o) -> at_ fs w -> symlink_set K p m w = (r, w') ->
  same w w' /\ exists e, r = Err e.
Proof.
  intros Lf No A H. pose proof (Hl t Lf) as Hlt. unfold symlink_set in H.
  apply bind_inv in H as [(b & w1 & H1 & H)|(e & H1 & ->)]; destruct (l_exists D x fs t Hx Gf Lf Hlt w A _ _ H1) as [S1 [E1|(e1 & k & E1 & F1)]]; try discriminate.
  2:{ split; [assumption|eauto]. }
  apply Ok_inj in E1. subst b. pose proof (at_same fs _ _ A S1) as A1.
  apply bind_inv in H as [(b & w2 & H2 & H)|(e & H2 & ->)]; destruct (l_is_symlink D x fs t Hx Gf Lf Hlt w1 A1 _ _ H2) as [S2 [E2|(e2 & k & E2 & F2)]]; try discriminate.
  2:{ split; [now apply (same_trans _ w1)|eauto]. }
  apply Ok_inj in E2. subst b. pose proof (at_same fs _ _ A1 S2) as A2. pose proof (same_trans _ _ _ S1 S2) as S02.
  rewrite bind_bind in H.
  assert (Q : sure w2 (symlink_meta p) (from_symlink x t false false)).
  { unfold symlink_meta. eapply sure_bind; [now apply (l_is_symlink D x fs t Hx Gf Lf Hlt)|]. intros v1 U1. cbv beta iota. pose proof (at_same fs _ _ A2 U1) as B1.
    eapply sure_bind; [now apply (l_exists D x fs t Hx Gf Lf Hlt)|]. intros v2 U2. cbv beta iota. pose proof (at_same fs _ _ B1 U2) as B2.
    eapply sure_bind with (a := t).
    - apply sure_ask. destruct B2 as [_ ->]. unfold lookup. rewrite (walk_false D x Hx fs _ start_fine), (proj1 (look_link _ _ _) Lf). reflexivity.
    - intros v3 U3. rewrite pp_name_of. apply sure_lift. }
  apply bind_inv in H as [(o & w3 & H3 & H)|(e & H3 & ->)]; destruct (Q _ _ H3) as [S3 [E3|(e3 & k & E3 & F3)]]; try discriminate.
  - elim (No o). now symmetry.
  - split; [now apply (same_trans _ w2)|eauto].
  - split; [now apply (same_trans _ w2)|eauto].
Qed.

Lemma inv_same w w' : w_fs w = fs -> same w w' -> runs inv w w' /\ inv (w_fs w').
Proof. intros Ew S. split; [now apply runs_same|]. destruct S as (-> & _). rewrite Ew. apply inv_start. Qed.

Lemma kid_step pm w r w' : (forall m, pm = Some m -> m_id m <> PStr []) -> w_fs w = fs -> honest (w_fault w) ->
  (forall k, w_fault w k <> Some (OSErr EEXIST)) -> meta_updater K p pm true w = (r, w') -> outcome pm w r w'.
Proof.
  intros Hp Ew Ho Ne H. assert (Lv : exists v, look fs P = v) by eauto. destruct Lv as ([[d xs|xs|t]|] & Lf).
  - now apply (file_step d xs).
  - apply plain_step in H; [|now rewrite Lf|assumption|assumption].
    destruct H as [(S & e & ->)|(om & df & u & w1 & r1 & S & Ro & Eu & Hc & Er)].
    { destruct (inv_same w w' Ew S). split; [assumption|]. split; [assumption|discriminate]. }
    assert (E1 : w_fs w1 = fs) by (destruct S as (-> & _); assumption).
    assert (F1 : w_fault w1 = w_fault w) by apply S.
    assert (S1 : St fs (Some (ADir xs)) (w_fs w1)) by (rewrite E1, <- Lf; apply start_St).
    rewrite <- F1 in Ho. destruct (t_cache_set_dir xs u w1 r1 w' Ho S1 Hc) as [(ys & Q) R].
    assert (A : forall s, (exists zs, St fs (Some (ADir zs)) s) -> inv s).
    { intros s (zs & Z). apply (inv_St (Some (ADir zs))); [|assumption]. congruence. }
    split; [apply (runs_trans _ _ w1); [now apply runs_same|now apply (runs_mono _ _ _ _ A)]|]. split; [apply A; eauto|].
    intros b _. split; [apply Q|]. split; [intro Q0|intros _ ? ? ? ? ? Q0]; congruence.
  - pose proof (Hl t Lf) as Hlt.
    apply plain_step in H; [|now rewrite Lf|assumption|assumption].
    destruct H as [(S & e & ->)|(om & df & u & w1 & r1 & S & Ro & Eu & Hc & Er)].
    { destruct (inv_same w w' Ew S). split; [assumption|]. split; [assumption|discriminate]. }
    assert (E1 : w_fs w1 = fs) by (destruct S as (-> & _); assumption).
    assert (F1 : w_fault w1 = w_fault w) by apply S.
    assert (Ho1 : honest (w_fault w1)) by now rewrite F1.
    assert (Done : same w1 w' -> outcome pm w r w').
    { intro S'. destruct (inv_same w w' Ew (same_trans _ _ _ S S')) as [R Q]. split; [assumption|]. split; [assumption|].
      intros b _. split; [|split; [intro Q0|intros _ ? ? ? ? ? Q0]; congruence]. destruct S' as (-> & _). now rewrite E1. }
    destruct u as [m|]; [|apply Done; injection Hc as <- <-; apply same_refl].
    assert (A1 : at_ fs w1) by now split.
    apply (before_set K D x fs t Hx Gf Lf Hlt) in Hc; [|assumption].
    destruct Hc as [(S' & _)|(w2 & S2 & Hc)]; [now apply Done|].
    pose proof (at_same fs _ _ A1 S2) as A2.
    rewrite Lf in Ro. cbn [recorded] in Ro.
    destruct (from_symlink x t false false) as [old|e] eqn:Es.
    2:{ apply (link_stays t) in Hc as [S' _]; [|assumption|intros o; congruence|assumption]. apply Done. now apply (same_trans _ w2). }
    assert (F2 : w_fault w2 = w_fault w) by (destruct S2 as (_ & _ & _ & ->); assumption).
    apply (link_set K D x TR fs t old Hx Htr Gf Lf Hlt Ht Nb Es) in Hc; [|assumption|now rewrite F2].
    destruct Hc as [(S' & _)|(_ & y & w3 & (i & Ei & Hy) & C & Mv & Hc)]; [apply Done; now apply (same_trans _ w2)|].
    assert (Ty : tname y).
    { unfold tname. rewrite Lf. destruct Hy as [->|(-> & _)]; [|now left]. right. exists old, i. split; [|split; [assumption|reflexivity]]. cbn [recorded]. now rewrite Es. }
    assert (Kp : forall s, keep s) by (intros s d xs Q; congruence).
    assert (I3 : inv (w_fs w3)).
    { split; [|apply Kp]. intros q Nq Nt. destruct Mv as (_ & _ & _ & Mo). apply Mo; intros ->; [apply Nq, below_refl|apply (Nt y Ty), below_refl]. }
    assert (R3 : runs inv w w3).
    { apply (runs_trans _ _ w2); [apply runs_same; now apply (same_trans _ w1)|]. now apply (runs_changed _ (w_fs w3)). }
    destruct Hc as [(S4 & e & ->)|(q & Eq & -> & C4 & L4 & O4 & G4)].
    + split; [apply (runs_trans _ _ w3); [assumption|now apply runs_same]|]. split; [destruct S4 as (-> & _); assumption|].
      intros b Q. specialize (Er b Q). discriminate.
    + assert (I4 : inv (w_fs w')).
      { split; [|apply Kp]. intros z Nz Nt. rewrite O4; [now apply I3|]. intros ->. apply Nz, below_refl. }
      split; [apply (runs_trans _ _ w3); [assumption|now apply (runs_changed _ (w_fs w'))]|]. split; [assumption|].
      intros b _. split; [assumption|]. split; [intro Q0|intros _ ? ? ? ? ? Q0]; congruence.
  - apply plain_step in H; [|now rewrite Lf|assumption|assumption].
    destruct H as [(S & e & ->)|(om & df & u & w1 & r1 & S & Ro & Eu & Hc & Er)].
    { destruct (inv_same w w' Ew S). split; [assumption|]. split; [assumption|discriminate]. }
    assert (E1 : w_fs w1 = fs) by (destruct S as (-> & _); assumption).
    assert (F1 : w_fault w1 = w_fault w) by apply S.
    assert (S1 : St fs None (w_fs w1)) by (rewrite E1, <- Lf; apply start_St).
    rewrite Lf in Ro. cbn [recorded] in Ro. apply Ok_inj in Ro. subst om. cbn [update_meta negb] in Eu. apply Ok_inj in Eu. injection Eu as <- <-.
    assert (Done : same w1 w' -> (forall m, pm = Some m -> meta_bool m = false) -> outcome pm w r w').
    { intros S' Np. destruct (inv_same w w' Ew (same_trans _ _ _ S S')) as [R Q]. split; [assumption|]. split; [assumption|].
      intros b _. split; [destruct S' as (-> & _); now rewrite E1|]. split; [|intros _ ? ? ? ? ? Q0; congruence]. intros _ m Em Bm. rewrite (Np m Em) in Bm. discriminate. }
    destruct pm as [m|]; [|apply Done; [injection Hc as <- <-; apply same_refl|discriminate]].
    destruct (meta_bool m) eqn:Bm.
    2:{ apply Done; [|intros m' Q; injection Q as <-; assumption]. cbn [cache_set] in Hc. rewrite Bm in Hc. injection Hc as <- <-. apply same_refl. }
    rewrite <- F1 in Ho. destruct (t_cache_set_new m (Hp m eq_refl) Bm w1 r1 w' Ho S1 Hc) as [(v & _ & Q & Qv) R].
    assert (A : forall s, (exists v, free_kinds K v /\ St fs v s) -> inv s).
    { intros s (v' & _ & Z). apply (inv_St v'); [|assumption]. congruence. }
    split; [apply (runs_trans _ _ w1); [now apply runs_same|now apply (runs_mono _ _ _ _ A)]|]. split; [apply (inv_St v); [congruence|assumption]|].
    intros b Eb. split; [apply Q|]. split; [|intros _ ? ? ? ? ? Q0; congruence]. intros _ m' _ _. specialize (Qv (Er b Eb)). destruct Q as (_ & _ & L). rewrite L. assumption.
Qed.
End Step.

Section Children.
Variables (K : conf) (D TR : place) (fs : node).
Hypothesis Htr : c_trash K = path_of TR.
Notation at_kid := (kid_at D).
Notation away := (elsewhere K fs D TR).

Definition apart (l : list kid) (c : kid) : Prop :=
  forall c' y, In c' l -> k_name c' <> k_name c -> kid_trash K fs D c y -> ~ kid_trash K fs D c' y.
Definition kept_kid (c : kid) (s : node) : Prop := forall d xs, look fs (at_kid c) = Some (AFile d xs) ->
  content s (at_kid c) = Some d \/ exists y, kid_trash K fs D c y /\ look s (TR ++ [y]) = Some (AFile d xs).
Definition fate (l : list kid) (s0 s : node) : Prop :=
  (forall q, (forall c, In c l -> away c q) -> look s q = look s0 q) /\
  (forall c, In c l -> apart l c -> kept_kid c s).
Definition came_kid (c : kid) (s : node) : Prop :=
  look fs (at_kid c) = None -> forall m, k_metadata c = Ok (Some m) -> meta_bool m = true ->
  if r_is_dir (k_remote c) then exists xs, look s (at_kid c) = Some (ADir xs) else exists t, look s (at_kid c) = Some (ALink t).
Definition fresh_kid (c : kid) (s : node) : Prop :=
  (forall w a w', k_refresh c (path_of (at_kid c)) w = (Ok a, w') -> content (w_fs w') (at_kid c) = Some (concat (r_chunks (k_remote c)))) ->
  forall d xs om n b u, look fs (at_kid c) = Some (AFile d xs) -> recorded K (k_name c) (Some (AFile d xs)) = Ok om -> k_metadata c = Ok n ->
  update_meta (c_dateparse K) om n = Ok (b, u) -> content s (at_kid c) = Some (if b then concat (r_chunks (k_remote c)) else d).
Definition done_kid (c : kid) (s : node) : Prop := came_kid c s /\ fresh_kid c s.
Lemma done_look c s s' : look s' (at_kid c) = look s (at_kid c) -> done_kid c s -> done_kid c s'.
Proof. unfold done_kid, came_kid, fresh_kid, content. intros E H. now rewrite E. Qed.
Definition ready (l : list kid) (s : node) : Prop :=
  good_fs s /\ is_dir_at s D /\ is_dir_at s TR /\ forall c, In c l -> look s (at_kid c) = look fs (at_kid c).

Lemma away_dir c : proper_kid K fs D TR c -> away c D.
Proof.
  intros (_ & N1 & _). split.
  - intros (l & E). apply (f_equal (@length str)) in E. unfold kid_at in E. rewrite !app_length in E. cbn [length] in E. lia.
  - intros y _ B. apply N1. apply (below_trans _ (TR ++ [y])); [apply below_app|]. apply (below_trans _ D); [assumption|apply below_app].
Qed.
Lemma away_trash c : proper_kid K fs D TR c -> away c TR.
Proof.
  intros (_ & _ & N2 & _). split; [assumption|]. intros y _ (l & E). apply (f_equal (@length str)) in E. rewrite !app_length in E. cbn [length] in E. lia.
Qed.
Lemma away_kid c c' : proper_kid K fs D TR c' -> k_name c <> k_name c' -> away c (at_kid c').
Proof.
  intros (_ & N1 & _) N. split.
  - intros (l & E). unfold kid_at in E. rewrite <- app_assoc in E. apply app_inv_head in E. injection E as E _. congruence.
  - intros y _ B. apply N1. apply (below_trans _ (TR ++ [y])); [apply below_app|assumption].
Qed.
Lemma away_trashed c y : proper_kid K fs D TR c -> ~ kid_trash K fs D c y -> away c (TR ++ [y]).
Proof.
  intros (_ & N1 & N2 & _) N. split.
  - intro B. apply below_snoc in B as [B|E]; [now apply N2|]. apply N1. rewrite E. apply below_app.
  - intros z Tz (l & E). rewrite <- app_assoc in E. apply app_inv_head in E. injection E as E _. congruence.
Qed.

Lemma div_run c w r w' : proper_kid K fs D TR c -> ready [c] (w_fs w) -> honest (w_fault w) -> (forall k, w_fault w k <> Some (OSErr EEXIST)) ->
  cache_div K (path_of D) c w = (r, w') ->
  runs (fate [c] (w_fs w)) w w' /\ fate [c] (w_fs w) (w_fs w') /\
  (forall q, r = Ok q -> q = path_of (at_kid c) /\ good_fs (w_fs w') /\ done_kid c (w_fs w')).
Proof.
  intros (Hx & N1 & N2 & Hl & Hi & Hm & Hc) (G & Dd & Dt & L) Ho Ne H. specialize (L c (or_introl eq_refl)).
  assert (F0 : forall s, inv (conf_for K c) D (k_name c) TR (w_fs w) s -> fate [c] (w_fs w) s).
  { intros s [Fr Kp]. split.
    - intros q Q. destruct (Q c (or_introl eq_refl)) as [Q1 Q2]. apply Fr; [assumption|]. intros y Ty. apply Q2. unfold tname in Ty. fold (at_kid c) in Ty. rewrite L in Ty. exact Ty.
    - intros c' [<-|[]] _ d xs Lf. fold (at_kid c) in Kp. rewrite <- L in Lf. destruct (Kp d xs Lf) as [Q|(y & Ty & Ly)]; [now left|right].
      exists y. split; [|assumption]. unfold tname in Ty. fold (at_kid c) in Ty. rewrite L in Ty. exact Ty. }
  assert (S0 : forall v, same w v -> runs (fate [c] (w_fs w)) w v /\ fate [c] (w_fs w) (w_fs v)).
  { intros v S. split; [now apply runs_same|]. destruct S as (-> & _). apply F0, inv_start. }
  unfold cache_div in H.
  apply bind_inv in H as [(o & w1 & H1 & H)|(e & H1 & ->)]; apply quiet_cache_meta in H1.
  2:{ destruct (S0 w' H1). split; [assumption|]. split; [assumption|discriminate]. }
  rewrite join_name in H by assumption. fold (at_kid c) in H.
  assert (Q : forall r0 v, (let! m <- lift (k_metadata c) ; let! _ <- meta_updater (conf_for K c) (path_of (at_kid c)) m true ; ret (path_of (at_kid c))) w1 = (r0, v) ->
    runs (fate [c] (w_fs w)) w v /\ fate [c] (w_fs w) (w_fs v) /\
    (forall q, r0 = Ok q -> q = path_of (at_kid c) /\ good_fs (w_fs v) /\ done_kid c (w_fs v))).
  { intros r0 v Hb. apply bind_inv in Hb as [(m & w2 & H2 & Hb)|(e & H2 & ->)].
    2:{ apply quiet_lift in H2. destruct (S0 v (same_trans _ _ _ H1 H2)). split; [assumption|]. split; [assumption|discriminate]. }
    injection H2 as Em <-. assert (E1 : w_fs w1 = w_fs w) by apply H1. assert (F1 : w_fault w1 = w_fault w) by apply H1.
    assert (U : forall r1 v1, meta_updater (conf_for K c) (path_of (at_kid c)) m true w1 = (r1, v1) -> outcome (conf_for K c) D (k_name c) TR (w_fs w) m w1 r1 v1).
    { intros r1 v1 Hu. apply (kid_step (conf_for K c) D (k_name c) TR (w_fs w)) in Hu; try assumption.
      - intros t Lt. apply Hl. rewrite <- L. exact Lt.
      - intros m' i R E. fold (at_kid c) in R. rewrite L in R. exact (Hi m' i R E).
      - intros m' ->. now apply Hm.
      - now rewrite F1.
      - now rewrite F1. }
    apply bind_inv in Hb as [(b & w3 & H3 & Hb)|(e & H3 & ->)]; apply U in H3 as (R3 & I3 & O3).
    - injection Hb as <- <-. split; [apply (runs_trans _ _ w1); [now apply runs_same|now apply (runs_mono _ _ _ _ F0)]|]. split; [now apply F0|].
      intros q Eq. injection Eq as <-. destruct (O3 b eq_refl) as (G3 & C3 & C4). split; [reflexivity|]. split; [assumption|]. split.
      + intros Ln m' Em' Bm. apply (C3 (eq_trans L Ln) m'); [congruence|assumption].
      + intros Sd d xs om n b' u Lf Ro En Eu. apply (C4 Sd d xs om b' u (eq_trans L Lf) Ro). rewrite Em in En. apply Ok_inj in En. subst n. exact Eu.
    - split; [apply (runs_trans _ _ w1); [now apply runs_same|now apply (runs_mono _ _ _ _ F0)]|]. split; [now apply F0|discriminate]. }
  apply catch_inv in H as [(q & H & ->)|(e & w2 & H & Hh)]; [now apply Q|].
  apply Q in H as (R & I & _).
  assert (Hr : (exists e', r = Err e') /\ w' = w2) by (destruct e; injection Hh as <- <-; eauto). destruct Hr as [[e' ->] ->].
  split; [assumption|]. split; [assumption|discriminate].
Qed.

Lemma children_run : forall l w r w', (forall c, In c l -> proper_kid K fs D TR c) -> NoDup (map k_name l) -> ready l (w_fs w) ->
  honest (w_fault w) -> (forall k, w_fault w k <> Some (OSErr EEXIST)) ->
  cache_children K (path_of D) l w = (r, w') ->
  runs (fate l (w_fs w)) w w' /\ fate l (w_fs w) (w_fs w') /\
  (forall ps, r = Ok ps -> ps = map (fun c => path_of (at_kid c)) l /\ forall c, In c l -> done_kid c (w_fs w')).
Proof.
  induction l as [|c l IH]; intros w r w' Hp Nd Rd Ho Ne H.
  - injection H as <- <-. split; [apply runs_refl|]. split; [split; [reflexivity|intros c []]|]. intros ps E. injection E as <-. split; [reflexivity|intros c []].
  - cbn [map] in Nd. inversion Nd as [|? ? Nc Nd' Z]; subst. clear Nd.
    assert (Hn : forall c', In c' l -> k_name c <> k_name c') by (intros c' Ic E; apply Nc; rewrite E; now apply in_map).
    assert (Pc : proper_kid K fs D TR c) by (apply Hp; now left).
    assert (Pl : forall c', In c' l -> proper_kid K fs D TR c') by (intros c' Ic; apply Hp; now right).
    pose proof Rd as (G & Dd & Dt & L).
    assert (Rc : ready [c] (w_fs w)) by (split; [assumption|]; split; [assumption|]; split; [assumption|]; intros c' [<-|[]]; apply L; now left).
    assert (F1 : forall s, fate [c] (w_fs w) s -> fate (c :: l) (w_fs w) s).
    { intros s [Fr Kp]. split.
      - intros q Q. apply Fr. intros c' [<-|[]]. apply Q. now left.
      - intros c' [<-|Ic] Ap.
        + apply Kp; [now left|]. intros c'' y [<-|[]] N. congruence.
        + intros d xs Lf. left. unfold content. rewrite Fr.
          * rewrite (L c') by now right. now rewrite Lf.
          * intros c'' [<-|[]]. apply away_kid; [now apply Pl|now apply Hn]. }
    cbn [cache_children] in H. apply bind_inv in H as [(p & w1 & H1 & H)|(e & H1 & ->)]; apply (div_run c) in H1 as (R1 & I1 & O1); try assumption.
    2:{ split; [now apply (runs_mono _ _ _ _ F1)|]. split; [now apply F1|discriminate]. }
    destruct (O1 p eq_refl) as (-> & G1 & C1). pose proof I1 as [Fr1 Kp1].
    assert (Fa : w_fault w1 = w_fault w) by apply R1.
    assert (Rl : ready l (w_fs w1)).
    { split; [assumption|]. split; [|split].
      - destruct Dd as (zs & Ld). exists zs. rewrite Fr1; [assumption|]. intros c' [<-|[]]. now apply away_dir.
      - destruct Dt as (zs & Ld). exists zs. rewrite Fr1; [assumption|]. intros c' [<-|[]]. now apply away_trash.
      - intros c' Ic. rewrite Fr1; [apply L; now right|]. intros c'' [<-|[]]. apply away_kid; [now apply Pl|now apply Hn]. }
    assert (Ol : forall c', In c' l -> away c' (at_kid c)) by (intros c' Ic; apply away_kid; [assumption|]; intro E; apply (Hn c' Ic); now symmetry).
    assert (F2 : forall s, fate l (w_fs w1) s -> fate (c :: l) (w_fs w) s).
    { intros s [Fr Kp]. split.
      - intros q Q. rewrite Fr; [|intros c' Ic; apply Q; now right]. apply Fr1. intros c' [<-|[]]. apply Q. now left.
      - intros c' [<-|Ic] Ap.
        + intros d xs Lf.
          assert (A1 : apart [c] c) by (intros c'' y [<-|[]] N; congruence).
          destruct (Kp1 c (or_introl eq_refl) A1 d xs Lf) as [Q|(y & Ty & Ly)].
          * left. unfold content in *. now rewrite Fr.
          * right. exists y. split; [assumption|]. rewrite Fr; [assumption|]. intros c' Ic. apply away_trashed; [now apply Pl|].
            apply (Ap c' y); [now right| |assumption]. intro E. apply (Hn c' Ic). now symmetry.
        + apply Kp; [assumption|]. intros c'' y Ic' N. apply Ap; [now right|assumption]. }
    assert (Ap : forall r0 v, cache_children K (path_of D) l w1 = (r0, v) ->
      runs (fate (c :: l) (w_fs w)) w v /\ fate (c :: l) (w_fs w) (w_fs v) /\
      (forall ps, r0 = Ok ps -> ps = map (fun c => path_of (at_kid c)) l /\ forall c', In c' (c :: l) -> done_kid c' (w_fs v))).
    { intros r0 v Hl. apply IH in Hl as (R2 & I2 & O2); try assumption; [|now rewrite Fa|now rewrite Fa].
      split; [apply (runs_trans _ _ w1); [now apply (runs_mono _ _ _ _ F1)|now apply (runs_mono _ _ _ _ F2)]|]. split; [now apply F2|].
      intros ps ->. destruct (O2 ps eq_refl) as [-> C2]. split; [reflexivity|]. intros c' [<-|Ic]; [|now apply C2].
      destruct I2 as [Fr _]. apply (done_look c (w_fs w1)); [now apply Fr|assumption]. }
    apply bind_inv in H as [(ps & w2 & H2 & H)|(e & H2 & ->)]; apply Ap in H2 as (R2 & I2 & O2).
    + injection H as <- <-. split; [assumption|]. split; [assumption|]. intros ps' E. injection E as <-. destruct (O2 ps eq_refl) as [-> C2]. split; [reflexivity|assumption].
    + split; [assumption|]. split; [assumption|discriminate].
Qed.

Lemma children_states l cwd fault r w' : good_fs fs -> is_dir_at fs D -> is_dir_at fs TR -> (forall c, In c l -> proper_kid K fs D TR c) -> NoDup (map k_name l) ->
  honest fault -> (forall k, fault k <> Some (OSErr EEXIST)) ->
  cache_children K (path_of D) l (start fs cwd fault) = (r, w') ->
  (forall s, In s (states w') -> fate l fs s) /\
  (forall ps, r = Ok ps -> ps = map (fun c => path_of (at_kid c)) l /\ forall c, In c l -> done_kid c (w_fs w')).
Proof.
  intros G Dd Dt Hp Nd Ho Ne H.
  apply children_run in H as (R & I & O); try assumption; [|split; [assumption|]; split; [assumption|]; split; [assumption|]; reflexivity].
  split; [|assumption]. intros s [<-|Is]; [assumption|]. destruct R as (_ & _ & h & E & Fh). rewrite E in Is. apply in_app_iff in Is as [Is|[<-|[]]].
  - now apply (proj1 (Forall_forall _ _) Fh).
  - split; [reflexivity|]. intros c _ _ d xs Lf. left. unfold content. cbn [start w_fs]. now rewrite Lf.
Qed.
End Children.

Lemma children_safe K D TR fs cwd fault kids r w' :
  good_fs fs -> is_dir_at fs D -> is_dir_at fs TR -> c_trash K = path_of TR ->
  (forall c, In c kids -> proper_kid K fs D TR c) -> NoDup (map k_name kids) ->
  honest fault -> (forall k, fault k <> Some (OSErr EEXIST)) ->
  cache_children K (path_of D) kids (start fs cwd fault) = (r, w') ->
  forall s, In s (states w') ->
    (forall q, (forall c, In c kids -> elsewhere K fs D TR c q) -> look s q = look fs q) /\
    (forall c d xs, In c kids -> look fs (kid_at D c) = Some (AFile d xs) ->
       (forall c' y, In c' kids -> k_name c' <> k_name c -> kid_trash K fs D c y -> ~ kid_trash K fs D c' y) ->
       content s (kid_at D c) = Some d \/ exists y, kid_trash K fs D c y /\ look s (TR ++ [y]) = Some (AFile d xs)).
Proof.
  intros G Dd Dt Htr Hp Nd Ho Ne H s Is. destruct (children_states K D TR fs Htr kids cwd fault r w' G Dd Dt Hp Nd Ho Ne H) as [Q _].
  destruct (Q s Is) as [Q1 Q2]. split; [assumption|]. intros c d xs Ic L A. now apply (Q2 c Ic A).
Qed.
Lemma children_complete K D TR fs cwd fault kids ps w' :
  good_fs fs -> is_dir_at fs D -> is_dir_at fs TR -> c_trash K = path_of TR ->
  (forall c, In c kids -> proper_kid K fs D TR c) -> NoDup (map k_name kids) ->
  honest fault -> (forall k, fault k <> Some (OSErr EEXIST)) ->
  cache_children K (path_of D) kids (start fs cwd fault) = (Ok ps, w') ->
  ps = map (fun c => path_of (kid_at D c)) kids /\
  (forall c m, In c kids -> look fs (kid_at D c) = None -> k_metadata c = Ok (Some m) -> meta_bool m = true ->
    if r_is_dir (k_remote c) then exists xs, look (w_fs w') (kid_at D c) = Some (ADir xs) else exists t, look (w_fs w') (kid_at D c) = Some (ALink t)) /\
  (forall c d xs om n b u, In c kids ->
    (forall w a v, k_refresh c (path_of (kid_at D c)) w = (Ok a, v) -> content (w_fs v) (kid_at D c) = Some (concat (r_chunks (k_remote c)))) ->
    look fs (kid_at D c) = Some (AFile d xs) -> recorded K (k_name c) (Some (AFile d xs)) = Ok om -> k_metadata c = Ok n ->
    update_meta (c_dateparse K) om n = Ok (b, u) -> content (w_fs w') (kid_at D c) = Some (if b then concat (r_chunks (k_remote c)) else d)).
Proof.
  intros G Dd Dt Htr Hp Nd Ho Ne H. destruct (children_states K D TR fs Htr kids cwd fault _ w' G Dd Dt Hp Nd Ho Ne H) as [_ Q].
  destruct (Q ps eq_refl) as [Q1 Q2]. split; [assumption|]. split.
  - intros c m Ic L. now apply (proj1 (Q2 c Ic) L m).
  - intros c d xs om n b u Ic. exact (proj2 (Q2 c Ic)) || (intro Sd; exact (proj2 (Q2 c Ic) Sd d xs om n b u)).
Qed.

(** All the contents there are *)
Fixpoint datas (n : node) : list bytes :=
  match n with File d _ => [d] | Dir _ es => flat_map (fun e => datas (snd e)) es | Link _ => [] end.
Lemma datas_all : forall q n d xs, get n q = Some (File d xs) -> In d (datas n).
Proof.
  induction q as [|x q IH]; intros n d xs H.
  - cbn [get] in H. injection H as ->. now left.
  - destruct n as [| ys es|]; cbn [get] in H; try discriminate. destruct (entry x es) as [m|] eqn:E; [|discriminate].
    cbn [datas]. apply in_flat_map. exists (x, m). split; [now apply entry_In|]. now apply (IH m d xs).
Qed.
Lemma no_content s d : existsb (bytes_eqb d) (datas s) = false -> forall q, content s q <> Some d.
Proof.
  intros H q C. unfold content in C. destruct (look s q) as [[d' xs|xs|t]|] eqn:L; try discriminate. injection C as ->.
  apply look_file in L. apply datas_all in L. rewrite <- not_true_iff_false in H. apply H. apply existsb_exists. exists d. split; [assumption|].
  now apply bytes_eqb_eq.
Qed.
