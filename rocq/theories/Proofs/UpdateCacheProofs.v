(** * update_cache and refresh *)
From Coq Require Import String NArith ZArith Bool List Lia.
From Verif Require Import Model.Py Model.PurePath Model.Meta Model.MetaUpdate Model.Access Model.Fs Model.PathOps Model.Cache Model.UpdateCache
  Spec.FsSpec Spec.LoopSpec Spec.CopySpec Spec.CacheSpec
  Proofs.PyLemmas Proofs.PathLemmas Proofs.FsLemmas Proofs.RunLemmas Proofs.MoveLemmas Proofs.Hoare Proofs.SlotLemmas Proofs.CacheLemmas Proofs.CacheOps
  Proofs.TrashProofs Proofs.CacheMove Proofs.UpdateProofs Proofs.CacheProofs Proofs.CacheFinal.
Import ListNotations.

Section UpdateCache.
Variables (K : conf) (D : place) (x : str) (TR : place) (E : place) (y : str) (fs : node) (d : bytes) (xs : Fs.xattrs).
Notation P := (D ++ [x]).
Notation p := (path_of (D ++ [x])).
Notation T := (E ++ [y]).
Notation U := (E ++ [$".unlink-" ++ y]).
Hypothesis Hx : good_name x.
Hypothesis Htr : c_trash K = path_of TR.
Hypothesis Hconf : confined P (c_refresh K p).
Hypothesis Gf : good_fs fs.
Hypothesis Lf : look fs P = Some (AFile d xs).
Hypothesis Ht : is_dir_at fs TR.
Hypothesis Nb : ~ below TR P.
Hypothesis Hid : forall m i, recorded K x (Some (AFile d xs)) = Ok (Some m) -> m_id m = PStr i -> good_name (fs_safe_id i).

Definition kept (s : node) : Prop := content s P = Some d \/ exists z, look s (TR ++ [z]) = Some (AFile d xs).
(** What an update leaves when it returns *)
Definition settled (s : node) : Prop :=
  good_fs s /\
  ((exists xs', look s P = Some (AFile d xs') /\ forall q, ~ below P q -> look s q = look fs q) \/
   (exists z d' xs', ~ is_dir_at fs (TR ++ [z]) /\ look s P = Some (AFile d' xs') /\ look s (TR ++ [z]) = Some (AFile d xs) /\
      forall q, ~ below P q -> q <> TR ++ [z] -> look s q = look fs q)).

Lemma update_gen pm f w r w' : w_fs w = fs -> honest (w_fault w) -> meta_updater K p pm f w = (r, w') ->
  runs kept w w' /\ kept (w_fs w') /\ (files K D x -> forall a, r = Ok a -> settled (w_fs w')).
Proof.
  intros Ew Ho H.
  assert (Hid' : forall m, recorded K x (Some (AFile d xs)) = Ok (Some m) -> m_id m <> PStr []).
  { intros m R Q. destruct (Hid m [] R Q) as [N _]. apply N. reflexivity. }
  apply (update_run K D x TR Hx Htr Hconf fs d xs Gf Lf Ht Nb Hid' pm f) in H as [[R Q]|((w1 & w2 & t & C & Tt & R & Iv & Z) & Nv & _)]; try assumption.
  - assert (A : forall s, Inv0 D x fs d s -> kept s) by (intros s (xs' & _ & _ & L); left; unfold content; now rewrite L).
    split; [now apply (runs_mono _ _ _ _ A)|]. split; [now apply A|]. intros _ a _. destruct Q as (xs' & (G & _) & O & L).
    split; [assumption|]. left. exists xs'. split; [assumption|]. exact O.
  - destruct Tt as (m & i & z & Rm & Ei & Hz & Et & _ & Nd & Mv). apply Ok_inj in Et. rewrite Lf in Rm. pose proof (Hid m i Rm Ei) as Hi.
    pose proof (P_not_below_trash D x TR fs d xs Lf Ht Nb z) as Ny.
    assert (Af : forall s, Inv1 K D x (w_fs w1) s -> look s (TR ++ [z]) = Some (AFile d xs)).
    { intros s (_ & O & _). rewrite O by assumption. destruct Mv as (_ & -> & _). exact Lf. }
    assert (R1 : runs kept w w1).
    { apply (runs_changed _ (w_fs w1)); [exact C|]. right. exists z. destruct Mv as (_ & -> & _). exact Lf. }
    assert (R2 : runs kept w1 w2) by (apply (runs_mono (Inv1 K D x (w_fs w1))); [intros s Is; right; exists z; now apply Af|assumption]).
    assert (K2 : kept (w_fs w2)) by (right; exists z; now apply Af).
    destruct Z as [(-> & ->)|(r3 & Z & e & ->)].
    + split; [now apply (runs_trans _ _ w1)|]. split; [assumption|]. intros N a _. destruct (Nv N true eq_refl) as (d' & xs' & L').
      split; [apply Iv|]. right. exists z, d', xs'. split; [assumption|]. split; [assumption|]. split; [now apply Af|].
      intros q Nq Nz. destruct Iv as (_ & O & _). rewrite O by assumption. destruct Mv as (_ & _ & _ & Mo). apply Mo; [|assumption]. intros ->. apply Nq, below_refl.
    + assert (K3 : kept (w_fs w') /\ (same w2 w' \/ changed (w_fs w') w2 w')).
      { destruct (last_rename K D x TR fs d xs Hx Htr Hconf Gf Lf Ht Nb w1 w2 t z i r3 w' Mv Hz Hi Et Iv Z) as (Ch & [(_ & L)|(_ & [(S & _)|(_ & Mw)])]).
        - split; [right; eauto|assumption].
        - split; [|assumption]. destruct S as (-> & _). assumption.
        - split; [|assumption]. left. destruct Mw as (_ & L & _). unfold content. rewrite L, (Af (w_fs w2)) by assumption. reflexivity. }
      destruct K3 as [K3 Ch]. split; [|split; [assumption|discriminate]].
      apply (runs_trans _ _ w1); [assumption|]. apply (runs_trans _ _ w2); [assumption|].
      destruct Ch as [Ch|Ch]; [now apply runs_same|now apply (runs_changed _ (w_fs w'))].
Qed.

Hypothesis Hy : good_name y.
Hypothesis He : is_dir_at fs E.
Hypothesis Npt : P <> T.
Hypothesis Npu : P <> U.
Hypothesis Net : E <> TR.

Definition kept3 (s : node) : Prop := content s P = Some d \/ content s T = Some d \/ exists z, look s (TR ++ [z]) = Some (AFile d xs).
Lemma kept_3 s : kept s -> kept3 s. Proof. unfold kept, kept3. tauto. Qed.

Lemma E_not_below : ~ below P E.
Proof.
  intros (l & Q). destruct He as (zs & L). rewrite Q in L. destruct l as [|a l]; [rewrite app_nil_r, Lf in L; discriminate|].
  rewrite (leaf_below' fs P a l) in L; congruence.
Qed.

Lemma settled_move b w r w' : settled (w_fs w) -> honest (w_fault w) -> move K p (path_of T) b w = (r, w') -> runs kept3 w w' /\ kept3 (w_fs w').
Proof.
  intros (G & Q) Ho H.
  assert (A : exists d' xs', look (w_fs w) P = Some (AFile d' xs') /\ is_dir_at (w_fs w) E /\
    forall s, (look s P = Some (AFile d' xs') \/ look s T = Some (AFile d' xs')) -> (forall q, q <> P -> q <> T -> q <> U -> look s q = look (w_fs w) q) -> kept3 s).
  { destruct Q as [(xs' & L & O)|(z & d' & xs' & Nd & L & Lz & O)].
    - exists d, xs'. split; [assumption|]. split; [destruct He as (zs & Le); exists zs; rewrite O; [assumption|apply E_not_below]|].
      intros s [Ls|Ls] _; [left|right; left]; unfold content; now rewrite Ls.
    - exists d', xs'. split; [assumption|]. split.
      { destruct He as (zs & Le). exists zs. rewrite O; [assumption|apply E_not_below|]. intros Q. apply Nd. rewrite <- Q. now exists zs. }
      intros s _ Os. right. right. exists z. rewrite Os; [assumption| | |].
      + intro Q. apply Nb. rewrite <- Q. apply below_app.
      + intro Q. apply app_inj_tail in Q as [Q _]. congruence.
      + intro Q. apply app_inj_tail in Q as [Q _]. congruence. }
  destruct A as (d' & xs' & L & De & A).
  destruct (move_run K D x E y (w_fs w) d' xs' Hx Hy G L De Npt Npu b w r w' eq_refl Ho H) as [R Hr].
  assert (Sf : forall s, safe D x E y (w_fs w) d' xs' s -> kept3 s) by (intros s (S1 & S2 & _); now apply A).
  split; [now apply (runs_mono _ _ _ _ Sf)|]. apply Sf.
  assert (S0 : before D x E y (w_fs w) d' xs' (w_fs w') \/ behind D x E y (w_fs w) d' xs' (w_fs w')) by (destruct r; tauto).
  destruct S0 as [((_ & _ & B1 & B2 & _) & B3 & _)|((_ & _ & B1 & B2 & _) & _ & B3)]; (split; [tauto|split; assumption]).
Qed.

Lemma quiet_parent_changed R c : quiet (parent_changed K R c).
Proof. unfold parent_changed. quiet_tac. Qed.

Lemma update_cache_gen R f w r w' : a_target R = path_of T -> files K D x -> w_fs w = fs -> honest (w_fault w) ->
  (update_cache K R (Some p) None f w = (r, w') \/ update_cache K R None (Some p) f w = (r, w')) -> runs kept3 w w' /\ kept3 (w_fs w').
Proof.
  intros Et Nv Ew Ho H.
  assert (K0 : kept3 fs) by (left; unfold content; now rewrite Lf).
  assert (Q0 : forall v, same w v -> runs kept3 w v /\ kept3 (w_fs v)).
  { intros v S. split; [now apply runs_same|]. destruct S as (-> & _). now rewrite Ew. }
  assert (Up : forall v pm r1 v', same w v -> meta_updater K p pm f v = (r1, v') -> runs kept3 w v' /\ kept3 (w_fs v') /\ honest (w_fault v') /\ forall a, r1 = Ok a -> settled (w_fs v')).
  { intros v pm r1 v' S Hm. assert (Fv : w_fault v = w_fault w) by apply S. destruct (update_gen pm f v r1 v') as (R1 & K1 & S1); try assumption.
    - destruct S as (-> & _). exact Ew.
    - now rewrite Fv.
    - split; [apply (runs_trans _ _ v); [now apply runs_same|now apply (runs_mono _ _ _ _ kept_3)]|]. split; [now apply kept_3|].
      split; [destruct R1 as (-> & _); now rewrite Fv|]. now apply S1. }
  destruct H as [H|H]; unfold update_cache in H.
  - apply bind_inv in H as [(ch & w1 & H1 & H)|(e & H1 & ->)]; apply quiet_parent_changed in H1; [|now apply Q0].
    apply bind_inv in H as [(m & w2 & H2 & H)|(e & H2 & ->)]; apply quiet_lift in H2; apply (same_trans _ _ _ H1) in H2; [|now apply Q0].
    apply bind_inv in H as [(df & w3 & H3 & H)|(e & H3 & ->)]; apply (Up _ _ _ _ H2) in H3 as (R3 & K3 & Ho3 & S3); [|now split].
    specialize (S3 df eq_refl).
    assert (Mv : forall r4 w4, when (negb (str_eqb (pp_name p) (a_name R)) || ch) (let! _ <- move K p (a_target R) true ; ret tt) w3 = (r4, w4) -> runs kept3 w3 w4 /\ kept3 (w_fs w4)).
    { intros r4 w4 H4. destruct (negb (str_eqb (pp_name p) (a_name R)) || ch); cbn [when] in H4; [|injection H4 as <- <-; split; [apply runs_refl|assumption]].
      rewrite Et in H4. apply bind_inv in H4 as [(t & w5 & H5 & H4)|(e & H5 & ->)]; apply (settled_move _ _ _ _ S3 Ho3) in H5 as [R5 K5]; [injection H4 as <- <-|]; now split. }
    apply bind_inv in H as [(u & w4 & H4 & H)|(e & H4 & ->)]; apply Mv in H4 as [R4 K4]; [injection H as <- <-|]; (split; [now apply (runs_trans _ _ w3)|assumption]).
  - apply bind_inv in H as [(ch & w1 & H1 & H)|(e & H1 & ->)]; apply quiet_parent_changed in H1; [|now apply Q0].
    destruct (negb (str_eqb (pp_name p) (a_name R))); [injection H as <- <-; now apply Q0|]. destruct ch; [injection H as <- <-; now apply Q0|].
    apply bind_inv in H as [(m & w2 & H2 & H)|(e & H2 & ->)]; apply quiet_lift in H2; apply (same_trans _ _ _ H1) in H2; [|now apply Q0].
    apply (Up _ _ _ _ H2) in H as (R3 & K3 & _). now split.
Qed.
End UpdateCache.

(** ** Refreshing with the remotes of the package *)
Lemma refresh_raises K p : forall w a w', refresh K no_refresh p w <> (Ok a, w').
Proof.
  intros w a w' H. unfold refresh, no_refresh in H. apply bind_inv in H as [([m|] & w1 & _ & H)|(e & _ & Q)]; [|discriminate|discriminate].
  do 4 (apply bind_inv in H as [(? & ? & _ & H)|(? & _ & Q)]; [|discriminate]). discriminate.
Qed.
Lemma quiet_raise_bind {A B} e (g : A -> M B) : quiet (let! v <- raise e ; g v).
Proof. intros w r w' H. injection H as <- <-. apply same_refl. Qed.
Lemma quiet_refresh K p : quiet (refresh K no_refresh p).
Proof.
  unfold refresh, no_refresh. apply quiet_bind; [apply quiet_cache_meta|]. intros [m|]; [|auto with quiet].
  apply quiet_bind; [apply quiet_cache_meta|]. intros _. apply quiet_bind; [quiet_tac|]. intros _.
  apply quiet_bind; [quiet_tac|]. intro f. apply quiet_bind; [quiet_tac|]. intros _. apply quiet_raise_bind.
Qed.
Lemma refresh_confined K P : confined P (refresh K no_refresh (path_of P)).
Proof.
  intros w r w' G H. apply quiet_refresh in H as (A & B & C & F). split; [assumption|]. split; [assumption|]. exists []. split; [assumption|].
  intros s [<-|[]]. rewrite A. split; [assumption|]. split; auto.
Qed.

(** ** Refreshing when the remote answers *)
Lemma refresh_gone K D x TR fs cwd fault d xs b r w' :
  good_name x -> good_fs fs -> look fs (D ++ [x]) = Some (AFile d xs) -> trash_at K fs TR (D ++ [x]) -> honest fault ->
  refresh K (ret b) (path_of (D ++ [x])) (start fs cwd fault) = (r, w') ->
  (forall s, In s (states w') -> s = fs) /\ (r = Ok tt -> b = true) \/
  b = false /\ r = Ok tt /\ exists y, trash_name K x (Some (AFile d xs)) y /\ forall s, In s (states w') -> s = fs \/
      (look s (TR ++ [y]) = Some (AFile d xs) /\ look s (D ++ [x]) = None /\ forall q, q <> D ++ [x] -> q <> TR ++ [y] -> look s q = look fs q).
Proof.
  intros Hx G L (T1 & T2 & T3) Ho H.
  assert (Q : forall v, same (start fs cwd fault) v -> forall s, In s (states v) -> s = fs).
  { intros v (A & _ & B & _) s. unfold states. rewrite A, B. intros [<-|[<-|[]]]; reflexivity. }
  unfold refresh in H. apply bind_inv in H as [(m & w1 & H1 & H)|(e & H1 & ->)]; apply quiet_cache_meta in H1; [|left; split; [now apply Q|discriminate]].
  destruct m as [m|]; [|injection H as <- <-; left; split; [now apply Q|discriminate]].
  apply bind_inv in H as [(m2 & w2 & H2 & H)|(e & H2 & ->)]; apply quiet_cache_meta in H2; apply (same_trans _ _ _ H1) in H2; [|left; split; [now apply Q|discriminate]].
  apply bind_inv in H as [(m3 & w3 & H3 & H)|(e & H3 & ->)].
  2:{ match type of H3 with ?t w2 = _ => assert (Qt : quiet t) by quiet_tac end. apply Qt in H3. apply (same_trans _ _ _ H2) in H3. left; split; [now apply Q|discriminate]. }
  match type of H3 with ?t w2 = _ => assert (Qt : quiet t) by quiet_tac end. apply Qt in H3. apply (same_trans _ _ _ H2) in H3. clear Qt.
  apply bind_inv in H as [(m4 & w4 & H4 & H)|(e & H4 & ->)]; (match type of H4 with ?t w3 = _ => assert (Qt : quiet t) by quiet_tac end); apply Qt in H4; apply (same_trans _ _ _ H3) in H4; clear Qt; [|left; split; [now apply Q|discriminate]].
  apply bind_inv in H as [(m5 & w5 & H5 & H)|(e & H5 & ->)]; (match type of H5 with ?t w4 = _ => assert (Qt : quiet t) by quiet_tac end); apply Qt in H5; apply (same_trans _ _ _ H4) in H5; clear Qt; [|left; split; [now apply Q|discriminate]].
  unfold bind at 1, ret at 1 in H. destruct b; [injection H as <- <-; left; split; [now apply Q|reflexivity]|].
  assert (Fi : fine D x fs).
  { split; [assumption|]. split; [apply (look_above fs D x []); congruence|]. intros t E. congruence. }
  destruct (look_some fs (D ++ [x])) as (n & Gp); [congruence|].
  assert (N : not_dir n). { intros ys es ->. unfold look in L. rewrite Gp in L. discriminate. }
  pose proof H5 as (A1 & A2 & A3 & A4). cbn [start w_fs w_cwd w_hist w_fault] in A1, A2, A3, A4.
  assert (Cr : forall r6 w6, crumple K (path_of (D ++ [x])) w5 = (r6, w6) ->
     (same w5 w6 /\ exists e, r6 = Err e) \/ (changed (w_fs w6) w5 w6 /\ trashed_to K D x TR fs w6 r6 fault)).
  { intros r6 w6 H6. pose proof (crumple_run K D x TR Hx T1 w5 r6 w6 n) as C. rewrite A1, A4 in C. now apply C. }
  apply bind_inv in H as [(t & w6 & H6 & H)|(e & H6 & ->)]; apply Cr in H6 as [(S6 & e' & Q6)|(C6 & m' & i & y & Rm & Ei & Hy & Er & Hc & Nd & Mv)]; try discriminate.
  - injection H as <- <-. right. split; [reflexivity|]. split; [reflexivity|]. exists y. rewrite L in Rm. split; [destruct Hc as [->|[-> _]]; [right; exists m', i; now repeat split|now left]|].
    intros s Is. destruct C6 as (_ & C2 & C3 & _). rewrite A3 in C3. unfold states in Is. rewrite C3 in Is. destruct Is as [<-|[<-|[<-|[]]]]; [right|right|now left];
      destruct Mv as (_ & M1 & M2 & M3); (split; [congruence|split; assumption]).
  - left. split; [|discriminate]. apply Q. now apply (same_trans _ w5).
Qed.

(** ** As statements about runs *)
Section Statements.
Variables (K : conf) (D : place) (x : str) (TR : place) (E : place) (y : str) (fs : node) (cwd : place) (fault : nat -> option exn) (d : bytes) (xs : Fs.xattrs) (R : asked).
Notation P := (D ++ [x]).
Notation p := (path_of (D ++ [x])).
Notation T := (E ++ [y]).
Notation U := (E ++ [$".unlink-" ++ y]).
Hypothesis Hx : good_name x.
Hypothesis Hy : good_name y.
Hypothesis G : good_fs fs.
Hypothesis L : look fs P = Some (AFile d xs).
Hypothesis Tr : trash_at K fs TR P.
Hypothesis Hi : usable_id K x (Some (AFile d xs)).
Hypothesis He : is_dir_at fs E.
Hypothesis N1 : P <> T.
Hypothesis N2 : P <> U.
Hypothesis N3 : E <> TR.
Hypothesis Ho : honest fault.
Hypothesis Hc : confined P (c_refresh K p).
Hypothesis Nv : forall w a w', c_refresh K p w = (Ok a, w') -> exists d' xs', look (w_fs w') P = Some (AFile d' xs').
Hypothesis Et : a_target R = path_of T.

Lemma update_cache_safe mine given f r w' :
  (mine = Some p /\ given = None \/ mine = None /\ given = Some p) ->
  update_cache K R mine given f (start fs cwd fault) = (r, w') ->
  forall s, In s (states w') -> content s P = Some d \/ content s T = Some d \/ exists z, look s (TR ++ [z]) = Some (AFile d xs).
Proof.
  destruct Tr as (T1 & T2 & T3). intros Mg H s Is.
  destruct (update_cache_gen K D x TR E y fs d xs Hx T1 Hc G L T2 T3 Hi Hy He N1 N2 N3 R f (start fs cwd fault) r w' Et Nv eq_refl Ho) as [(_ & _ & l & El & Fl) Q].
  - destruct Mg as [[-> ->]|[-> ->]]; [now left|now right].
  - destruct Is as [<-|Is]; [exact Q|]. rewrite El in Is. apply in_app_iff in Is as [Is|[<-|[]]]; [now apply (proj1 (Forall_forall _ _) Fl)|].
    left. unfold content. now rewrite L.
Qed.

Lemma update_cache_moves f df w' : (forall t, fault t = None) -> look fs T = None -> ~ below P T -> ~ is_dir_at fs U ->
  (pp_name p <> a_name R \/ exists i w0, cache_id K (path_of D) (start fs cwd fault) = (Ok i, w0) /\ py_eq (a_parent R) i = false) ->
  update_cache K R (Some p) None f (start fs cwd fault) = (Ok df, w') ->
  look (w_fs w') P = None /\ exists d' xs', look (w_fs w') T = Some (AFile d' xs') /\
    (d' = d /\ (forall q, ~ below P q -> q <> T -> q <> U -> look (w_fs w') q = look fs q) \/
     exists z, ~ is_dir_at fs (TR ++ [z]) /\ look (w_fs w') (TR ++ [z]) = Some (AFile d xs) /\
       (forall q, ~ below P q -> q <> T -> q <> U -> q <> TR ++ [z] -> look (w_fs w') q = look fs q)).
Proof.
  destruct Tr as (T1 & T2 & T3). intros Nf Lt Nbt Nu Ch H.
  unfold update_cache in H. apply bind_inv in H as [(ch & w1 & H1 & H)|(e & H1 & Q)]; [|discriminate].
  assert (Ech : negb (str_eqb (pp_name p) (a_name R)) || ch = true).
  { destruct Ch as [Ch|(i & w0 & C1 & C2)].
    - apply orb_true_iff. left. apply negb_true_iff. now apply str_eqb_neq.
    - apply orb_true_iff. right. unfold parent_changed in H1. rewrite pp_parent_of in H1. unfold bind, ret in H1. rewrite C1 in H1. injection H1 as <- <-. now rewrite C2. }
  apply quiet_parent_changed in H1.
  apply bind_inv in H as [(m & w2 & H2 & H)|(e & H2 & Q)]; [|discriminate]. apply quiet_lift in H2. apply (same_trans _ _ _ H1) in H2.
  apply bind_inv in H as [(df' & w3 & H3 & H)|(e & H3 & Q)]; [|discriminate].
  apply bind_inv in H as [(u & w4 & H4 & H)|(e & H4 & Q)]; [|discriminate]. injection H as -> <-.
  rewrite Ech in H4. cbn [when] in H4. apply bind_inv in H4 as [(t & w5 & H5 & H4)|(e & H5 & Q)]; [|discriminate]. injection H4 as _ ->.
  destruct H2 as (A1 & A2 & A3 & A4). cbn [start w_fs w_cwd w_hist w_fault] in A1, A2, A3, A4.
  destruct (update_gen K D x TR fs d xs Hx T1 Hc G L T2 T3 Hi m f w2 _ _ A1 (eq_ind_r honest Ho A4) H3) as (R3 & _ & S3). specialize (S3 Nv df eq_refl).
  assert (F3 : w_fault w3 = fault) by (destruct R3 as (-> & _); exact A4).
  destruct S3 as (G3 & S3). rewrite Et in H5.
  assert (Nbu : ~ below P U). { intros (l & Q). pose proof Q as Q'. destruct l as [|a l] using rev_ind; [apply N2; now rewrite app_nil_r in Q|]. rewrite app_assoc in Q. apply app_inj_tail in Q as [Q _].
    apply Nbt. exists (l ++ [y]). now rewrite app_assoc, Q. }
  assert (De : exists d' xs', look (w_fs w3) P = Some (AFile d' xs') /\ is_dir_at (w_fs w3) E /\ look (w_fs w3) T = None /\ ~ is_dir_at (w_fs w3) U /\
     (d' = d /\ (forall q, ~ below P q -> look (w_fs w3) q = look fs q) \/
      exists z, ~ is_dir_at fs (TR ++ [z]) /\ look (w_fs w3) (TR ++ [z]) = Some (AFile d xs) /\ (forall q, ~ below P q -> q <> TR ++ [z] -> look (w_fs w3) q = look fs q))).
  { pose proof (E_not_below D x E fs d xs L He) as Ne. destruct He as (zs & Le).
    destruct S3 as [(xs' & L3 & O)|(z & d' & xs' & Nd & L3 & Lz & O)].
    - exists d, xs'. split; [assumption|]. split; [exists zs; rewrite O; assumption|]. split; [rewrite O; assumption|]. split; [unfold is_dir_at; rewrite O; assumption|]. left. now split.
    - exists d', xs'. split; [assumption|]. split; [exists zs; rewrite O; [assumption|assumption|]; intros Q; apply Nd; rewrite <- Q; now exists zs|].
      assert (Ntz : T <> TR ++ [z] /\ U <> TR ++ [z]) by (split; intro Q; apply app_inj_tail in Q as [Q _]; contradiction).
      split; [rewrite O; tauto|]. split; [unfold is_dir_at; rewrite O; tauto|]. right. exists z. now repeat split. }
  destruct De as (d' & xs' & L3 & E3 & LT & LU & De).
  destruct (move_run K D x E y (w_fs w3) d' xs' Hx Hy G3 L3 E3 N1 N2 true w3 _ _ eq_refl (eq_ind_r honest Ho F3) H5) as [_ (_ & [((_ & _ & B1 & _) & B2 & B3)|(_ & [(k & e & Q)|[(ys & Q)|Q]])])]; [|rewrite F3 in Q; congruence|congruence|contradiction].
  split; [assumption|]. exists d', xs'. split; [assumption|].
  destruct De as [(-> & O)|(z & Nd & Lz & O)]; [left; split; [reflexivity|]|right; exists z; split; [assumption|]; split].
  - intros q Nq Q1 Q2. rewrite B1; [now apply O|intros ->; apply Nq, below_refl|assumption|assumption].
  - rewrite B1; [assumption| | |]; intro Q.
    + apply T3. rewrite <- Q. apply below_app.
    + apply app_inj_tail in Q as [Q _]. congruence.
    + apply app_inj_tail in Q as [Q _]. congruence.
  - intros q Nq Q1 Q2 Q3. rewrite B1; [now apply O|intros ->; apply Nq, below_refl|assumption|assumption].
Qed.
End Statements.

Lemma update_cache_refuses K R c f w :
  (forall c', update_cache K R (Some c) (Some c') f w = (Err TypeError, w)) /\
  forall r w', update_cache K R None (Some c) f w = (r, w') ->
    pp_name c <> a_name R \/ (exists i w0, cache_id K (pp_parent c) w = (Ok i, w0) /\ py_eq (a_parent R) i = false) ->
    (exists e, r = Err e /\ (e = ValueError \/ exists w0, cache_id K (pp_parent c) w = (Err e, w0))) /\ w_fs w' = w_fs w /\ w_hist w' = w_hist w.
Proof.
  split; [reflexivity|]. intros r w' H Ch. unfold update_cache in H.
  apply bind_inv in H as [(ch & w1 & H1 & H)|(e & H1 & ->)]; pose proof H1 as S1; apply quiet_parent_changed in S1.
  - assert (Q : r = Err ValueError /\ w' = w1).
    { destruct (str_eqb (pp_name c) (a_name R)) eqn:Eq; cbn [negb] in H; [apply str_eqb_eq in Eq|injection H as <- <-; now split].
      destruct Ch as [Ch|(i & w0 & C1 & C2)]; [contradiction|]. unfold parent_changed, bind, ret in H1. rewrite C1 in H1. injection H1 as <- <-. rewrite C2 in H. injection H as <- <-. now split. }
    destruct Q as [-> ->]. split; [eexists; split; [reflexivity|now left]|]. destruct S1 as (A & _ & B & _). now split.
  - split; [|destruct S1 as (A & _ & B & _); now split]. exists e. split; [reflexivity|]. right.
    unfold parent_changed in H1. apply bind_inv in H1 as [(i & w2 & _ & Q)|(e' & Q & Q2)]; [discriminate|]. injection Q2 as ->. eauto.
Qed.
