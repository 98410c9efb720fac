From Coq Require Import String Strings.Byte NArith ZArith Bool List Lia.
From Verif Require Import Model.Py Model.PurePath Model.Meta Model.MetaXattr Model.MetaUpdate Model.Fs Model.PathOps Model.Listing Model.Cache Model.DataDir Model.Anchor
  Spec.FsSpec Spec.LoopSpec Spec.AnchorSpec Proofs.PyLemmas Proofs.FsLemmas Proofs.RunLemmas Proofs.RmtreeProofs Proofs.Hoare Proofs.ListProofs Proofs.CacheLemmas.
Import ListNotations.

Lemma abind_inv {A B} (m : act A) (f : A -> act B) k w r s : abind m f k w = (r, s) ->
  (exists a k1 w1, m k w = (AOk a, (k1, w1)) /\ f a k1 w1 = (r, s)) \/ (exists e, m k w = (AErr e, s) /\ r = AErr e).
Proof.
  unfold abind. destruct (m k w) as [[a|e] [k1 w1]]; intro H; [left; eauto 6|right]. injection H as <- <-. eauto.
Qed.
Lemma onfs_inv {A} (m : M A) k w r k1 w1 : onfs m k w = (r, (k1, w1)) ->
  k1 = k /\ ((exists a, r = AOk a /\ m w = (Ok a, w1)) \/ (exists e, r = AErr (AE e) /\ m w = (Err e, w1))).
Proof. unfold onfs. destruct (m w) as [[a|e] w2]; intro H; injection H as <- <- <-; eauto 6. Qed.

Ltac step H := apply abind_inv in H; destruct H as [(?a & ?k & ?w & ?H & H)|(?e & ?H & ->)].

(** ** What is read with faults that are errors is read without them. *)
Definition calm (w : world) : world := start (w_fs w) (w_cwd w) (fun _ => None).
Definition firm {A} (m : M A) : Prop := forall w r w', honest (w_fault w) -> m w = (r, w') ->
  (exists t e, w_fault w t = Some e /\ r = Err e) \/
  forall v, no_fault v -> w_fs v = w_fs w -> w_cwd v = w_cwd w -> exists v', m v = (r, v') /\ same v v'.
Lemma firm_val {A} (x : res A) : firm (fun w => (x, w)).
Proof. intros w r w' _ H. injection H as <- <-. right. intros v N _ _. exists v. split; [reflexivity|apply same_refl]. Qed.
Lemma firm_ask {A} (f : node -> place -> res A) : firm (ask f).
Proof.
  intros w r w' _ H. unfold ask in H. destruct (w_fault w (w_tick w)) as [e|] eqn:E; injection H as <- <-; [left; eauto|].
  right. intros v N Ef Ec. apply ask_ok; [exact N|]. now rewrite Ef, Ec.
Qed.
Lemma firm_bind {A B} (m : M A) (f : A -> M B) : quiet m -> firm m -> (forall a, firm (f a)) -> firm (bind m f).
Proof.
  intros Q Fm Ff w r w' Ho H. apply bind_inv in H as [(a & w1 & H1 & H)|(e & H1 & ->)].
  - pose proof (Q _ _ _ H1) as (S1 & S2 & _ & S4). apply (Fm _ _ _ Ho) in H1 as [(t & e & _ & Z)|H1]; [discriminate|].
    apply Ff in H; [|now rewrite S4]. rewrite S4, S1, S2 in H. destruct H as [H|H]; [now left|]. right. intros v N Ef Ec.
    destruct (H1 v N Ef Ec) as (v1 & E1 & V). pose proof V as (V1 & V2 & _). destruct (H v1) as (v2 & E2 & V'); [now apply (no_fault_same v)|congruence|congruence|].
    exists v2. split; [unfold bind; now rewrite E1|]. now apply (same_trans _ v1).
  - apply (Fm _ _ _ Ho) in H1 as [(t & e' & T & Z)|H1]; [left; exists t, e'; split; [exact T|congruence]|]. right. intros v N Ef Ec.
    destruct (H1 v N Ef Ec) as (v1 & E1 & V). exists v1. split; [unfold bind; now rewrite E1|exact V].
Qed.
Lemma firm_catch {A} (m : M A) (h : exn -> M A) : quiet m -> firm m -> (forall e, firm (h e)) ->
  (forall e, e = KeyboardInterrupt \/ (exists n, e = OSErr n /\ n <> ENOENT /\ n <> ENOTDIR /\ n <> ELOOP) -> forall w, h e w = (Err e, w)) -> firm (catch m h).
Proof.
  intros Q Fm Ff Hh w r w' Ho H. apply catch_inv in H as [(a & H1 & ->)|(e & w1 & H1 & H)].
  - apply (Fm _ _ _ Ho) in H1 as [(t & e & _ & Z)|H1]; [discriminate|]. right. intros v N Ef Ec.
    destruct (H1 v N Ef Ec) as (v1 & E1 & V). exists v1. split; [unfold catch; now rewrite E1|exact V].
  - pose proof (Q _ _ _ H1) as (S1 & S2 & _ & S4). apply (Fm _ _ _ Ho) in H1 as [(t & e' & T & Z)|H1].
    + injection Z as ->. rewrite (Hh _ (Ho _ _ T)) in H. injection H as <- _. left. eauto.
    + apply Ff in H; [|now rewrite S4]. rewrite S4, S1, S2 in H. destruct H as [H|H]; [now left|]. right. intros v N Ef Ec.
      destruct (H1 v N Ef Ec) as (v1 & E1 & V). pose proof V as (V1 & V2 & _). destruct (H v1) as (v2 & E2 & V'); [now apply (no_fault_same v)|congruence|congruence|].
      exists v2. split; [unfold catch; now rewrite E1|]. now apply (same_trans _ v1).
Qed.
Lemma firm_test f p g : firm (test (sys_stat f p) g).
Proof.
  unfold test. apply firm_catch.
  - apply quiet_bind; [apply quiet_ask|intro; apply quiet_ret].
  - apply firm_bind; [apply quiet_ask|apply firm_ask|intro; apply firm_val].
  - intro e. destruct (ignored e); apply firm_val.
  - intros e [->|(n & -> & A & B & C)] w; [reflexivity|]. destruct n; try reflexivity; congruence.
Qed.

Section Anchor.
Variables (K : conf) (flavoured : bool) (far : node -> place -> ppath -> res ppath) (trash : ppath -> option ppath)
  (api : pyval -> res pyval) (root_name : pyval -> res str) (root_kind : pyval -> res (option bool)).
Notation toCache := (anchorToCache K api).
Notation here := (anchorClassHere K flavoured far trash api).
Notation init := (cache_init K flavoured far trash api).
Notation rootpath := (local_root_path root_name).
Notation drop := (dropAnchor K flavoured far trash api root_name root_kind).
Notation smart := (smartAnchor K flavoured far trash api root_name root_kind).
Notation anchorTo' := (anchorTo K flavoured far trash api root_name root_kind).
Notation perform' := (perform K flavoured far trash api root_name root_kind).

Lemma quiet_xattrs p : quiet (p_xattrs p). Proof. apply quiet_ask. Qed.
Hint Resolve quiet_xattrs : quiet.
Lemma quiet_meta p : quiet (cache_meta K p).
Proof. unfold cache_meta, eat_meta, symlink_meta. quiet_tac. Qed.
Hint Resolve quiet_meta : quiet.
Lemma quiet_id p : quiet (cache_id K p).
Proof. unfold cache_id. quiet_tac. Qed.

Lemma firm_meta p : firm (cache_meta K p).
Proof.
  unfold cache_meta, eat_meta, symlink_meta.
  assert (Fl : forall A (x : res A), firm (lift x)) by (intros; apply firm_val).
  assert (Fx : firm (p_xattrs p)) by apply firm_ask.
  repeat first
    [ apply firm_val | apply firm_ask | apply firm_test | apply Fl | apply Fx
    | apply firm_bind; [solve [quiet_tac]| |intro]
    | apply firm_catch; [solve [quiet_tac]| |intro|]
    | match goal with |- firm (match ?x with _ => _ end) => destruct x end
    | match goal with |- firm (if ?x then _ else _) => destruct x end ].
  intros e [->|(n & -> & _)] w; reflexivity.
Qed.
Lemma firm_id p : firm (cache_id K p).
Proof. unfold cache_id. apply firm_bind; [apply quiet_meta|apply firm_meta|]. intros [m|]; [destruct (meta_bool m)|]; apply firm_val. Qed.
(** ** anchorToCache *)
Definition rooted (k : classes) (w : world) (p : ppath) : Prop := honest (w_fault w) -> is_root K k w p.
Lemma toCache_anchored c i k w a : k_remote k = Some a -> toCache c i k w = (AErr (AE ValueError), (k, w)).
Proof. intro E. unfold anchorToCache, abind, now. now rewrite E. Qed.
Lemma toCache_run c i k w r k' w' : toCache c i k w = (r, (k', w')) -> k_remote k = None ->
  same w w' /\ True /\ k_cache k' = k_cache k /\ k_remote_root k' = k_remote_root k /\
  match r with
  | AOk p => p = c /\ k_remote k' = Some c /\ rooted k' w' c
  | AErr _ => k_remote k' = None
  end.
Proof.
  intros H E. unfold anchorToCache in H. unfold abind at 1, now at 1 in H. rewrite E in H.
  set (P := fun (k1 : classes) (w1 : world) => same w w1 /\ True /\ k_cache k1 = k_cache k /\
              k_remote_root k1 = k_remote_root k /\ k_remote k1 = None).
  assert (Sm : forall A (m : M A) k0 w0 r0 k1 w1, quiet m -> P k0 w0 -> onfs m k0 w0 = (r0, (k1, w1)) -> P k1 w1).
  { intros A m k0 w0 r0 k1 w1 Q (A1 & A2 & A3 & A4 & A5) Z. apply onfs_inv in Z as [-> Z].
    assert (S : same w0 w1) by (destruct Z as [(a & _ & Z)|(e & _ & Z)]; now apply Q in Z).
    split; [exact (same_trans _ _ _ A1 S)|]. now repeat split. }
  assert (P0 : P k w) by (split; [apply same_refl|now repeat split]).
  assert (Fin : forall k1 w1, P k1 w1 -> same w w1 /\ True /\ k_cache k1 = k_cache k /\
              k_remote_root k1 = k_remote_root k /\ k_remote k1 = None) by (intros; assumption).
  apply abind_inv in H as [([] & k1 & w1 & H1 & H)|(e & H1 & ->)].
  2:{ apply Fin. destruct i; [|discriminate]. destruct (k_root k); [discriminate|].
      apply abind_inv in H1 as [(j & k2 & w2 & H2 & H1)|(e' & H2 & _)]; [|now apply (Sm _ _ _ _ _ _ _ (quiet_id c) P0 H2)].
      pose proof (Sm _ _ _ _ _ _ _ (quiet_id c) P0 H2) as P2.
      apply abind_inv in H1 as [(j' & k3 & w3 & H3 & H1)|(e' & H3 & _)]; [discriminate|now apply (Sm _ _ _ _ _ _ _ (quiet_lift _) P2 H3)]. }
  assert (P1 : P k1 w1).
  { destruct i; [|injection H1 as <- <-; exact P0]. destruct (k_root k); [injection H1 as <- <-; exact P0|].
    apply abind_inv in H1 as [(j & k2 & w2 & H2 & H1)|(e' & _ & H2)]; [|discriminate].
    pose proof (Sm _ _ _ _ _ _ _ (quiet_id c) P0 H2) as P2.
    apply abind_inv in H1 as [(j' & k3 & w3 & H3 & H1)|(e' & _ & H3)]; [|discriminate].
    pose proof (Sm _ _ _ _ _ _ _ (quiet_lift _) P2 H3) as P3. injection H1 as <- <-. destruct P3 as (A1 & A2 & A3 & A4 & A5). split; [exact A1|now repeat split]. }
  unfold abind at 1, now at 1 in H.
  apply abind_inv in H as [([] & k2 & w2 & H2 & H)|(e & H2 & ->)].
  2:{ apply Fin. destruct (k_root k1) as [ro|]; [|discriminate].
      apply abind_inv in H2 as [(j & k3 & w3 & H3 & H2)|(e' & H3 & _)]; [|now apply (Sm _ _ _ _ _ _ _ (quiet_id c) P1 H3)].
      pose proof (Sm _ _ _ _ _ _ _ (quiet_id c) P1 H3) as P3.
      destruct (py_eq ro j); [discriminate|]. destruct (k_remote_root k1); [destruct (py_eq p j); [discriminate|]|]; injection H2 as _ <- <-; exact P3. }
  assert (Q2 : P k2 w2 /\ rooted k1 w2 c /\ k2 = k1).
  { destruct (k_root k1) as [ro|] eqn:Er.
    2:{ injection H2 as <- <-. split; [exact P1|]. split; [intros _ r0 E0; congruence|reflexivity]. }
    apply abind_inv in H2 as [(j & k3 & w3 & H3 & H2)|(e' & _ & H3)]; [|discriminate].
    pose proof (Sm _ _ _ _ _ _ _ (quiet_id c) P1 H3) as P3.
    apply onfs_inv in H3 as [-> [(j' & Ej & H3)|(e' & Ej & _)]]; [|discriminate]. injection Ej as <-.
    assert (Id : honest (w_fault w3) -> id_at K (w_fs w3) (w_cwd w3) c j).
    { intro Ho. pose proof (quiet_id _ _ _ _ H3) as (S1 & S2 & _ & S4). rewrite S4 in Ho. apply (firm_id c _ _ _ Ho) in H3 as [(t & e & _ & Z)|H3]; [discriminate|].
      destruct (H3 (calm w3)) as (v & E3 & _); [now intro|exact S1|exact S2|]. now exists v. }
    destruct (py_eq ro j) eqn:Ep.
    - injection H2 as <- <-. split; [exact P3|]. split; [|reflexivity]. intros Ho r0 E0. exists j. split; [exact (Id Ho)|]. left. congruence.
    - destruct (k_remote_root k1) as [rr|] eqn:Err; [|discriminate]. destruct (py_eq rr j) eqn:Ep2; [|discriminate].
      injection H2 as <- <-. split; [exact P3|]. split; [|reflexivity]. intros Ho r0 E0. exists j. split; [exact (Id Ho)|]. right. eauto. }
  destruct Q2 as ((B1 & B2 & B3 & B4 & B5) & R2 & ->). cbn in H. injection H as <- <- <-.
  cbn [k_cache k_remote_root k_remote with_remote]. split; [exact B1|]. repeat split; try assumption.
Qed.

Lemma onfs_classes {A} (m : M A) k w r k1 w1 : onfs m k w = (r, (k1, w1)) -> k1 = k.
Proof. intro H. now apply onfs_inv in H. Qed.

(** ** anchorClassHere *)
Lemma here_run c k w r k' w' : here c k w = (r, (k', w')) ->
  (forall a, k_remote k = Some a -> k_remote k' = Some a /\ exists e, r = AErr e) /\
  (k_remote k = None -> match r with
                        | AErr _ => k_remote k' = None
                        | AOk _ => k_remote k' = Some c /\ k_cache k' = Some c /\ rooted k' w' c
                        end).
Proof.
  intro H. unfold anchorClassHere in H. unfold abind at 1, now at 1 in H.
  apply abind_inv in H as [([] & k1 & w1 & H1 & H)|(e & H1 & ->)].
  2:{ assert (k' = k) as -> by (destruct flavoured; [discriminate|destruct (k_cache k); [|discriminate]]; now injection H1 as _ <- _).
      split; [intros a E; split; [exact E|eauto]|tauto]. }
  assert (k1 = k /\ w1 = w) as [-> ->] by (destruct flavoured; [now injection H1 as <- <-|destruct (k_cache k); [discriminate|now injection H1 as <- <-]]).
  clear H1. unfold abind at 1, become at 1 in H.
  apply abind_inv in H as [([] & k1 & w1 & H1 & H)|(e & H1 & ->)].
  2:{ apply onfs_classes in H1. subst k'. cbn [k_remote with_cache]. split; [intros a E; split; [exact E|eauto]|tauto]. }
  apply onfs_classes in H1. subst k1.
  apply abind_inv in H as [(p & k2 & w2 & H2 & H)|(e & H2 & ->)].
  - injection H as <- <- <-. split.
    + intros a E. rewrite (toCache_anchored c true (with_cache (Some c) k) w1 a) in H2 by exact E. discriminate.
    + intro E. destruct (toCache_run _ _ _ _ _ _ _ H2 E) as (_ & _ & C & _ & -> & R & I). now repeat split.
  - split.
    + intros a E. rewrite (toCache_anchored c true (with_cache (Some c) k) w1 a) in H2 by exact E. injection H2 as _ <- _. split; [exact E|eauto].
    + intro E. now destruct (toCache_run _ _ _ _ _ _ _ H2 E) as (_ & _ & _ & _ & R).
Qed.

(** ** cache_init *)
Lemma init_run p i an k w r k' w' : init p i an k w = (r, (k', w')) ->
  (forall a, k_remote k = Some a -> k_remote k' = Some a /\ (an = true -> exists e, r = AErr e)) /\
  (k_remote k = None -> match r with
                        | AErr _ => k_remote k' = None
                        | AOk c => c = p /\ if an then k_remote k' = Some p /\ k_cache k' = Some p /\ rooted k' w' p else k' = k
                        end).
Proof.
  intro H. unfold cache_init in H.
  match goal with |- ?g => set (goal := g) end.
  assert (Same : forall e : aexn, r = AErr e -> k' = k -> goal).
  { intros e -> ->. unfold goal. split; [intros a E; split; [exact E|eauto]|tauto]. }
  apply abind_inv in H as [(m & k1 & w1 & H1 & H)|(e & H1 & ->)]; [|apply onfs_classes in H1; now apply (Same e)].
  apply onfs_classes in H1. subst k1. destruct (meta_true m); [injection H as <- <- <-; now apply (Same CacheExists)|].
  apply abind_inv in H as [(ex & k1 & w2 & H1 & H)|(e & H1 & ->)]; [|apply onfs_classes in H1; now apply (Same e)].
  apply onfs_classes in H1. subst k1. destruct (negb ex); [injection H as <- <- <-; now apply (Same (AE ValueError))|].
  apply abind_inv in H as [(n & k1 & w3 & H1 & H)|(e & H1 & ->)]; [|apply onfs_classes in H1; now apply (Same e)].
  apply onfs_classes in H1. subst k1.
  assert (Up : forall r0 k0 w0, (if meta_bool n then abind (onfs (meta_updater K p (Some n) true)) (fun _ => aret tt)
    else match m with None => araise (AE NoCachedMetadataError) | Some _ => aret tt end) k w3 = (r0, (k0, w0)) -> k0 = k).
  { intros r0 k0 w0 Z. destruct (meta_bool n).
    - apply abind_inv in Z as [(d & k1 & w4 & Z1 & Z)|(e & Z1 & ->)]; apply onfs_classes in Z1; [|exact Z1]. injection Z as _ <- _. exact Z1.
    - destruct m; now injection Z as _ <- _. }
  apply abind_inv in H as [([] & k1 & w4 & H1 & H)|(e & H1 & ->)]; [|apply Up in H1; now apply (Same e)].
  apply Up in H1. subst k1. destruct an.
  - apply abind_inv in H as [([] & k1 & w5 & H1 & H)|(e & H1 & ->)]; apply here_run in H1 as [A B].
    + injection H as <- <- <-. unfold goal. split.
      * intros a E. destruct (A a E) as (_ & e & Z). discriminate.
      * intro E. split; [reflexivity|now apply B].
    + unfold goal. split; [intros a E; destruct (A a E) as (Z & _); split; [exact Z|eauto]|exact B].
  - cbn in H. injection H as <- <- <-. unfold goal. split; [intros a E; split; [exact E|discriminate]|tauto].
Qed.

Lemma rootpath_run d k w r k' w' : rootpath d k w = (r, (k', w')) -> k' = k /\ same w w' /\
  forall ro p, r = AOk (ro, p) -> k_root k = Some ro /\ exists n, root_name ro = Ok n /\ p = child (match d with Some d => d | None => mkPP true (w_cwd w) end) n.
Proof.
  intro H. unfold local_root_path in H.
  assert (Z : forall r0 k0 w0, match d with Some d => aret d | None => onfs (ask (fun _ cwd => Ok (mkPP true cwd))) end k w = (r0, (k0, w0)) ->
    k0 = k /\ same w w0 /\ forall q, r0 = AOk q -> q = match d with Some d => d | None => mkPP true (w_cwd w) end).
  { intros r0 k0 w0 E. destruct d as [d|].
    - injection E as <- <- <-. split; [reflexivity|]. split; [apply same_refl|]. intros q E. now injection E as <-.
    - apply onfs_inv in E as [-> E]. split; [reflexivity|].
      destruct E as [(a & -> & E)|(e & -> & E)]; apply ask_inv in E as [S E]; (split; [exact S|]); intros q Eq; [|discriminate].
      injection Eq as <-. destruct E as [E|(e & E & _)]; [|discriminate]. now apply Ok_inj in E. }
  apply abind_inv in H as [(q & k1 & w1 & H1 & H)|(e & H1 & ->)].
  2:{ apply Z in H1 as (-> & S & _). split; [reflexivity|]. split; [exact S|]. intros; discriminate. }
  apply Z in H1 as (-> & S & Eq). specialize (Eq _ eq_refl). subst q. unfold abind at 1, now at 1 in H.
  destruct (k_root k) as [ro|] eqn:Er.
  2:{ injection H as <- <- <-. split; [reflexivity|]. split; [exact S|]. intros; discriminate. }
  apply abind_inv in H as [(n & k2 & w2 & H2 & H)|(e & H2 & ->)].
  - apply onfs_inv in H2 as [-> [(a & Ea & H2)|(e & Ea & _)]]; [|discriminate]. injection Ea as <-. injection H2 as H2 <-.
    injection H as <- <- <-. split; [reflexivity|]. split; [exact S|]. intros ro' p E. injection E as <- <-. split; [reflexivity|]. eauto.
  - apply onfs_inv in H2 as [-> [(a & Ea & H2)|(e' & Ea & H2)]]; [discriminate|]. injection H2 as _ <-.
    split; [reflexivity|]. split; [exact S|]. intros; discriminate.
Qed.

(** ** dropAnchor *)
Lemma drop_anchored d k w a : k_remote k = Some a -> drop d k w = (AErr AlreadyAnchored, (k, w)).
Proof. intro E. unfold dropAnchor, abind, now. now rewrite E. Qed.
Lemma drop_run d k w r k' w' : drop d k w = (r, (k', w')) -> k_remote k = None ->
  match r with
  | AErr _ => k_remote k' = None
  | AOk p => k_remote k' = Some p /\ k_cache k' = Some p /\ rooted k' w' p /\
      exists ro n, k_root k = Some ro /\ root_name ro = Ok n /\ p = child (match d with Some d => d | None => mkPP true (w_cwd w) end) n
  end.
Proof.
  intros H E. unfold dropAnchor in H. unfold abind at 1, now at 1 in H. rewrite E in H.
  apply abind_inv in H as [([ro path] & k1 & w1 & H1 & H)|(e & H1 & ->)]; apply rootpath_run in H1 as (-> & _ & P); [|exact E].
  destruct (P _ _ eq_refl) as (Er & n & En & Ep). clear P.
  apply abind_inv in H as [(ex & k1 & w2 & H1 & H)|(e & H1 & ->)]; apply onfs_classes in H1; subst; [|exact E].
  set (path := child _ n) in *.
  match type of H with abind ?m _ _ _ = _ => assert (Mid : forall r0 k0 w0, m k w2 = (r0, (k0, w0)) -> k0 = k) end.
  { intros r0 k0 w0 Z. destruct (negb ex).
    - apply abind_inv in Z as [(what & k1 & w3 & Z1 & Z)|(e & Z1 & ->)]; apply onfs_classes in Z1; subst; [|reflexivity].
      destruct what as [[|]|]; [now apply onfs_classes in Z|now injection Z as _ <- _|now injection Z as _ <- _].
    - apply abind_inv in Z as [(m & k1 & w3 & Z1 & Z)|(e & Z1 & ->)]; apply onfs_classes in Z1; subst; [|reflexivity].
      apply abind_inv in Z as [(cs & k1 & w4 & Z1 & Z)|(e & Z1 & ->)]; apply onfs_classes in Z1; subst; [|reflexivity].
      destruct cs; now injection Z as _ <- _. }
  apply abind_inv in H as [([] & k1 & w3 & H1 & H)|(e & H1 & ->)]; apply Mid in H1; subst; [|exact E].
  apply abind_inv in H as [(c & k1 & w4 & H1 & H)|(e & H1 & ->)]; apply init_run in H1 as [_ B]; specialize (B E); [|exact B].
  destruct B as (-> & B1 & B2 & B3). cbn in H. injection H as <- <- <-. cbn [k_remote k_cache with_remote].
  split; [reflexivity|]. split; [exact B2|]. split; [exact B3|]. exists ro, n. now repeat split.
Qed.

(** ** smartAnchor *)
Lemma cached_classes p k w r k' w' : abind (onfs (cache_meta K p)) (fun m => aret (match m with Some _ => true | None => false end)) k w = (r, (k', w')) -> k' = k.
Proof.
  intro H. apply abind_inv in H as [(m & k3 & w4 & H & H1)|(e' & H & _)]; apply onfs_classes in H; [|exact H]. injection H1 as _ <- _. exact H.
Qed.
Lemma smart_run d k w r k' w' : smart d k w = (r, (k', w')) ->
  (forall a, k_remote k = Some a -> k_remote k' = Some a /\ forall p, r = AOk p -> p = a) /\
  (k_remote k = None -> match r with AErr _ => k_remote k' = None | AOk p => k_remote k' = Some p end).
Proof.
  intro H. unfold smartAnchor, acatch in H. destruct (drop d k w) as [[p|e] [k1 w1]] eqn:D.
  - injection H as <- <- <-. split.
    + intros a E. rewrite (drop_anchored d k w a E) in D. discriminate.
    + intro E. now destruct (drop_run _ _ _ _ _ _ D E) as (R & _).
  - assert (Pre : k_remote k1 = k_remote k).
    { destruct (k_remote k) as [a|] eqn:E; [rewrite (drop_anchored d k w a E) in D; now injection D as _ <- _|]. exact (drop_run _ _ _ _ _ _ D E). }
    assert (Ne : k_remote k <> None -> e = AlreadyAnchored).
    { intro N. destruct (k_remote k) as [a|] eqn:E; [|congruence]. rewrite (drop_anchored d k w a E) in D. now injection D as <- _ _. }
    set (goal := (forall a, k_remote k = Some a -> k_remote k' = Some a /\ forall p, r = AOk p -> p = a) /\
      (k_remote k = None -> match r with AErr _ => k_remote k' = None | AOk p => k_remote k' = Some p end)).
    assert (Same : forall e', r = AErr e' -> k' = k1 -> goal).
    { intros e' -> ->. unfold goal. rewrite Pre. split; [intros a E; split; [exact E|intros; discriminate]|tauto]. }
    destruct e as [e| | |]; [injection H as <- <- <-; now apply (Same (AE e))| | |].
    1,2: apply abind_inv in H as [([ro path] & k2 & w2 & H1 & H)|(e & H1 & ->)]; apply rootpath_run in H1 as (-> & _ & _); [|now apply (Same e)];
      apply abind_inv in H as [(h & k2 & w3 & H1 & H)|(e & H1 & ->)]; apply cached_classes in H1; subst; [|now apply (Same e)];
      (destruct h; [cbn in H; injection H as <- <- <-|injection H as <- <- <-; now eapply Same]);
      unfold goal; (split; [intros a E; assert (K0 : k_remote k <> None) by congruence; apply Ne in K0; discriminate|intros _; reflexivity]).
    apply abind_inv in H as [([ro path] & k2 & w2 & H1 & H)|(e & H1 & ->)]; apply rootpath_run in H1 as (-> & _ & _); [|now apply (Same e)].
    apply abind_inv in H as [(h & k2 & w3 & H1 & H)|(e & H1 & ->)]; apply cached_classes in H1; subst; [|now apply (Same e)].
    unfold abind at 1, now at 1 in H. destruct (k_remote k1) as [a|] eqn:E1; [|injection H as <- <- <-; now eapply Same].
    destruct (_ && _)%bool; [|injection H as <- <- <-; now eapply Same].
    injection H as <- <- <-. unfold goal. split.
    + intros b E. split; [congruence|]. intros p Ep. injection Ep as <-. congruence.
    + intro E. congruence.
Qed.

Lemma to_run p c k w r k' w' : anchorTo' p c k w = (r, (k', w')) ->
  (forall a, k_remote k = Some a -> k_remote k' = Some a /\ exists e, r = AErr e) /\
  (k_remote k = None -> match r with AErr _ => k_remote k' = None | AOk q => k_remote k' = Some q /\ rooted k' w' q end).
Proof.
  intro H. unfold anchorTo in H.
  set (goal := (forall a, k_remote k = Some a -> k_remote k' = Some a /\ exists e, r = AErr e) /\
    (k_remote k = None -> match r with AErr _ => k_remote k' = None | AOk q => k_remote k' = Some q /\ rooted k' w' q end)).
  assert (Same : forall e', r = AErr e' -> k' = k -> goal).
  { intros e' -> ->. unfold goal. split; [intros a E; split; [exact E|eauto]|tauto]. }
  apply abind_inv in H as [(m & k1 & w1 & H1 & H)|(e & H1 & ->)]; apply onfs_classes in H1; subst; [|now apply (Same e)].
  destruct m as [m|].
  - unfold goal. split.
    + intros a E. rewrite (toCache_anchored p true k w1 a E) in H. injection H as <- <- _. split; [exact E|eauto].
    + intro E. destruct (toCache_run _ _ _ _ _ _ _ H E) as (_ & _ & _ & _ & R). destruct r; [|exact R]. destruct R as (-> & R1 & R2). now split.
  - unfold abind at 1, now at 1 in H. destruct (k_root k) as [ro|]; [|injection H as <- <- <-; now eapply Same].
    apply abind_inv in H as [(n & k1 & w2 & H1 & H)|(e & H1 & ->)]; apply onfs_classes in H1; subst; [|now apply (Same e)].
    destruct (str_eqb _ _); [|injection H as <- <- <-; now eapply Same].
    destruct c; [|injection H as <- <- <-; now eapply Same].
    unfold goal. split.
    + intros a E. rewrite (drop_anchored _ k w2 a E) in H. injection H as <- <- _. split; [exact E|eauto].
    + intro E. pose proof (drop_run _ _ _ _ _ _ H E) as R. destruct r; [|exact R]. destruct R as (R1 & _ & R2 & _). now split.
Qed.

(** ** The calls *)
Lemma perform_stays c k w r k' w' a : perform' c k w = (r, (k', w')) -> c <> WeighRemote -> k_remote k = Some a ->
  k_remote k' = Some a /\ forall p, r = AOk (Some p) -> p = a.
Proof.
  intros H N E. destruct c as [d|d|c i|p b|c|p i b| |]; cbn [perform] in H.
  - apply abind_inv in H as [(q & k1 & w1 & H & H2)|(e & H & ->)]; rewrite (drop_anchored d k w a E) in H; [discriminate|].
    injection H as <- <- <-. split; [exact E|intros; discriminate].
  - apply abind_inv in H as [(q & k1 & w1 & H & H2)|(e & H & ->)]; apply smart_run in H as [A _]; destruct (A a E) as [B C].
    + injection H2 as <- <- <-. split; [exact B|]. intros p Ep. injection Ep as <-. now apply C.
    + split; [exact B|intros; discriminate].
  - apply abind_inv in H as [(q & k1 & w1 & H & H2)|(e & H & ->)]; rewrite (toCache_anchored c i k w a E) in H; [discriminate|].
    injection H as <- <- <-. split; [exact E|intros; discriminate].
  - apply abind_inv in H as [(q & k1 & w1 & H & H2)|(e & H & ->)]; apply to_run in H as [A _]; destruct (A a E) as (B & e0 & C); [discriminate|].
    split; [exact B|intros; discriminate].
  - apply abind_inv in H as [(q & k1 & w1 & H & H2)|(e & H & ->)]; apply here_run in H as [A _]; destruct (A a E) as (B & e0 & C); [discriminate|].
    split; [exact B|intros; discriminate].
  - apply abind_inv in H as [(q & k1 & w1 & H & H2)|(e & H & ->)]; apply init_run in H as [A _]; destruct (A a E) as (B & C).
    + injection H2 as <- <- <-. split; [exact B|intros; discriminate].
    + split; [exact B|intros; discriminate].
  - congruence.
  - cbn in H. injection H as <- <- <-. split; [exact E|intros; discriminate].
Qed.
Lemma perform_failed c k w e k' w' : perform' c k w = (AErr e, (k', w')) -> k_remote k = None -> k_remote k' = None.
Proof.
  intros H E. destruct c as [d|d|c i|p b|c|p i b| |]; cbn [perform] in H; try discriminate;
    apply abind_inv in H as [(q & k1 & w1 & H & H2)|(e' & H & H2)]; try discriminate.
  - exact (drop_run _ _ _ _ _ _ H E).
  - now apply smart_run in H as [_ B]; apply B.
  - now destruct (toCache_run _ _ _ _ _ _ _ H E) as (_ & _ & _ & _ & R).
  - now apply to_run in H as [_ B]; apply B.
  - now apply here_run in H as [_ B]; apply B.
  - now apply init_run in H as [_ B]; apply B.
Qed.
(** Where anything but smartAnchor drops the anchor is the root. *)
Lemma perform_root c k w r k' w' p : perform' c k w = (r, (k', w')) -> (forall d, c <> Smart d) -> k_remote k = None -> k_remote k' = Some p ->
  honest (w_fault w') -> is_root K k' w' p.
Proof.
  intros H N E E'. change (rooted k' w' p). destruct r as [q|e]; [|rewrite (perform_failed _ _ _ _ _ _ H E) in E'; discriminate].
  destruct c as [d|d|c i|p0 b|c|p0 i b| |]; cbn [perform] in H;
    try (apply abind_inv in H as [(q' & k1 & w1 & H & H2)|(e' & H & H2)]; [|discriminate]; injection H2 as <- <- <-).
  - destruct (drop_run _ _ _ _ _ _ H E) as (A & _ & B & _). rewrite A in E'. injection E' as <-. exact B.
  - now elim (N d).
  - destruct (toCache_run _ _ _ _ _ _ _ H E) as (_ & _ & _ & _ & -> & A & B). rewrite A in E'. injection E' as <-. exact B.
  - apply to_run in H as [_ A]. destruct (A E) as (A1 & B). rewrite A1 in E'. injection E' as <-. exact B.
  - apply here_run in H as [_ A]. destruct (A E) as (A1 & _ & B). rewrite A1 in E'. injection E' as <-. exact B.
  - apply init_run in H as [_ A]. destruct (A E) as (-> & A1). destruct b; [|congruence]. destruct A1 as (A1 & _ & B). rewrite A1 in E'. injection E' as <-. exact B.
  - injection H as _ <- _. discriminate.
  - injection H as _ <- _. cbn in E'. congruence.
Qed.
(** Both classes are anchored there. *)
Lemma perform_both c k w q k' w' p : perform' c k w = (AOk q, (k', w')) ->
  (exists d, c = Drop d) \/ (exists x, c = Here x) \/ (exists x i, c = Init x i true) -> k_remote k = None -> k_remote k' = Some p -> k_cache k' = Some p.
Proof.
  intros H [(d & ->)|[(x & ->)|(x & i & ->)]] E E'; cbn [perform] in H; apply abind_inv in H as [(q' & k1 & w1 & H & H2)|(e' & H & H2)]; try discriminate;
    injection H2 as <- <- <-.
  - destruct (drop_run _ _ _ _ _ _ H E) as (A & B & _). congruence.
  - apply here_run in H as [_ A]. destruct (A E) as (A1 & B & _). congruence.
  - apply init_run in H as [_ A]. destruct (A E) as (-> & A1 & B & _). congruence.
Qed.
Lemma perform_named d k w p k' w' : perform' (Drop d) k w = (AOk (Some p), (k', w')) ->
  k_remote k' = Some p /\ exists ro n, k_root k = Some ro /\ root_name ro = Ok n /\
    p = child (match d with Some d => d | None => mkPP true (w_cwd w) end) n.
Proof.
  intro H. cbn [perform] in H. apply abind_inv in H as [(q' & k1 & w1 & H & H2)|(e' & H & H2)]; [|discriminate]. injection H2 as <- <- <-.
  destruct (k_remote k) as [a|] eqn:E; [rewrite (drop_anchored d k w a E) in H; discriminate|].
  destruct (drop_run _ _ _ _ _ _ H E) as (A & _ & _ & B). now split.
Qed.
(** A directory with anything in it is not taken, and nothing is changed. *)
Lemma drop_nonempty D n x fs cwd fault k ro r k' w' :
  honest fault -> good_fs fs -> k_root k = Some ro -> root_name ro = Ok n -> k_cache k <> Some (path_of (D ++ [n])) ->
  is_dir_at fs (D ++ [n]) -> look fs (D ++ [n; x]) <> None ->
  perform' (Drop (Some (path_of D))) k (start fs cwd fault) = (r, (k', w')) ->
  (exists e, r = AErr e) /\ k' = k /\ Forall (eq fs) (states w').
Proof.
  intros Ho G Er En Ec (xs & Dn) Lx H.
  assert (exists es, get fs (D ++ [n]) = Some (Dir xs es) /\ es <> []) as (es & Gd & Ne).
  { unfold look in Dn, Lx. destruct (get fs (D ++ [n])) as [[?|? es|?]|] eqn:Gt; try discriminate. injection Dn as ->. exists es. split; [reflexivity|].
    intros ->. apply Lx. change [n; x] with ([n] ++ [x]). rewrite app_assoc, get_app, Gt. reflexivity. }
  assert (Fin : forall w1, same (start fs cwd fault) w1 -> Forall (eq fs) (states w1)).
  { intros w1 (A & _ & B & _). unfold states. rewrite A, B. repeat constructor. }
  cbn [perform] in H.
  assert (Hd : (exists e, drop (Some (path_of D)) k (start fs cwd fault) = (AErr e, (k', w')) /\ r = AErr e) \/
               exists p k1 w1, drop (Some (path_of D)) k (start fs cwd fault) = (AOk p, (k1, w1))).
  { apply abind_inv in H as [(p & k1 & w1 & H & H2)|(e & H & ->)]; eauto 6. }
  clear H. 
  assert (Go : forall r0 k0 w0, drop (Some (path_of D)) k (start fs cwd fault) = (r0, (k0, w0)) -> (exists e, r0 = AErr e) /\ k0 = k /\ Forall (eq fs) (states w0)).
  { clear Hd. intros r0 k0 w0 H. unfold dropAnchor in H. unfold abind at 1, now at 1 in H.
    destruct (k_remote k) eqn:E; [injection H as <- <- <-; split; [eauto|]; split; [reflexivity|apply Fin, same_refl]|].
    apply abind_inv in H as [([ro' path] & k1 & w1 & H1 & H)|(e & H1 & ->)]; apply rootpath_run in H1 as (-> & S1 & P);
      [|split; [eauto|]; split; [reflexivity|now apply Fin]].
    destruct (P _ _ eq_refl) as (Er' & n' & En' & Ep). clear P. assert (ro' = ro) as -> by congruence. assert (n' = n) as -> by congruence.
    change (child (path_of D) n) with (path_of (D ++ [n])) in Ep. subst path.
    assert (Ho1 : forall w1, same (start fs cwd fault) w1 -> honest (w_fault w1)).
    { intros w2 (_ & _ & _ & B). rewrite B. exact Ho. }
    assert (W : forall w1, same (start fs cwd fault) w1 -> walk (w_fs w1) (w_cwd w1) true (path_of (D ++ [n])) = Found (D ++ [n]) (Dir xs es)).
    { intros w2 (A & B & _). rewrite A, B. apply walk_of; [exact G|exact Gd|discriminate]. }
    apply abind_inv in H as [(ex & k1 & w2 & H1 & H)|(e & H1 & ->)].
    2:{ apply onfs_inv in H1 as [-> [(a & Z & _)|(e' & _ & H1)]]; [discriminate|]. split; [eauto|]. split; [reflexivity|]. apply Fin.
        apply test_honest in H1 as [S2 _]; [exact (same_trans _ _ _ S1 S2)|now apply Ho1]. }
    apply onfs_inv in H1 as [-> [(a & Z & H1)|(e' & Z & H1)]]; [injection Z as <-|discriminate].
    apply test_honest in H1 as [S2 Ex]; [|now apply Ho1].
    assert (ex = true) as -> by (destruct ex; [reflexivity|]; specialize (Ex _ _ (W _ S1)); discriminate). clear Ex.
    pose proof (same_trans _ _ _ S1 S2) as S2'. cbn [negb] in H.
    match type of H with abind ?m _ _ _ = _ => assert (Mid : forall r1 k1 w3, m k w2 = (r1, (k1, w3)) -> (exists e, r1 = AErr e) /\ k1 = k /\ Forall (eq fs) (states w3)) end.
    2:{ apply abind_inv in H as [(u & k1 & w3 & H & _)|(e & H & ->)]; apply Mid in H as [(e' & Z) F]; [discriminate|]. split; [eauto|exact F]. }
    clear H. intros r1 k1 w3 H.
    apply abind_inv in H as [(m & k2 & w4 & H1 & H)|(e & H1 & ->)]; apply onfs_inv in H1 as [-> H1];
      (assert (S4 : same w2 w4) by (destruct H1 as [(a & _ & H1)|(e' & _ & H1)]; now apply quiet_meta in H1)) ||
      (assert (S4 : same w2 w3) by (destruct H1 as [(a & _ & H1)|(e' & _ & H1)]; now apply quiet_meta in H1));
      pose proof (same_trans _ _ _ S2' S4) as S4'; [|split; [eauto|]; split; [reflexivity|now apply Fin]].
    apply abind_inv in H as [(cs & k2 & w5 & H2 & H)|(e & H2 & ->)]; apply onfs_inv in H2 as [-> H2].
    2:{ split; [eauto|]. split; [reflexivity|]. apply Fin. destruct H2 as [(a & Z & _)|(e' & _ & H2)]; [discriminate|].
        apply children_run in H2 as [S5 _]; [exact (same_trans _ _ _ S4' S5)|now apply Ho1]. }
    destruct H2 as [(a & Z & H2)|(e' & Z & _)]; [injection Z as <-|discriminate].
    apply children_run in H2 as [S5 C]; [|now apply Ho1]. pose proof (same_trans _ _ _ S4' S5) as S5'.
    assert (cs <> []).
    { destruct C as [[C _]|(R & xs' & es' & W' & C)].
      - elim (C (D ++ [n])). exists xs, es. now apply W.
      - rewrite W in W' by assumption. injection W' as <- <- <-. 
        assert (A : at_anchor (fun _ => match m with Some _ => true | None => false end) (k_cache k) (path_of (D ++ [n])) = false).
        { unfold at_anchor. destruct (k_cache k) as [a|]; [|now rewrite andb_false_r].
          destruct (pp_eqb (path_of (D ++ [n])) a) eqn:Eq; [|now rewrite andb_false_r]. apply pp_eqb_eq in Eq. congruence. }
        rewrite A in C. intros ->. destruct es; [congruence|discriminate]. }
    destruct cs; [congruence|]. injection H as <- <- <-. split; [eauto|]. split; [reflexivity|now apply Fin]. }
  destruct Hd as [(e & Hd & ->)|(p & k1 & w1 & Hd)]; apply Go in Hd; [split; [eauto|exact (proj2 Hd)]|]. destruct Hd as [(e & Z) _]. discriminate.
Qed.
End Anchor.

Lemma perform_weigh K flavoured far trash api root_name root_kind k w :
  exists k1 k2, perform K flavoured far trash api root_name root_kind WeighRemote k w = (AOk None, (k1, w)) /\
    perform K flavoured far trash api root_name root_kind WeighCache k1 w = (AOk None, (k2, w)) /\
    k_remote k1 = None /\ k_cache k1 = k_cache k /\ k_remote k2 = None /\ k_cache k2 = None /\ k_root k2 = k_root k.
Proof. destruct k. eexists. eexists. repeat split. Qed.
Lemma perform_plain K flavoured far trash api root_name root_kind p i k w r k' w' :
  perform K flavoured far trash api root_name root_kind (Init p i false) k w = (r, (k', w')) -> k' = k.
Proof.
  intro H. cbn [perform] in H. apply abind_inv in H as [(q & k1 & w1 & H & H2)|(e & H & ->)].
  - injection H2 as <- <- <-. unfold cache_init in H.
    apply abind_inv in H as [(m & k2 & w2 & H1 & H)|(e & H1 & Z)]; [|discriminate]. apply onfs_classes in H1. subst k2.
    destruct (meta_true m); [discriminate|]. apply abind_inv in H as [(ex & k2 & w3 & H1 & H)|(e & H1 & Z)]; [|discriminate]. apply onfs_classes in H1. subst k2.
    destruct (negb ex); [discriminate|]. apply abind_inv in H as [(n & k2 & w4 & H1 & H)|(e & H1 & Z)]; [|discriminate]. apply onfs_classes in H1. subst k2.
    apply abind_inv in H as [(u & k2 & w5 & H1 & H)|(e & H1 & Z)]; [|discriminate]. cbn in H. injection H as _ <- _.
    destruct (meta_bool n); [|destruct m; [now injection H1 as _ <- _|discriminate]].
    apply abind_inv in H1 as [(b & k3 & w6 & H1 & H2)|(e & H1 & Z)]; [|discriminate]. apply onfs_classes in H1. subst k3. now injection H2 as _ <- _.
  - unfold cache_init in H.
    apply abind_inv in H as [(m & k2 & w2 & H1 & H)|(e' & H1 & Z)]; apply onfs_classes in H1; [subst k2|exact H1].
    destruct (meta_true m); [now injection H as _ <- _|]. apply abind_inv in H as [(ex & k2 & w3 & H1 & H)|(e' & H1 & Z)]; apply onfs_classes in H1; [subst k2|exact H1].
    destruct (negb ex); [now injection H as _ <- _|]. apply abind_inv in H as [(n & k2 & w4 & H1 & H)|(e' & H1 & Z)]; apply onfs_classes in H1; [subst k2|exact H1].
    apply abind_inv in H as [(u & k2 & w5 & H1 & H)|(e' & H1 & Z)]; [discriminate|].
    destruct (meta_bool n); [|destruct m; now injection H1 as _ <- _].
    apply abind_inv in H1 as [(b & k3 & w6 & H1 & H2)|(e'' & H1 & Z')]; [discriminate|]. now apply onfs_classes in H1.
Qed.

(** ** Witnesses *)
Definition a_date (v : pyval) : res pyval := match v with PDt _ => Ok v | _ => Err TypeError end.
Definition a_conf : conf :=
  mkConf a_date (fun _ => Err ValueError) (Some $"ssh") (pp_parse $"/trash") (pp_parse $"/objects") $"sha256" (fun _ => true) (fun _ d => d)
    (mkRemote true true [] None) (fun _ => ret tt).
Definition a_attrs (i : str) : Fs.xattrs :=
  match meta_init (set_arg Fid (PStr i) no_args) with
  | Ok m => match as_xattrs a_date m (Some $"ssh") with Ok l => setall l [] | Err _ => [] end
  | Err _ => [] end.
Definition a_far : node -> place -> ppath -> res ppath := fun _ _ _ => Err NotImplementedExn.
Definition a_trash (c : ppath) : option ppath := Some (child (local_data_dir c) $"trash").
Definition a_name (r : pyval) : res str := match r with PStr s => Ok (skipn 2 s) | _ => Err TypeError end.
Notation a_perform flavoured := (perform a_conf flavoured a_far a_trash (fun i => Ok i) a_name (fun _ => Ok (Some true))).
Definition a_fs (attrs : Fs.xattrs) : node :=
  Dir [] [($"1", Dir attrs [($"kept", File [] [])]); ($"2", File [x01] []); ($"3", Dir (a_attrs $"N:3") [])].
Definition a_id (i : str) (r c : option ppath) : classes := mkClasses r (Some (PStr i)) None c.
Notation a_start attrs := (start (a_fs attrs) [] (fun _ => None)).
Definition a_top : ppath := path_of [].
Definition a_one : ppath := path_of [$"1"].

Lemma smart_other flavoured : exists w', a_perform flavoured (Smart (Some a_top)) (a_id $"N:1" None None) (a_start (a_attrs $"N:9")) =
  (AOk (Some a_one), (a_id $"N:1" (Some a_one) None, w')) /\ w_fs w' = a_fs (a_attrs $"N:9").
Proof. destruct flavoured; eexists; (split; [vm_compute; reflexivity|]); vm_compute; reflexivity. Qed.
Lemma smart_refuted : forall flavoured, ~ (forall K far trash api root_name root_kind d k fs cwd p k' w',
  perform K flavoured far trash api root_name root_kind (Smart d) k (start fs cwd (fun _ => None)) = (AOk (Some p), (k', w')) -> is_root K k' w' p).
Proof.
  intros flavoured H. destruct (smart_other flavoured) as (w' & E & F). apply H in E.
  destruct (E _ eq_refl) as (i & (w2 & D) & [P|(rr & P & _)]); [|discriminate]. rewrite F in D.
  vm_compute in D. injection D as <- _. vm_compute in P. discriminate.
Qed.
Lemma smart_one flavoured : exists w', a_perform flavoured (Smart (Some a_top)) (a_id $"N:1" None None) (a_start (a_attrs $"N:1")) =
  (AOk (Some a_one), (a_id $"N:1" (Some a_one) None, w')).
Proof. destruct flavoured; eexists; vm_compute; reflexivity. Qed.
Lemma agree_refuted : forall flavoured, ~ (forall K far trash api root_name root_kind d k fs cwd p k' w',
  k_remote k = k_cache k ->
  perform K flavoured far trash api root_name root_kind (Smart d) k (start fs cwd (fun _ => None)) = (AOk (Some p), (k', w')) -> k_remote k' = k_cache k').
Proof. intros flavoured H. destruct (smart_one flavoured) as (w' & E). apply H in E; [discriminate|reflexivity]. Qed.
Lemma here_other : exists e w', a_perform true (Here (path_of [$"3"])) (a_id $"N:1" (Some a_one) (Some a_one)) (a_start (a_attrs $"N:1")) =
  (AErr e, (a_id $"N:1" (Some a_one) (Some (path_of [$"3"])), w')).
Proof. eexists. eexists. vm_compute. reflexivity. Qed.
Lemma split_refuted : ~ (forall K far trash api root_name root_kind c k fs cwd e k' w',
  perform K true far trash api root_name root_kind c k (start fs cwd (fun _ => None)) = (AErr e, (k', w')) -> k_cache k' = k_cache k).
Proof. intro H. destruct here_other as (e & w' & E). apply H in E. discriminate. Qed.
Lemma drop_file flavoured : exists e w', a_perform flavoured (Drop (Some a_top)) (a_id $"N:2" None None) (a_start []) =
  (AErr e, (a_id $"N:2" None (Some (path_of [$"2"])), w')) /\ get (w_fs w') [$"2"] = Some (File [x01] (a_attrs $"N:2")) /\ look (w_fs w') [$"2"] <> look (a_fs []) [$"2"].
Proof. destruct flavoured; eexists; eexists; (split; [vm_compute; reflexivity|]); vm_compute; (split; [reflexivity|discriminate]). Qed.
Lemma half_refuted : forall flavoured, ~ (forall K far trash api root_name root_kind d k fs cwd e k' w',
  perform K flavoured far trash api root_name root_kind (Drop d) k (start fs cwd (fun _ => None)) = (AErr e, (k', w')) ->
  k_cache k' = k_cache k \/ w_fs w' = fs).
Proof. intros flavoured H. destruct (drop_file flavoured) as (e & w' & E & _ & F). 
  destruct (H a_conf a_far a_trash (fun i => Ok i) a_name (fun _ => Ok (Some true)) (Some a_top) (a_id $"N:2" None None) (a_fs []) [] e _ w' E) as [Z|Z]; [discriminate|].
  apply F. now rewrite Z.
Qed.
