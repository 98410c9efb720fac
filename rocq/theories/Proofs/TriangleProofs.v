(** * Proofs about local paths, caches and remotes *)
From Coq Require Import String NArith Bool List Arith Lia.
From Verif Require Import Model.Py Model.PurePath Model.Triangle Spec.TriangleSpec Proofs.PyLemmas.
Import ListNotations.

Lemma nth_upd {A} (f : A -> A) : forall n m (l : list A),
  nth_error (upd n f l) m = if Nat.eqb m n then option_map f (nth_error l m) else nth_error l m.
Proof.
  induction n as [|n IH]; intros m [|x l]; simpl.
  - destruct m; reflexivity.
  - destruct m; reflexivity.
  - destruct m; simpl; [reflexivity|]. destruct (Nat.eqb m n); reflexivity.
  - destruct m; simpl; [reflexivity|]. apply IH.
Qed.
Lemma nth_snoc {A} (l : list A) (x : A) m :
  nth_error (l ++ [x]) m = if Nat.eqb m (length l) then Some x else nth_error l m.
Proof.
  destruct (Nat.eqb m (length l)) eqn:E.
  - apply Nat.eqb_eq in E. subst. rewrite nth_error_app2, Nat.sub_diag by lia. reflexivity.
  - apply Nat.eqb_neq in E. destruct (Nat.lt_ge_cases m (length l)) as [L|L].
    + now rewrite nth_error_app1.
    + rewrite (proj2 (nth_error_None l m)) by lia. apply nth_error_None. rewrite app_length. simpl. lia.
Qed.
Lemma nth_old {A} (l : list A) (x : A) m y : nth_error l m = Some y -> nth_error (l ++ [x]) m = Some y.
Proof. intro H. rewrite nth_error_app1; [exact H|]. apply nth_error_Some. congruence. Qed.
Lemma place_eqb a b : list_eqb str_eqb a b = true <-> a = b.
Proof. apply list_eqb_eq. intros. apply str_eqb_eq. Qed.
Lemma disk_at q v h q' : h_disk (with_disk q v h) q' = if list_eqb str_eqb q' q then v else h_disk h q'.
Proof. reflexivity. Qed.

Ltac sp := repeat match goal with |- _ /\ _ => split end.

Section Triangle.
Variable cwd : list str.
Notation place := (place cwd).

(** ** What holds as long as no id is replaced *)
Definition far_ok (h : heap) (i : str) (r : nat) : Prop :=
  exists o, nth_error (h_remotes h) r = Some o /\ r_id o = i /\ r_cache o <> None.
Definition cache_ok (h : heap) (c : nat) (k : cobj) : Prop :=
  (exists i, h_disk h (place (c_path k)) = Some i /\
     (forall j, c_id k = Some j -> j = i) /\ (forall j, c_boot k = Some j -> j = i) /\
     (forall r, c_remote k = Some r -> far_ok h i r)) /\
  (forall p, c_parent k = Some p -> p < c /\ exists k', nth_error (h_caches h) p = Some k' /\ c_path k' = c_path k).
Definition local_ok (h : heap) (o : lobj) : Prop :=
  forall c, l_cache o = Some c -> exists k, nth_error (h_caches h) c = Some k /\ place (c_path k) = place (l_path o).
Definition remote_ok (h : heap) (o : robj) : Prop :=
  forall c, r_cache o = Some c -> exists k, nth_error (h_caches h) c = Some k /\ h_disk h (place (c_path k)) = Some (r_id o).
Record inv (h : heap) : Prop := mkInv {
  inv_l : forall l o, nth_error (h_locals h) l = Some o -> local_ok h o;
  inv_c : forall c k, nth_error (h_caches h) c = Some k -> cache_ok h c k;
  inv_r : forall r o, nth_error (h_remotes h) r = Some o -> remote_ok h o }.

(** Objects and ids stay *)
Definition grows (h h' : heap) : Prop :=
  (forall q i, h_disk h q = Some i -> h_disk h' q = Some i) /\
  (forall c k, nth_error (h_caches h) c = Some k -> exists k', nth_error (h_caches h') c = Some k' /\ c_path k' = c_path k) /\
  (forall r o, nth_error (h_remotes h) r = Some o ->
     exists o', nth_error (h_remotes h') r = Some o' /\ r_id o' = r_id o /\ (r_cache o <> None -> r_cache o' <> None)).
Lemma grows_refl h : grows h h.
Proof. split; [|split]; eauto. Qed.
Lemma grows_trans a b c : grows a b -> grows b c -> grows a c.
Proof.
  intros (A1 & A2 & A3) (B1 & B2 & B3). split; [|split].
  - auto.
  - intros x k H. destruct (A2 x k H) as (k' & H' & E). destruct (B2 x k' H') as (k'' & H'' & E').
    exists k''. split; [exact H''|congruence].
  - intros x o H. destruct (A3 x o H) as (o' & H' & E & N). destruct (B3 x o' H') as (o'' & H'' & E' & N').
    exists o''. repeat split; [exact H''|congruence|auto].
Qed.
Lemma local_ok_grows h h' o : grows h h' -> local_ok h o -> local_ok h' o.
Proof.
  intros (_ & G & _) L c H. destruct (L c H) as (k & K & E). destruct (G c k K) as (k' & K' & E').
  exists k'. split; [exact K'|congruence].
Qed.
Lemma cache_ok_grows h h' c k : grows h h' -> cache_ok h c k -> cache_ok h' c k.
Proof.
  intros (D & C & R) [(i & H1 & H2 & H3 & H4) P]. split.
  - exists i. repeat split; auto. intros r Hr. destruct (H4 r Hr) as (o & Ho & E & N).
    destruct (R r o Ho) as (o' & Ho' & E' & N'). exists o'. repeat split; auto; congruence.
  - intros p Hp. destruct (P p Hp) as (L & k' & K & E). destruct (C p k' K) as (k'' & K' & E').
    split; [exact L|]. exists k''. split; [exact K'|congruence].
Qed.
Lemma remote_ok_grows h h' o : grows h h' -> remote_ok h o -> remote_ok h' o.
Proof.
  intros (D & C & _) L c H. destruct (L c H) as (k & K & E). destruct (C c k K) as (k' & K' & E').
  exists k'. split; [exact K'|]. rewrite E'. auto.
Qed.

Lemma grows_disk h q v : (forall i, h_disk h q = Some i -> v = Some i) -> grows h (with_disk q v h).
Proof.
  intro K. split; [|split]; [|eauto|eauto].
  intros q' i H. rewrite disk_at. destruct (list_eqb str_eqb q' q) eqn:E; [|exact H].
  apply place_eqb in E. subst. auto.
Qed.
Lemma inv_disk h q v : (forall i, h_disk h q = Some i -> v = Some i) -> inv h -> inv (with_disk q v h).
Proof.
  intros K [L C R]. pose proof (grows_disk h q v K) as G. split; simpl.
  - intros l o H. eapply local_ok_grows; eauto.
  - intros c k H. eapply cache_ok_grows; eauto.
  - intros r o H. eapply remote_ok_grows; eauto.
Qed.
Lemma grows_new_local h o : grows h (snd (new_local o h)).
Proof. split; [|split]; simpl; eauto. Qed.
Lemma inv_new_local h o : local_ok h o -> inv h -> inv (snd (new_local o h)).
Proof.
  intros K [L C R]. pose proof (grows_new_local h o) as G. split.
  - intros l o' H. simpl in H. rewrite nth_snoc in H. eapply local_ok_grows; [exact G|].
    destruct (Nat.eqb l (length (h_locals h))); [injection H as <-; exact K|eauto].
  - intros c k H. eapply cache_ok_grows; eauto.
  - intros r o' H. eapply remote_ok_grows; eauto.
Qed.
Lemma grows_new_cache h k : grows h (snd (new_cache k h)).
Proof.
  split; [|split]; simpl; eauto.
  intros c k' H. exists k'. split; [now apply nth_old|reflexivity].
Qed.
Lemma inv_new_cache h k : cache_ok h (length (h_caches h)) k -> inv h -> inv (snd (new_cache k h)).
Proof.
  intros K [L C R]. pose proof (grows_new_cache h k) as G. split.
  - intros l o' H. eapply local_ok_grows; eauto.
  - intros c k' H. simpl in H. rewrite nth_snoc in H. eapply cache_ok_grows; [exact G|].
    destruct (Nat.eqb c (length (h_caches h))) eqn:E; [|eauto].
    apply Nat.eqb_eq in E. injection H as <-. subst. exact K.
  - intros r o' H. eapply remote_ok_grows; eauto.
Qed.
Lemma grows_new_far h o : grows h (snd (new_far o h)).
Proof.
  split; [|split]; simpl; eauto.
  intros c k' H. exists k'. split; [now apply nth_old|auto].
Qed.
Lemma inv_new_far h o : remote_ok h o -> inv h -> inv (snd (new_far o h)).
Proof.
  intros K [L C R]. pose proof (grows_new_far h o) as G. split.
  - intros l o' H. eapply local_ok_grows; eauto.
  - intros c k' H. eapply cache_ok_grows; eauto.
  - intros r o' H. simpl in H. rewrite nth_snoc in H. eapply remote_ok_grows; [exact G|].
    destruct (Nat.eqb r (length (h_remotes h))); [injection H as <-; exact K|eauto].
Qed.
Lemma grows_with_cache h c f : (forall k, c_path (f k) = c_path k) -> grows h (with_cache c f h).
Proof.
  intro F. split; [|split]; simpl; eauto.
  intros c' k H. rewrite nth_upd, H. destruct (Nat.eqb c' c); simpl; eauto.
Qed.
Lemma inv_with_cache h c f :
  (forall k, c_path (f k) = c_path k) ->
  (forall k, nth_error (h_caches h) c = Some k -> cache_ok h c k -> cache_ok h c (f k)) ->
  inv h -> inv (with_cache c f h).
Proof.
  intros F K [L C R]. pose proof (grows_with_cache h c f F) as G. split.
  - intros l o' H. eapply local_ok_grows; eauto.
  - intros c' k' H. simpl in H. rewrite nth_upd in H. eapply cache_ok_grows; [exact G|].
    destruct (Nat.eqb c' c) eqn:E; [|eauto]. apply Nat.eqb_eq in E. subst c'.
    destruct (nth_error (h_caches h) c) as [k|] eqn:E; [|discriminate]. injection H as <-. eauto.
  - intros r o' H. eapply remote_ok_grows; eauto.
Qed.
Lemma grows_with_local h l f : grows h (with_local l f h).
Proof. split; [|split]; simpl; eauto. Qed.
Lemma inv_with_local h l f :
  (forall o, nth_error (h_locals h) l = Some o -> local_ok h (f o)) -> inv h -> inv (with_local l f h).
Proof.
  intros K [L C R]. pose proof (grows_with_local h l f) as G. split.
  - intros l' o' H. simpl in H. rewrite nth_upd in H. eapply local_ok_grows; [exact G|].
    destruct (Nat.eqb l' l) eqn:E; [|eauto]. apply Nat.eqb_eq in E. subst l'.
    destruct (nth_error (h_locals h) l) as [o|] eqn:E; [|discriminate]. injection H as <-. auto.
  - intros c k H. eapply cache_ok_grows; eauto.
  - intros r o' H. eapply remote_ok_grows; eauto.
Qed.
Lemma grows_bind h r c : grows h (with_far r (set_r_cache (Some c)) h).
Proof.
  split; [|split]; simpl; eauto.
  intros r' o H. rewrite nth_upd, H. destruct (Nat.eqb r' r); simpl; eauto.
  eexists. repeat split. intros _. discriminate.
Qed.
Lemma inv_bind h r c :
  (forall o, nth_error (h_remotes h) r = Some o -> remote_ok h (set_r_cache (Some c) o)) ->
  inv h -> inv (with_far r (set_r_cache (Some c)) h).
Proof.
  intros K [L C R]. pose proof (grows_bind h r c) as G. split.
  - intros l o' H. eapply local_ok_grows; eauto.
  - intros c' k' H. eapply cache_ok_grows; eauto.
  - intros r' o' H. simpl in H. rewrite nth_upd in H. eapply remote_ok_grows; [exact G|].
    destruct (Nat.eqb r' r) eqn:E; [|eauto]. apply Nat.eqb_eq in E. subst r'.
    destruct (nth_error (h_remotes h) r) as [o|] eqn:E; [|discriminate]. injection H as <-. auto.
Qed.

Lemma ok_c_id h c k i :
  (forall j, i = Some j -> h_disk h (place (c_path k)) = Some j) -> cache_ok h c k -> cache_ok h c (set_c_id i k).
Proof.
  intros K [(j & A1 & A2 & A3 & A4) P]. split; [|exact P]. exists j. repeat split; auto.
  simpl. intros j' ->. specialize (K j' eq_refl). congruence.
Qed.
Lemma ok_c_boot h c k i :
  (forall j, i = Some j -> h_disk h (place (c_path k)) = Some j) -> cache_ok h c k -> cache_ok h c (set_c_boot i k).
Proof.
  intros K [(j & A1 & A2 & A3 & A4) P]. split; [|exact P]. exists j. repeat split; auto.
  simpl. intros j' ->. specialize (K j' eq_refl). congruence.
Qed.
Lemma ok_c_remote h c k r :
  (forall i, h_disk h (place (c_path k)) = Some i -> far_ok h i r) -> cache_ok h c k -> cache_ok h c (set_c_remote r k).
Proof.
  intros K [(j & A1 & A2 & A3 & A4) P]. split; [|exact P]. exists j. repeat split; auto.
  simpl. intros r' H. injection H as <-. auto.
Qed.
Lemma fresh_ok h c p b : (exists i, h_disk h (place p) = Some i) ->
  cache_ok h c (mkC p b None None None None).
Proof. intros (i & H). split; [|discriminate]. exists i. repeat split; auto; discriminate. Qed.

Lemma inv_cache_id h c k : inv h -> nth_error (h_caches h) c = Some k ->
  exists i, h_disk h (place (c_path k)) = Some i /\
  fst (cache_id cwd c k h) = Some i /\ inv (snd (cache_id cwd c k h)) /\ grows h (snd (cache_id cwd c k h)) /\
  h_disk (snd (cache_id cwd c k h)) = h_disk h /\
  exists k', nth_error (h_caches (snd (cache_id cwd c k h))) c = Some k' /\ c_path k' = c_path k /\
             c_parent k' = c_parent k /\ c_remote k' = c_remote k.
Proof.
  intros V Hk. destruct (inv_c h V c k Hk) as [(i & A1 & A2 & A3 & A4) P].
  exists i. split; [exact A1|]. unfold cache_id. destruct (c_id k) as [j|] eqn:E.
  - rewrite (A2 j eq_refl). simpl. sp; auto using grows_refl. eauto.
  - rewrite A1. simpl. sp.
    + reflexivity.
    + apply inv_with_cache; [reflexivity| |exact V]. intros k' Hk' O. apply ok_c_id; [|exact O].
      assert (k' = k) by congruence. subst. intros j Hj. congruence.
    + apply grows_with_cache; reflexivity.
    + reflexivity.
    + rewrite nth_upd, Nat.eqb_refl, Hk. simpl. eauto.
Qed.

Section Class.
Variables anchored configured rc_anchor : bool.
Notation step := (step cwd anchored configured rc_anchor).
Notation run := (run cwd anchored configured rc_anchor).
Notation quiet := (quiet cwd anchored configured rc_anchor).

(** What a remote is when it is found for a place *)
Definition found (h : heap) (q : list str) (x : option nat) : Prop :=
  configured = true -> exists r, x = Some r /\ exists i, h_disk h q = Some i /\ far_ok h i r.
Lemma inv_make_remote h c k i : inv h -> nth_error (h_caches h) c = Some k -> h_disk h (place (c_path k)) = Some i ->
  let '(r, h') := make_remote configured c i h in
  inv h' /\ grows h h' /\ h_disk h' = h_disk h /\ h_locals h' = h_locals h /\ found h' (place (c_path k)) r.
Proof.
  intros V Hk D. unfold make_remote, found. destruct configured.
  - set (o := mkR i (Some c)). destruct (new_far o h) as [r h1] eqn:E.
    assert (V1 : inv h1).
    { replace h1 with (snd (new_far o h)) by (rewrite E; reflexivity). apply inv_new_far; [|exact V].
      intros c' Hc. injection Hc as <-. eauto. }
    assert (G1 : grows h h1) by (replace h1 with (snd (new_far o h)) by (rewrite E; reflexivity); apply grows_new_far).
    unfold new_far in E. injection E as <- <-.
    assert (F : far_ok (mkH (h_locals h) (h_caches h) (h_remotes h ++ [o]) (h_disk h)) i (length (h_remotes h))).
    { exists o. simpl. rewrite nth_snoc, Nat.eqb_refl. sp; [reflexivity|reflexivity|discriminate]. }
    split; [|split; [|split; [|split]]].
    + apply inv_with_cache; [reflexivity| |exact V1]. intros k' Hk' O. apply ok_c_remote; [|exact O].
      simpl in Hk'. assert (k' = k) by congruence. subst. simpl. intros j Hj. assert (j = i) by congruence. subst. exact F.
    + eapply grows_trans; [exact G1|]. apply grows_with_cache. reflexivity.
    + reflexivity.
    + reflexivity.
    + intros _. eexists. split; [reflexivity|]. exists i. split; [exact D|]. exact F.
  - sp; auto using grows_refl. discriminate.
Qed.

Definition home (d : list str -> option str) : Prop := anchored = true \/ d cwd <> None.
Lemma inv_cache_remote : forall fuel h c k, inv h -> nth_error (h_caches h) c = Some k ->
  (c + 2 <= fuel \/ 1 <= fuel /\ c_parent k = None /\ pp_abs (c_path k) = true) ->
  exists y h', cache_remote cwd anchored configured fuel c h = (y, h') /\
    inv h' /\ grows h h' /\ h_disk h' = h_disk h /\ h_locals h' = h_locals h /\
    (home (h_disk h) -> exists x, y = Ok x /\ found h' (place (c_path k)) x).
Proof.
  induction fuel as [|f IH]; intros h c k V Hk B; [lia|].
  cbn [cache_remote]. rewrite Hk.
  destruct (inv_c h V c k Hk) as [(i & A1 & A2 & A3 & A4) P].
  destruct (c_remote k) as [r|] eqn:Er.
  { exists (Ok (Some r)), h. sp; auto using grows_refl. intros _. exists (Some r). split; [reflexivity|].
    intros _. exists r. split; [reflexivity|]. exists i. split; [exact A1|]. apply A4. reflexivity. }
  destruct (c_parent k) as [p|] eqn:Ep.
  { destruct (P p eq_refl) as (Lp & k' & K' & E'). rewrite <- E'. apply IH; [exact V|exact K'|].
    destruct B as [B|(_ & B & _)]; [|discriminate]. left. lia. }
  destruct (inv_cache_id h c k V Hk) as (j & D & I & V1 & G1 & D1 & k1 & K1 & E1 & E2 & E3).
  assert (L1 : h_locals (snd (cache_id cwd c k h)) = h_locals h).
  { unfold cache_id. destruct (c_id k); [reflexivity|]. destruct (h_disk h _); [reflexivity|]. destruct (c_boot k); reflexivity. }
  destruct (cache_id cwd c k h) as [i1 h1]. simpl in I, V1, G1, D1, K1, L1. subst i1.
  assert (X : forall h2 k2, inv h2 -> grows h h2 -> h_disk h2 = h_disk h -> h_locals h2 = h_locals h ->
              nth_error (h_caches h2) c = Some k2 -> c_path k2 = c_path k ->
              exists y h', (let (r, h2) := make_remote configured c j h2 in (Ok r, h2)) = (y, h') /\
                inv h' /\ grows h h' /\ h_disk h' = h_disk h /\ h_locals h' = h_locals h /\
                (home (h_disk h) -> exists x, y = Ok x /\ found h' (place (c_path k)) x)).
  { intros h2 k2 V2 G2 D2 L2 K2 E. pose proof (inv_make_remote h2 c k2 j V2 K2) as M.
    destruct (make_remote configured c j h2) as [r h3].
    destruct M as (M1 & M2 & M3 & M4 & M5); [rewrite D2, E; exact D|].
    exists (Ok r), h3. sp; [reflexivity|exact M1|eapply grows_trans; eassumption|congruence|congruence|].
    intros _. exists r. split; [reflexivity|]. rewrite <- E. exact M5. }
  destruct anchored eqn:EA; [apply (X h1 k1); auto|].
  destruct (pp_abs (c_path k)) eqn:Ea.
  - apply (X (with_cache c (set_c_boot (Some j)) h1) (set_c_boot (Some j) k1)).
    + apply inv_with_cache; [reflexivity| |exact V1]. intros k' Hk' O. apply ok_c_boot; [|exact O].
      assert (k' = k1) by congruence. subst. rewrite E1, D1. intros j' Hj. congruence.
    + eapply grows_trans; [exact G1|]. apply grows_with_cache. reflexivity.
    + exact D1.
    + exact L1.
    + simpl. rewrite nth_upd, Nat.eqb_refl, K1. reflexivity.
    + exact E1.
  - destruct B as [B|(_ & _ & B)]; [|discriminate].
    rewrite D1. destruct (c_primary k && match h_disk h cwd with None => true | Some _ => false end)%bool eqn:Eh.
    { exists (Err NoCachedMetadataError), h1. sp; auto.
      intros [X0|X0]; [congruence|]. apply andb_prop in Eh. destruct (h_disk h cwd); [destruct Eh; discriminate|congruence]. }
    set (k2 := mkC (mkPP true (place (c_path k))) (c_primary k) None None None None).
    assert (Q : place (c_path k2) = place (c_path k)) by reflexivity.
    pose proof (inv_new_cache h1 k2) as W. pose proof (grows_new_cache h1 k2) as G2.
    unfold new_cache in *. cbv beta iota.
    destruct (IH (snd (new_cache k2 h1)) (length (h_caches h1)) k2) as (x & h' & R & V' & G' & D' & L' & F').
    + apply W; [|exact V1]. apply fresh_ok. exists j. rewrite D1. exact D.
    + simpl. rewrite nth_snoc, Nat.eqb_refl. reflexivity.
    + right. sp; [lia|reflexivity|reflexivity].
    + exists x, h'. sp; [exact R|exact V'| | | |].
      * apply (grows_trans _ _ _ G1 (grows_trans _ _ _ G2 G')).
      * rewrite D', <- D1. reflexivity.
      * rewrite L', <- L1. reflexivity.
      * intro Hh. apply F'. simpl. rewrite D1. exact Hh.
Qed.
Lemma fuel_ok h c k : nth_error (h_caches h) c = Some k -> c + 2 <= fuel_for h.
Proof.
  intro H. assert (c < length (h_caches h)) by (apply nth_error_Some; congruence). unfold fuel_for. lia.
Qed.

Lemma inv_local_cache h l : inv h -> inv (snd (local_cache cwd l h)).
Proof.
  intro V. unfold local_cache. destruct (nth_error (h_locals h) l) as [o|] eqn:E; [|exact V].
  destruct (l_cache o) as [c|] eqn:Ec; [exact V|].
  destruct (h_disk h (place (l_path o))) as [i|] eqn:D; [|exact V].
  set (k := mkC (l_path o) true None None None None).
  assert (W : inv (snd (new_cache k h))) by (apply inv_new_cache; [apply fresh_ok; eauto|exact V]).
  unfold new_cache in *. cbv beta iota. simpl snd in *.
  apply inv_with_local; [|exact W]. intros o' E'. simpl in E'. assert (o' = o) by congruence. subst o'.
  intros c Hc. simpl in Hc. injection Hc as <-. exists k. simpl. rewrite nth_snoc, Nat.eqb_refl. auto.
Qed.
Lemma keeps_some d q i : keeps d q i -> forall j, d q = Some j -> Some i = Some j.
Proof. intros [H|H] j Hj; congruence. Qed.

Lemma inv_step k h : inv h -> quiet_call cwd k h -> inv (snd (step k h)).
Proof.
  intros V Q. destruct k; cbn [Triangle.step].
  - (* NewLocal *) unfold new_local. simpl. apply (inv_new_local h (mkL p None)); [discriminate|exact V].
  - (* LCache *) now apply inv_local_cache.
  - (* LRemote *)
    pose proof (inv_local_cache h l V) as W. destruct (local_cache cwd l h) as [[a|e] h1]; [|exact W].
    destruct a; try exact W. simpl in W.
    destruct (nth_error (h_caches h1) c) as [k|] eqn:E.
    + destruct (inv_cache_remote (fuel_for h1) h1 c k W E) as (x & h' & R & V' & _).
      { left. eapply fuel_ok; eauto. }
      rewrite R. exact V'.
    + unfold fuel_for. cbn [cache_remote]. rewrite E. exact W.
  - (* LInit *)
    pose proof (inv_local_cache h l V) as W.
    assert (D : h_disk (snd (local_cache cwd l h)) = h_disk h).
    { unfold local_cache. destruct (nth_error (h_locals h) l) as [o|]; [|reflexivity].
      destruct (l_cache o); [reflexivity|]. destruct (h_disk h (place (l_path o))); reflexivity. }
    assert (N : forall o a, nth_error (h_locals h) l = Some o -> fst (local_cache cwd l h) = Ok a ->
                (forall c, a <> ACache c) -> h_disk h (place (l_path o)) = None).
    { intros o a E. unfold local_cache. rewrite E. destruct (l_cache o); simpl.
      - intros X Y. injection X as <-. destruct (Y n). reflexivity.
      - destruct (h_disk h (place (l_path o))); [|reflexivity].
        simpl. intros X Y. injection X as <-. exfalso. eapply Y. reflexivity. }
    destruct (nth_error (h_locals h) l) as [o|] eqn:E.
    2: { destruct (local_cache cwd l h) as [[a|e] h1]; exact W. }
    destruct (local_cache cwd l h) as [[a|e] h1]; [|exact W]. simpl in W, D, N.
    assert (Y : h_disk h1 (place (l_path o)) = None ->
                inv (snd (if negb there then (Err ValueError, h1)
                          else let (c, h2) := new_cache (mkC (l_path o) true None None None None) h1 in
                               (Ok (ACache c), with_disk (place (l_path o)) (Some i) h2)))).
    { intro Z. destruct there; [|exact W]. simpl.
      set (k := mkC (l_path o) true None None None None).
      apply (inv_new_cache (with_disk (place (l_path o)) (Some i) h1) k).
      - apply fresh_ok. rewrite disk_at. exists i.
        replace (list_eqb str_eqb (place (l_path o)) (place (l_path o))) with true by (symmetry; now apply place_eqb).
        reflexivity.
      - apply inv_disk; [|exact W]. congruence. }
    specialize (N o a eq_refl eq_refl).
    destruct (h_disk h1 (place (l_path o))) as [j|] eqn:Z.
    + destruct a; try exact W; exfalso; (assert (X : h_disk h (place (l_path o)) = None) by (apply N; discriminate));
        rewrite D in Z; congruence.
    + destruct a; apply Y; reflexivity.
  - (* CLocal *)
    unfold cache_local. destruct (nth_error (h_caches h) c) as [k|] eqn:E; [|exact V].
    unfold new_local. simpl snd.
    apply (inv_new_local h (mkL (c_path k) (Some match c_parent k with Some p => p | None => c end))); [|exact V].
    intros c' Hc. simpl in Hc. injection Hc as <-. destruct (c_parent k) as [p|] eqn:Ep.
    + destruct (inv_c h V c k E) as [_ P]. destruct (P p Ep) as (_ & k' & K' & E'). exists k'. simpl. split; congruence.
    + eauto.
  - (* CRemote *)
    destruct (nth_error (h_caches h) c) as [k|] eqn:E.
    + destruct (inv_cache_remote (fuel_for h) h c k V E) as (x & h' & R & V' & _).
      { left. eapply fuel_ok; eauto. }
      rewrite R. exact V'.
    + unfold fuel_for. cbn [cache_remote]. rewrite E. exact V.
  - (* CId *)
    destruct (nth_error (h_caches h) c) as [k|] eqn:E; [|exact V].
    destruct (inv_cache_id h c k V E) as (i & _ & _ & W & _).
    destruct (cache_id cwd c k h) as [x h1]. exact W.
  - (* CHelper *)
    destruct (nth_error (h_caches h) c) as [k|] eqn:E; [|exact V]. unfold new_cache. simpl snd.
    apply (inv_new_cache h (mkC (c_path k) false (if c_primary k then Some c else None) None None None)); [|exact V].
    destruct (inv_c h V c k E) as [(i & D & _) _]. split.
    + exists i. simpl. sp; [exact D|discriminate|discriminate|discriminate].
    + simpl. intros p Hp. destruct (c_primary k); [|discriminate]. injection Hp as <-.
      split; [apply nth_error_Some; congruence|eauto].
  - (* CCopy *)
    destruct (nth_error (h_caches h) c) as [k|] eqn:E; [|exact V].
    destruct (h_disk h (place (c_path k))) as [i|] eqn:D; [|exact V]. unfold new_cache. simpl snd.
    apply (inv_new_cache h (mkC (c_path k) true (if c_primary k then Some c else None) None None None)); [|exact V].
    split.
    + exists i. simpl. sp; [exact D|discriminate|discriminate|discriminate].
    + simpl. intros p Hp. destruct (c_primary k); [|discriminate]. injection Hp as <-.
      split; [apply nth_error_Some; congruence|eauto].
  - (* CSet *)
    destruct (nth_error (h_caches h) c) as [k|] eqn:E; [|exact V]. destruct (c_primary k); [|exact V].
    simpl snd. unfold set_meta.
    assert (W : inv (with_disk (place (c_path k)) (Some i) h)).
    { apply inv_disk; [|exact V]. apply keeps_some. apply Q. exists k. auto. }
    assert (Z : h_disk (with_disk (place (c_path k)) (Some i) h) (place (c_path k)) = Some i).
    { rewrite disk_at. replace (list_eqb str_eqb (place (c_path k)) (place (c_path k))) with true by (symmetry; now apply place_eqb).
      reflexivity. }
    apply inv_with_cache; [reflexivity| |].
    + intros k' Hk' O. apply ok_c_id; [discriminate|exact O].
    + destruct there; [exact W|]. destruct (c_remote k); [exact W|].
      change (inv (with_cache c (set_c_boot (Some i)) (with_disk (place (c_path k)) (Some i) h))).
      apply inv_with_cache; [reflexivity| |exact W]. intros k' Hk' O. apply ok_c_boot; [|exact O].
      simpl in Hk'. assert (k' = k) by congruence. subst. congruence.
  - (* NewRemote *) unfold new_far. simpl. apply (inv_new_far h (mkR i None)); [discriminate|exact V].
  - (* RCache *) exact V.
  - (* RLocal *)
    unfold remote_cache. destruct (nth_error (h_remotes h) r) as [o|]; [|exact V].
    destruct rc_anchor; [|exact V]. destruct (r_cache o) as [c|]; [|exact V].
    unfold cache_local. destruct (nth_error (h_caches h) c) as [k|] eqn:E; [|exact V].
    unfold new_local. simpl snd.
    apply (inv_new_local h (mkL (c_path k) (Some match c_parent k with Some p => p | None => c end))); [|exact V].
    intros c' Hc. simpl in Hc. injection Hc as <-. destruct (c_parent k) as [p|] eqn:Ep.
    + destruct (inv_c h V c k E) as [_ P]. destruct (P p Ep) as (_ & k' & K' & E'). exists k'. simpl. split; congruence.
    + eauto.
  - (* RId *) destruct (nth_error (h_remotes h) r); exact V.
  - (* RBind *)
    destruct Q as [NR Q].
    destruct (nth_error (h_remotes h) r) as [o|] eqn:E; [|exact V].
    destruct (nth_error (h_caches h) c) as [k|] eqn:Ek; [|exact V].
    destruct (Q (place (c_path k)) o k) as [Pk Qk]; auto; [exists k; auto|].
    rewrite Pk. simpl negb. cbv iota.
    assert (B : forall h', h_caches h' = h_caches h -> h_remotes h' = h_remotes h -> inv h' ->
                h_disk h' (place (c_path k)) = Some (r_id o) ->
                inv (with_cache c (set_c_remote r) (with_far r (set_r_cache (Some c)) h'))).
    { intros h' C' R' V' D'.
      assert (W : inv (with_far r (set_r_cache (Some c)) h')).
      { apply inv_bind; [|exact V']. intros o' Ho' c' Hc. simpl in Hc. injection Hc as <-.
        exists k. rewrite C'. split; [exact Ek|]. simpl. rewrite R' in Ho'. congruence. }
      apply inv_with_cache; [reflexivity| |exact W]. intros k' Hk' O. apply ok_c_remote; [|exact O].
      simpl in Hk'. assert (k' = k) by congruence. subst k'. simpl. intros i Hi.
      exists (set_r_cache (Some c) o). simpl. rewrite nth_upd, Nat.eqb_refl, R', E. simpl.
      sp; [reflexivity|congruence|discriminate]. }
    destruct u; [| |congruence].
    + apply (B h); auto.
    + simpl snd.
      assert (W : inv (with_disk (place (c_path k)) (Some (r_id o)) h)) by (apply inv_disk; [apply keeps_some; exact Qk|exact V]).
      apply inv_with_cache; [reflexivity| |].
      * intros k' Hk' O. apply ok_c_id; [discriminate|exact O].
      * apply (B (with_disk (place (c_path k)) (Some (r_id o)) h)); auto.
        rewrite disk_at. replace (list_eqb str_eqb (place (c_path k)) (place (c_path k))) with true by (symmetry; now apply place_eqb).
        reflexivity.
  - (* Outside *) simpl. apply inv_disk; [|exact V]. intros i Hi. now apply Q.
Qed.
Lemma inv_run : forall ks h, inv h -> quiet ks h -> inv (snd (run ks h)).
Proof.
  induction ks as [|k r IH]; intros h V Q; [exact V|]. destruct Q as [Q Qr].
  cbn [Triangle.run]. pose proof (inv_step k h V Q) as W.
  destruct (step k h) as [a h1]. simpl in W, Qr. specialize (IH h1 W Qr).
  destruct (run r h1) as [l h2]. exact IH.
Qed.
Lemma inv_empty d : inv (empty_heap d).
Proof. split; intros [|?] ? H; discriminate. Qed.

Lemma local_cache_says h l q i : inv h -> local_at cwd h l q -> h_disk h q = Some i ->
  exists c h1 k, local_cache cwd l h = (Ok (ACache c), h1) /\ inv h1 /\ h_disk h1 = h_disk h /\
    nth_error (h_caches h1) c = Some k /\ place (c_path k) = q.
Proof.
  intros V (o & E & P) D. pose proof (inv_local_cache h l V) as W. unfold local_cache in *. rewrite E in *.
  destruct (l_cache o) as [c|] eqn:Ec.
  - destruct (inv_l h V l o E c Ec) as (k & K & Pk). exists c, h, k. sp; auto. congruence.
  - rewrite P, D in *. unfold new_cache in *. cbv beta iota in *. simpl snd in W.
    eexists _, _, (mkC (l_path o) true None None None None). split; [reflexivity|].
    sp; [exact W|reflexivity| |exact P]. simpl. rewrite nth_snoc, Nat.eqb_refl. reflexivity.
Qed.
Lemma triangle h l q i : configured = true -> rc_anchor = true -> home (h_disk h) -> inv h -> distinct (h_disk h) ->
  local_at cwd h l q -> h_disk h q = Some i ->
  exists c h1 h2 r h3 c' l' h4 c'',
    step (LCache l) h = (Ok (ACache c), h1) /\ cache_at cwd h1 c q /\
    step (CId c) h1 = (Ok (AText i), h2) /\
    step (CRemote c) h2 = (Ok (ARemote r), h3) /\
    fst (step (RId r) h3) = Ok (AText i) /\
    fst (step (RCache r) h3) = Ok (ACache c') /\ cache_at cwd h3 c' q /\
    step (RLocal r) h3 = (Ok (ALocal l'), h4) /\ local_at cwd h4 l' q /\
    fst (step (LCache l') h4) = Ok (ACache c'') /\ cache_at cwd h4 c'' q.
Proof.
  intros CF RA HM V DI L D.
  destruct (local_cache_says h l q i V L D) as (c & h1 & k & E1 & V1 & D1 & K1 & P1).
  destruct (inv_cache_id h1 c k V1 K1) as (i1 & Di & I & V2 & G2 & D2 & k2 & K2 & Q2 & _).
  assert (i1 = i) by (rewrite P1, D1 in Di; congruence). subst i1.
  destruct (cache_id cwd c k h1) as [x h2] eqn:Ei. simpl in I, V2, G2, D2, K2. subst x.
  destruct (inv_cache_remote (fuel_for h2) h2 c k2 V2 K2) as (y & h3 & R & V3 & G3 & D3 & L3 & F3).
  { left. eapply fuel_ok; eauto. }
  destruct (F3 ltac:(rewrite D2, ?D1; exact HM)) as (x & -> & F3'). destruct (F3' CF) as (r & -> & i3 & Di3 & o & Ho & Hi & Hc).
  assert (i3 = i) by (rewrite Q2, P1, D3, D2, D1 in Di3; congruence). subst i3.
  destruct (r_cache o) as [c'|] eqn:Ec; [|congruence].
  destruct (inv_r h3 V3 r o Ho c' Ec) as (k' & K' & D').
  assert (P' : place (c_path k') = q).
  { apply (DI _ _ i); [|exact D]. rewrite <- D1, <- D2, <- D3, D'. congruence. }
  assert (X : exists c'' k'', match c_parent k' with Some p => p | None => c' end = c'' /\
                nth_error (h_caches h3) c'' = Some k'' /\ place (c_path k'') = q).
  { destruct (c_parent k') as [p|] eqn:Ep.
    - destruct (inv_c h3 V3 c' k' K') as [_ P]. destruct (P p Ep) as (_ & k'' & K'' & E''). exists p, k''. sp; auto. congruence.
    - exists c', k'. auto. }
  destruct X as (c'' & k'' & X1 & X2 & X3).
  set (o4 := mkL (c_path k') (Some c'')).
  exists c, h1, h2, r, h3, c', (length (h_locals h3)), (mkH (h_locals h3 ++ [o4]) (h_caches h3) (h_remotes h3) (h_disk h3)), c''.
  assert (RC : remote_cache rc_anchor r h3 = Ok (ACache c')).
  { unfold remote_cache. rewrite Ho, RA, Ec. reflexivity. }
  split; [exact E1|]. split; [exists k; auto|].
  split; [cbn [Triangle.step]; rewrite K1, Ei; reflexivity|].
  split; [cbn [Triangle.step]; rewrite R; reflexivity|].
  split; [cbn [Triangle.step]; rewrite Ho; simpl; congruence|].
  split; [exact RC|]. split; [exists k'; auto|].
  split.
  { cbn [Triangle.step]. rewrite RC. unfold cache_local. rewrite K'. unfold new_local. rewrite X1. reflexivity. }
  split; [exists o4; simpl; rewrite nth_snoc, Nat.eqb_refl; auto|].
  split; [|exists k''; auto].
  cbn [Triangle.step]. unfold local_cache. simpl. rewrite nth_snoc, Nat.eqb_refl. reflexivity.
Qed.
Lemma no_cache h l q : inv h -> local_at cwd h l q -> h_disk h q = None -> step (LCache l) h = (Ok ANone, h).
Proof.
  intros V (o & E & P) D. cbn [Triangle.step]. unfold local_cache. rewrite E.
  destruct (l_cache o) as [c|] eqn:Ec.
  - destruct (inv_l h V l o E c Ec) as (k & K & Pk). destruct (inv_c h V c k K) as [(i & A & _) _]. congruence.
  - rewrite P, D. reflexivity.
Qed.
Lemma far_back h r c i : configured = true -> home (h_disk h) -> inv h ->
  fst (step (RId r) h) = Ok (AText i) -> fst (step (RCache r) h) = Ok (ACache c) ->
  exists h1 h2 r', step (CId c) h = (Ok (AText i), h1) /\ step (CRemote c) h1 = (Ok (ARemote r'), h2) /\
    fst (step (RId r') h2) = Ok (AText i).
Proof.
  intros CF HM V I C. cbn [Triangle.step] in I, C. unfold remote_cache in C.
  destruct (nth_error (h_remotes h) r) as [o|] eqn:E; [|discriminate]. simpl in I, C. injection I as I.
  destruct rc_anchor; [|discriminate]. destruct (r_cache o) as [c0|] eqn:Ec; [|discriminate]. injection C as ->.
  destruct (inv_r h V r o E c Ec) as (k & K & D).
  destruct (inv_cache_id h c k V K) as (i1 & Di & J & V2 & G2 & D2 & k2 & K2 & Q2 & _).
  assert (i1 = i) by congruence. subst i1.
  destruct (cache_id cwd c k h) as [x h2] eqn:Ei. simpl in J, V2, G2, D2, K2. subst x.
  destruct (inv_cache_remote (fuel_for h2) h2 c k2 V2 K2) as (y & h3 & R & V3 & G3 & D3 & L3 & F3).
  { left. eapply fuel_ok; eauto. }
  destruct (F3 ltac:(rewrite D2, ?D1; exact HM)) as (x & -> & F3'). destruct (F3' CF) as (r' & -> & i3 & Di3 & o' & Ho & Hi & _).
  exists h2, h3, r'.
  split; [cbn [Triangle.step]; rewrite K, Ei; reflexivity|].
  split; [cbn [Triangle.step]; rewrite R; reflexivity|].
  cbn [Triangle.step]. rewrite Ho. simpl. rewrite Q2, D3, D2 in Di3. congruence.
Qed.

(** ** What is kept, whatever happens *)
Definition has_cache (l c : nat) (h : heap) : Prop := exists o, nth_error (h_locals h) l = Some o /\ l_cache o = Some c.
Lemma has_cache_snoc l c h o cs rs d : has_cache l c h -> has_cache l c (mkH (h_locals h ++ [o]) cs rs d).
Proof. intros (x & E & C). exists x. split; [now apply nth_old|exact C]. Qed.
Lemma has_cache_same l c h h' : h_locals h' = h_locals h -> has_cache l c h -> has_cache l c h'.
Proof. intros E (o & H). exists o. rewrite E. exact H. Qed.
Lemma cache_id_locals c k h : h_locals (snd (cache_id cwd c k h)) = h_locals h.
Proof.
  unfold cache_id. destruct (c_id k); [reflexivity|]. destruct (h_disk h _); [reflexivity|]. destruct (c_boot k); reflexivity.
Qed.
Lemma make_remote_locals c i h : h_locals (snd (make_remote configured c i h)) = h_locals h.
Proof. unfold make_remote. destruct configured; reflexivity. Qed.
Lemma cache_remote_locals : forall f c h, h_locals (snd (cache_remote cwd anchored configured f c h)) = h_locals h.
Proof.
  induction f as [|f IH]; intros c h; [reflexivity|]. cbn [cache_remote].
  destruct (nth_error (h_caches h) c) as [k|]; [|reflexivity].
  destruct (c_remote k); [reflexivity|]. destruct (c_parent k); [apply IH|].
  pose proof (cache_id_locals c k h) as L. destruct (cache_id cwd c k h) as [[i|] h1]; [|exact L]. simpl in L.
  destruct anchored.
  - pose proof (make_remote_locals c i h1) as M. destruct (make_remote configured c i h1). simpl in *. congruence.
  - destruct (pp_abs (c_path k)); [|destruct (_ && _)%bool; [exact L|]].
    + pose proof (make_remote_locals c i (with_cache c (set_c_boot (Some i)) h1)) as M.
      destruct (make_remote configured c i (with_cache c (set_c_boot (Some i)) h1)). simpl in *. congruence.
    + unfold new_cache. cbv beta iota. rewrite IH. exact L.
Qed.
Lemma local_cache_kept l c l' h : has_cache l c h -> has_cache l c (snd (local_cache cwd l' h)).
Proof.
  intro H. unfold local_cache. destruct (nth_error (h_locals h) l') as [o|] eqn:E; [|exact H].
  destruct (l_cache o) eqn:Ec; [exact H|]. destruct (h_disk h (place (l_path o))); [|exact H].
  unfold new_cache. cbv beta iota. destruct H as (x & X & C). exists x. split; [|exact C].
  simpl. rewrite nth_upd. destruct (Nat.eqb l l') eqn:El; [|exact X].
  apply Nat.eqb_eq in El. subst. congruence.
Qed.
Lemma step_kept l c k h : has_cache l c h -> has_cache l c (snd (step k h)).
Proof.
  intro H. destruct k; cbn [Triangle.step];
    repeat match goal with |- context [match nth_error ?x ?y with _ => _ end] => is_var y; destruct (nth_error x y) eqn:? end;
    try exact H.
  - now apply has_cache_snoc.
  - now apply local_cache_kept.
  - pose proof (local_cache_kept l c l0 h H) as W. destruct (local_cache cwd l0 h) as [[a|e] h1]; [|exact W].
    destruct a; try exact W. unfold as_far. cbn [snd]. eapply has_cache_same; [apply cache_remote_locals|exact W].
  - pose proof (local_cache_kept l c l0 h H) as W. destruct (local_cache cwd l0 h) as [[a|e] h1]; [|exact W].
    simpl in W. destruct a, (h_disk h1 (place (l_path l1))), there; exact W.
  - pose proof (local_cache_kept l c l0 h H) as W. destruct (local_cache cwd l0 h) as [[a|e] h1]; exact W.
  - unfold cache_local. destruct (nth_error (h_caches h) c0); [now apply has_cache_snoc|exact H].
  - unfold as_far. cbn [snd]. eapply has_cache_same; [apply cache_remote_locals|exact H].
  - pose proof (cache_id_locals c0 c1 h) as L. destruct (cache_id cwd c0 c1 h) as [i h1]. eapply has_cache_same; [exact L|exact H].
  - destruct (h_disk h _); exact H.
  - destruct (c_primary c1); [|exact H]. unfold set_meta. destruct there; [exact H|]. destruct (c_remote c1); exact H.
  - unfold remote_cache. destruct (nth_error (h_remotes h) r) as [o|]; [|exact H]. destruct rc_anchor; [|exact H].
    destruct (r_cache o) as [c0|]; [|exact H].
    unfold cache_local. destruct (nth_error (h_caches h) c0); [now apply has_cache_snoc|exact H].
  - destruct (negb (c_primary c1)); [exact H|]. destruct u; exact H.
Qed.
Lemma run_kept l c : forall ks h, has_cache l c h -> has_cache l c (snd (run ks h)).
Proof.
  induction ks as [|k r IH]; intros h H; [exact H|]. cbn [Triangle.run].
  pose proof (step_kept l c k h H) as W. destruct (step k h) as [a h1].
  specialize (IH h1 W). destruct (run r h1). exact IH.
Qed.
Lemma kept l c h h1 ks : step (LCache l) h = (Ok (ACache c), h1) ->
  fst (step (LCache l) (snd (run ks h1))) = Ok (ACache c).
Proof.
  intro S. assert (H : has_cache l c h1).
  { cbn [Triangle.step] in S. unfold local_cache in S. destruct (nth_error (h_locals h) l) as [o|] eqn:E; [|discriminate].
    destruct (l_cache o) eqn:Ec.
    - injection S as -> <-. exists o. auto.
    - destruct (h_disk h (place (l_path o))); [|discriminate]. unfold new_cache in S. cbv beta iota in S.
      injection S as <- <-. eexists. simpl. rewrite nth_upd, Nat.eqb_refl, E. simpl. split; reflexivity. }
  destruct (run_kept l c ks h1 H) as (o & E & C). cbn [Triangle.step]. unfold local_cache. rewrite E, C. reflexivity.
Qed.
End Class.

Lemma back anchored ks d l q i :
  let h := snd (Triangle.run cwd anchored true true ks (empty_heap d)) in
  let step := Triangle.step cwd anchored true true in
  quiet cwd anchored true true ks (empty_heap d) -> distinct (h_disk h) -> anchored = true \/ h_disk h cwd <> None ->
  local_at cwd h l q -> h_disk h q = Some i ->
  exists c h1 h2 r h3 c' l' h4 c'',
    step (LCache l) h = (Ok (ACache c), h1) /\ cache_at cwd h1 c q /\
    step (CId c) h1 = (Ok (AText i), h2) /\
    step (CRemote c) h2 = (Ok (ARemote r), h3) /\
    fst (step (RId r) h3) = Ok (AText i) /\
    fst (step (RCache r) h3) = Ok (ACache c') /\ cache_at cwd h3 c' q /\
    step (RLocal r) h3 = (Ok (ALocal l'), h4) /\ local_at cwd h4 l' q /\
    fst (step (LCache l') h4) = Ok (ACache c'') /\ cache_at cwd h4 c'' q.
Proof.
  intros h step Q D H. apply triangle; try reflexivity; auto. apply inv_run; [apply inv_empty|exact Q].
Qed.
Lemma back_far anchored rc_anchor ks d r c i :
  let h := snd (Triangle.run cwd anchored true rc_anchor ks (empty_heap d)) in
  let step := Triangle.step cwd anchored true rc_anchor in
  quiet cwd anchored true rc_anchor ks (empty_heap d) -> anchored = true \/ h_disk h cwd <> None ->
  fst (step (RId r) h) = Ok (AText i) -> fst (step (RCache r) h) = Ok (ACache c) ->
  exists h1 h2 r', step (CId c) h = (Ok (AText i), h1) /\ step (CRemote c) h1 = (Ok (ARemote r'), h2) /\
    fst (step (RId r') h2) = Ok (AText i).
Proof.
  intros h step Q H. apply far_back; try reflexivity; auto. apply inv_run; [apply inv_empty|exact Q].
Qed.
Lemma back_none anchored configured rc_anchor ks d l q :
  let h := snd (Triangle.run cwd anchored configured rc_anchor ks (empty_heap d)) in
  quiet cwd anchored configured rc_anchor ks (empty_heap d) -> local_at cwd h l q -> h_disk h q = None ->
  Triangle.step cwd anchored configured rc_anchor (LCache l) h = (Ok ANone, h).
Proof. intros h Q. apply no_cache. apply inv_run; [apply inv_empty|exact Q]. Qed.
End Triangle.

Lemma two_places (a b : list str) (i j : str) d : i <> j ->
  (forall q, d q = if list_eqb str_eqb q a then Some i else if list_eqb str_eqb q b then Some j else None) -> distinct d.
Proof.
  intros N H q q' x. rewrite !H.
  destruct (list_eqb str_eqb q a) eqn:A, (list_eqb str_eqb q' a) eqn:A', (list_eqb str_eqb q b) eqn:B, (list_eqb str_eqb q' b) eqn:B';
    rewrite ?place_eqb in *; intros X Y; try discriminate; try congruence;
    apply place_eqb in A || apply place_eqb in B; apply place_eqb in A' || apply place_eqb in B'; congruence.
Qed.
