(** * Copies with their metadata *)
From Coq Require Import String NArith ZArith Bool List Lia.
From Verif Require Import Model.Py Model.PurePath Model.Meta Model.MetaEncode Model.MetaXattr Model.MetaUpdate
  Model.Fs Model.PathOps Model.Sparse Model.Copy Model.Cache Model.MkdirRemote Model.CopyMeta
  Spec.FsSpec Spec.LoopSpec Spec.CopySpec Spec.MetaSpec Spec.XattrSpec Spec.CacheSpec Spec.CopyMetaSpec
  Proofs.PyLemmas Proofs.PathLemmas Proofs.MetaXattrProofs Proofs.FsLemmas Proofs.RunLemmas Proofs.RmtreeProofs Proofs.MoveLemmas Proofs.CopyProofs Proofs.Hoare Proofs.SlotLemmas Proofs.CacheLemmas Proofs.CacheOps
  Proofs.AttrLemmas Proofs.AttrRead Proofs.AttrCopy Proofs.FetchProofs Proofs.FetchLive Proofs.MkdirRemoteLive Proofs.SysidProofs.
Import ListNotations.

(** ** What stays *)
Definition keeps {A} (m : M A) : Prop := forall w r w', m w = (r, w') -> w_cwd w' = w_cwd w /\ w_fault w' = w_fault w.
Lemma keeps_quiet {A} (m : M A) : quiet m -> keeps m.
Proof. intros Q w r w' H. apply Q in H as (_ & C & _ & T). now split. Qed.
Lemma keeps_sys {A} (f : node -> place -> res (A * node)) : keeps (sys f).
Proof. intros w r w' H. apply sys_inv in H as [(e & _ & (_ & C & _ & T) & _)|(a & s & _ & _ & (_ & C & _ & T))]; now split. Qed.
Lemma keeps_bind {A B} (m : M A) (f : A -> M B) : keeps m -> (forall a, keeps (f a)) -> keeps (bind m f).
Proof.
  intros Km Kf w r w' H. apply bind_inv in H as [(a & w1 & H1 & H)|(e & H1 & ->)]; [|exact (Km _ _ _ H1)].
  apply Km in H1 as [C1 T1]. apply Kf in H as [C T]. split; congruence.
Qed.
Lemma keeps_drain n S T : forall fuel pos, keeps (drain T (read_feed fuel n S pos)).
Proof.
  induction fuel as [|fuel IH]; intros pos w r w' H; cbn [read_feed drain] in H.
  - unfold raise in H. injection H as _ <-. now split.
  - destruct ((let! d <- sys_read S pos n ; match d with [] => ret None | _ :: _ => ret (Some (d, read_feed fuel n S (pos + length d))) end) w) as [v w1] eqn:E.
    assert (K1 : same w w1 /\ forall c g, v = Ok (Some (c, g)) -> exists k, g = read_feed fuel n S k).
    { apply bind_inv in E as [(a & w2 & E1 & E)|(e & E1 & ->)]; apply ask_inv in E1 as [S1 _].
      - destruct a; injection E as <- <-; (split; [exact S1|]); intros c g Q; [discriminate|]. injection Q as _ <-. eauto.
      - split; [exact S1|discriminate]. }
    destruct K1 as ((_ & C1 & _ & T1) & Kg). destruct v as [[[c g]|]|e]; try (injection H as _ <-; now split).
    destruct (Kg c g eq_refl) as (k & ->). destruct (sys_append T c w1) as [v2 w2] eqn:E2. apply keeps_sys in E2 as [C2 T2].
    destruct v2; [apply IH in H as [C T0]; split; congruence|]. injection H as _ <-. split; congruence.
Qed.
Lemma keeps_write p fuel n self : keeps (write_chunks p (data_feed fuel n self)).
Proof.
  intros w r w' H. unfold write_chunks in H.
  apply bind_inv in H as [(v & w1 & H1 & H)|(e & H1 & ->)].
  - assert (K1 : same w w1 /\ forall c g, v = Some (c, g) -> exists f S k, g = read_feed f n S k).
    { unfold data_feed in H1. cbn [pull] in H1. apply bind_inv in H1 as [(q & w2 & E1 & E)|(e & E1 & E)]; [|discriminate]. apply ask_inv in E1 as [S1 _].
      destruct fuel as [|f]; cbn [read_feed pull] in E; [discriminate|]. apply bind_inv in E as [(a & w3 & E2 & E)|(e & E2 & E)]; [|discriminate].
      apply ask_inv in E2 as [S2 _]. pose proof (same_trans _ _ _ S1 S2) as S3. destruct a; injection E as <- <-; (split; [exact S3|]); intros c g Q; [discriminate|]. injection Q as _ <-. eauto. }
    destruct K1 as ((_ & C1 & _ & T1) & Kg). destruct v as [[c g]|]; [|injection H as _ <-; now split].
    destruct (Kg c g eq_refl) as (f & S & k & ->).
    assert (C2 : w_cwd w' = w_cwd w1 /\ w_fault w' = w_fault w1).
    { revert H. apply (keeps_bind (sys_create p)); [apply keeps_sys|]. intro q. apply keeps_bind; [apply keeps_sys|]. intros _. apply keeps_drain. }
    destruct C2. split; congruence.
  - unfold data_feed in H1. cbn [pull] in H1. apply bind_inv in H1 as [(q & w2 & E1 & E)|(e1 & E1 & E)]; apply ask_inv in E1 as [S1 _].
    + destruct S1 as (_ & C1 & _ & T1). destruct fuel as [|f]; cbn [read_feed pull] in E; [unfold raise in E; injection E as _ <-; now split|].
      apply bind_inv in E as [(a & w3 & E2 & E)|(e1 & E2 & E)]; apply ask_inv in E2 as [(_ & C2 & _ & T2) _]; [destruct a; discriminate|]. split; congruence.
    + destruct S1 as (_ & C1 & _ & T1). now split.
Qed.

Section Meta.
Variable K : conf.

(** ** The metadata of the source *)
Lemma source_meta self S d xs w r w' : honest (w_fault w) -> walk (w_fs w) (w_cwd w) true self = Found S (File d xs) -> cache_meta K self w = (r, w') ->
  same w w' /\ (forall o, r = Ok o -> recorded K [] (Some (AFile d xs)) = Ok o) /\ (no_fault w -> r = recorded K [] (Some (AFile d xs))).
Proof.
  intros Ho W H. unfold cache_meta in H. cbn [recorded].
  assert (Ex : forall w0 b w1, same w w0 -> p_exists self w0 = (Ok b, w1) -> b = true /\ same w w1).
  { intros w0 b w1 S0 E. pose proof S0 as (F & C & _ & Tf). apply test_honest in E as [S1 E]; [|now rewrite Tf]. rewrite F, C in E. split; [|exact (same_trans _ _ _ S0 S1)].
    destruct b; [reflexivity|]. apply E in W. discriminate. }
  assert (Ee : forall w0 e w1, same w w0 -> p_exists self w0 = (Err e, w1) -> same w w1 /\ ~ no_fault w).
  { intros w0 e w1 S0 E. split.
    - apply test_inv in E as [S1 _]. exact (same_trans _ _ _ S0 S1).
    - intro N. destruct (test_run true self (fun _ => true) w0 (no_fault_same _ _ S0 N)) as (w2 & _ & E2). unfold p_exists in E. rewrite E2 in E.
      pose proof S0 as (F & C & _). rewrite F, C, W in E. discriminate. }
  apply bind_inv in H as [(b & w1 & H1 & H)|(e & H1 & ->)].
  2:{ destruct (Ee w e w' (same_refl w) H1) as [S1 N]. split; [exact S1|]. split; [discriminate|]. intro; contradiction. }
  destruct (Ex w b w1 (same_refl w) H1) as [-> S1]. clear H1.
  apply bind_inv in H as [(m & w2 & H1 & H)|(e & H1 & ->)]; unfold eat_meta in H1;
    (apply bind_inv in H1 as [(b & w3 & H2 & H1)|(e2 & H2 & H1)]; [destruct (Ex w1 b w3 S1 H2) as [-> S3]; clear H2|]).
  - apply bind_inv in H1 as [(ys & w4 & H2 & H1)|(e2 & H2 & H1)]; [|discriminate]. apply ask_inv in H2 as [S4 H2]. pose proof S3 as (F3 & C3 & _). unfold lookup in H2. rewrite F3, C3, W in H2.
    destruct H2 as [H2|(e & H2 & _)]; [|discriminate]. apply Ok_inj in H2. subst ys. unfold lift, bind, ret in H1.
    destruct (from_xattrs (c_legacy K) (user_attrs xs) (c_prefix K)) as [m0|] eqn:E0; [|discriminate]. injection H1 as <- <-. cbn [meta_true rbind] in *.
    pose proof (same_trans _ _ _ S3 S4) as S5. destruct (meta_bool m0); injection H as <- <-; (split; [exact S5|]); (split; [|reflexivity]); intros o Q; exact Q.
  - discriminate.
  - apply bind_inv in H1 as [(ys & w4 & H2 & H1)|(e2 & H2 & H1)]; apply ask_inv in H2 as [S4 H2]; pose proof S3 as (F3 & C3 & _ & T3); unfold lookup in H2; rewrite F3, C3, W in H2;
      pose proof (same_trans _ _ _ S3 S4) as S5.
    + destruct H2 as [H2|(e2 & H2 & _)]; [|discriminate]. apply Ok_inj in H2. subst ys. unfold lift, bind, ret in H1.
      destruct (from_xattrs (c_legacy K) (user_attrs xs) (c_prefix K)) as [m0|] eqn:E0; [discriminate|]. injection H1 as <- <-. cbn [rbind]. split; [exact S5|]. split; [discriminate|reflexivity].
    + split; [exact S5|]. split; [discriminate|]. intro N. destruct H2 as [H2|(e3 & _ & H2)]; [discriminate|]. rewrite T3, N in H2. discriminate.
  - injection H1 as ->. destruct (Ee w1 _ _ S1 H2) as [S3 N]. split; [exact S3|]. split; [discriminate|]. intro; contradiction.
Qed.

(** a path still leads where it led after a file was written elsewhere *)
Lemma still_leads fs T d' ys cwd self S d xs : slot fs T -> S <> T -> walk fs cwd true self = Found S (File d xs) ->
  walk (put fs T (File d' ys)) cwd true self = Found S (File d xs).
Proof.
  intros HT N W. assert (Q : forall cur comps, walk_from fs true max_links cur comps = Found S (File d xs) -> walk_from (put fs T (File d' ys)) true max_links cur comps = Found S (File d xs)).
  { intros cur comps E. destruct (walk_file fs T d' ys HT true max_links cur comps) as [M|M].
    - rewrite E in M. destruct M as (n' & M). rewrite M. f_equal. pose proof (walk_found_get _ _ _ _ _ _ _ M) as G'. pose proof (walk_found_get _ _ _ _ _ _ _ E) as G.
      rewrite (slot_other fs T S d xs _ HT G N) in G'. congruence.
    - rewrite walk_eq in E. rewrite M in E. discriminate. }
  unfold walk in W |- *. destruct (pp_abs self); now apply Q.
Qed.

(** ** Storing the metadata *)
Section Init.
Variables (D : place) (x : str) (I : node -> Prop) (F : node) (J : option thing -> Prop) (m : pathmeta).
Hypothesis Hx : good_name x.
Hypothesis HI : forall s v, St D x F v s -> J v -> I s.
Hypothesis Bm : meta_bool m = true.
Notation p := (path_of (D ++ [x])).
Lemma none_recorded d ys o : recorded K x (Some (AFile d ys)) = Ok o -> meta_true o = false ->
  o = None /\ exists m0, from_xattrs (c_legacy K) (user_attrs ys) (c_prefix K) = Ok m0 /\ meta_bool m0 = false.
Proof.
  cbn [recorded]. intros R B. destruct (from_xattrs (c_legacy K) (user_attrs ys) (c_prefix K)) as [m0|]; [|discriminate]. cbn [rbind] in R. apply Ok_inj in R. subst o.
  destruct (meta_bool m0) eqn:E; [cbn [meta_true] in B; congruence|]. split; [reflexivity|]. now exists m0.
Qed.
Definition post (d : bytes) (ys : Fs.xattrs) {A} (r : res A) (s : node) : Prop := match r with
  | Ok _ => exists l, set_list K m = Ok l /\ St D x F (Some (AFile d (setall l ys))) s
  | Err _ => exists l k, (l = [] \/ set_list K m = Ok l) /\ St D x F (Some (AFile d (setall (firstn k l) ys))) s end.
Lemma t_init d ys : (forall l k, set_list K m = Ok l -> J (Some (AFile d (setall (firstn k l) ys)))) ->
  tri I (St D x F (Some (AFile d ys))) (cache_init_meta K p m)
    (fun r s => match r with
       | Ok _ => recorded K x (Some (AFile d ys)) = Ok None /\ exists l, set_list K m = Ok l /\ St D x F (Some (AFile d (setall l ys))) s
       | Err _ => exists l k, (l = [] \/ set_list K m = Ok l) /\ St D x F (Some (AFile d (setall (firstn k l) ys))) s end).
Proof.
  intro HJ. unfold cache_init_meta.
  assert (E0 : forall s, St D x F (Some (AFile d ys)) s -> exists l k, (l = [] \/ set_list K m = Ok l) /\ St D x F (Some (AFile d (setall (firstn k l) ys))) s).
  { intros s H. exists [], 0%nat. split; [now left|exact H]. }
  eapply tri_bindk; [apply tk_cache_meta, Hx| |intros e s H; exact (E0 s H)]. intros o. cbv beta iota; apply tri_known; intro R.
  destruct (meta_true o) eqn:B; [apply tri_raise; exact E0|]. destruct (none_recorded _ _ _ R B) as (-> & _).
  eapply tri_bindk; [apply tk_exists, Hx| |intros e s H; exact (E0 s H)]. intros b. cbv beta iota; apply tri_known; intros ->. cbn [isE negb]. rewrite Bm.
  apply (tri_bind _ _ _ _ (post d ys)); [|intros a; apply tri_ret; intros s H; split; [exact R|exact H]|intros e s H; exact H].
  unfold meta_updater. eapply tri_bindk; [apply tk_cache_meta, Hx| |intros e s H; exact (E0 s H)]. intros o. cbv beta iota; apply tri_known; intro R2.
  rewrite R in R2. apply Ok_inj in R2. subst o. unfold update_meta. cbn [negb].
  match goal with |- tri I ?P _ ?Q => change (tri I P (let! _ <- catch (let! _ <- cache_set K p (Some m) ; ret tt) (fun e => let! _ <- ret tt ; raise e) ; ret false) Q) end.
  apply (tri_bind _ _ _ _ (post d ys)); [|intros a; apply tri_ret; intros s H; exact H|intros e s H; exact H].
  apply (tri_catch _ _ _ _ (post d ys)).
  - apply (tri_bind _ _ _ _ (post d ys)); [exact (t_cache_set_file K D x Hx I F J HI d ys m Bm HJ)|intros a; apply tri_ret; intros s H; exact H|intros e s H; exact H].
  - intros e. apply (tri_bind _ _ _ _ (fun _ => post d ys (@Err unit e))); [apply tri_ret; intros s H; exact H|intros a; apply tri_raise; intros s H; exact H|intros e' s H; exact H].
  - intros a s H; exact H.
Qed.
End Init.

(** ** The content *)
Lemma data_stage fs cwd fuel n self target S T d w r w' : good_fs fs -> reads fs cwd self S -> writes fs cwd target T -> S <> T ->
  content fs S = Some d -> (0 < n)%nat -> w_fs w = fs -> w_cwd w = cwd -> data_set K target (data_feed fuel n self) w = (r, w') ->
  copied fs T d w w' /\ (r = Ok tt -> w_fs w' = put fs T (File d (file_xattrs fs T))) /\ w_cwd w' = w_cwd w /\ w_fault w' = w_fault w.
Proof.
  intros G R W N C Hn Fw Cw H. unfold data_set in H.
  assert (Wr : forall w1 r1 w2, same w w1 -> write_chunks target (data_feed fuel n self) w1 = (r1, w2) ->
    copied fs T d w w2 /\ (r1 = Ok tt -> w_fs w2 = put fs T (File d (file_xattrs fs T))) /\ w_cwd w2 = w_cwd w /\ w_fault w2 = w_fault w).
  { intros w1 r1 w2 S1 E. pose proof S1 as (F1 & C1 & _ & T1).
    destruct (CopyProofs.set_data_run fs cwd fuel n self target S T d w1 r1 w2 G R W N C Hn (eq_trans F1 Fw) (eq_trans C1 Cw) E) as (Q1 & Q2 & _).
    split; [exact (copied_same _ _ _ _ _ _ S1 Q1)|]. split; [exact Q2|]. apply keeps_write in E as [C2 T2]. split; congruence. }
  assert (Sm : forall w2, same w w2 -> forall r1 : res unit, r1 <> Ok tt -> copied fs T d w w2 /\ (r1 = Ok tt -> w_fs w2 = put fs T (File d (file_xattrs fs T))) /\ w_cwd w2 = w_cwd w /\ w_fault w2 = w_fault w).
  { intros w2 S2 r1 Nr. split; [now left|]. split; [contradiction|]. destruct S2 as (_ & C2 & _ & T2). now split. }
  apply bind_inv in H as [(o & w1 & H1 & H)|(e & H1 & ->)]; apply (quiet_cache_meta K) in H1 as S1; [|apply Sm; [exact S1|discriminate]].
  destruct o as [m|].
  - unfold cache_set_data in H. apply bind_inv in H as [(o & w2 & H2 & H)|(e & H2 & ->)]; apply (quiet_cache_meta K) in H2 as S2; apply (same_trans _ _ _ S1) in S2; [|apply Sm; [exact S2|discriminate]].
    apply bind_inv in H as [(u & w3 & H3 & H)|(e & H3 & ->)]; apply (Wr _ _ _ S2) in H3 as (Q1 & Q2 & Q3 & Q4); [|split; [exact Q1|]; split; [discriminate|now split]].
    destruct u. assert (Qs : same w3 w').
    { revert H. apply quiet_bind; [apply quiet_cache_meta|]. intro o2. destruct (meta_true o2); [|apply quiet_raise].
      apply quiet_bind; [apply quiet_cache_meta|]. intro o3. destruct (meta_true o3); [|apply quiet_raise].
      apply quiet_bind; [apply quiet_cache_meta|]. intro o4. destruct (meta_true o4); [apply quiet_ret|apply quiet_raise]. }
    destruct Qs as (F5 & C5 & H5 & T5). split.
    + destruct Q1 as [(E1 & E2 & E3 & E4)|(l & E1 & E2)]; [left; split; [congruence|]; split; [congruence|]; split; congruence|]. right. exists l. rewrite H5, F5. now split.
    + split; [intros _; rewrite F5; now apply Q2|]. split; congruence.
  - apply bind_inv in H as [(o & w2 & H2 & H)|(e & H2 & ->)]; apply (quiet_cache_meta K) in H2 as S2; apply (same_trans _ _ _ S1) in S2; [|apply Sm; [exact S2|discriminate]].
    destruct o; [injection H as <- <-; apply Sm; [exact S2|discriminate]|]. exact (Wr _ _ _ S2 H).
Qed.

(** ** The whole *)
Section Copy.
Variables (fs : node) (cwd : place) (fuel n : nat) (self : ppath) (S : place) (D : place) (x : str) (d : bytes) (xs : Fs.xattrs).
Notation T := (D ++ [x]).
Notation target := (path_of (D ++ [x])).
Notation ys := (file_xattrs fs T).
Hypothesis G : good_fs fs.
Hypothesis W : walk fs cwd true self = Found S (File d xs).
Hypothesis Fr : free_or_file fs D x.
Hypothesis N : S <> T.
Hypothesis Hn : (0 < n)%nat.

Lemma target_writes : writes fs cwd target T.
Proof.
  destruct Fr as (Hx & Hd & L). assert (Fi : fine D x fs). { split; [exact G|]. split; [exact Hd|]. intros t Q. rewrite Q in L. contradiction. }
  unfold writes. rewrite (walk_true D x Hx fs cwd Fi). rewrite look_get in L. destruct (get fs T) as [[]|]; try contradiction; [left; eauto|right; eauto].
Qed.
Lemma target_slot : slot fs T. Proof. exact (writes_slot _ _ _ _ G target_writes). Qed.
Lemma source_reads : reads fs cwd self S. Proof. now exists d, xs. Qed.
Lemma source_content : content fs S = Some d. Proof. apply walk_found_get in W. unfold content, look. now rewrite W. Qed.
Lemma put_St d' zs : good_fs (put fs T (File d' zs)) -> St D x (put fs T (File d' zs)) (Some (AFile d' zs)) (put fs T (File d' zs)).
Proof.
  intro G'. destruct Fr as (Hx & Hd & L). split; [|split].
  - split; [exact G'|]. split.
    + destruct Hd as (a & Hd). exists a. rewrite <- Hd. apply put_look; [exact target_slot|exact Logic.I|]. intro Q. apply (f_equal (@length _)) in Q. rewrite app_length in Q. cbn in Q. lia.
    + intros t Q. rewrite look_get, (slot_get _ _ _ target_slot) in Q. discriminate.
  - intros q _. reflexivity.
  - now rewrite look_get, (slot_get _ _ _ target_slot).
Qed.
Lemma St_only d' zs v s : St D x (put fs T (File d' zs)) (Some v) s -> (match v with AFile _ _ => True | _ => False end) -> only_at T fs s.
Proof.
  intros (_ & O & L) Hv q Nq. destruct (below_dec T q) as [B|B].
  - destruct B as (rr & ->). destruct rr as [|c rr]; [rewrite app_nil_r in Nq; contradiction|].
    assert (Z : forall s0, (forall a e, get s0 T <> Some (Dir a e)) -> look s0 (T ++ c :: rr) = None).
    { intros s0 H0. apply look_none. destruct (get s0 (T ++ c :: rr)) eqn:E; [|reflexivity]. apply get_above in E as (a & e & E). now apply H0 in E. }
    rewrite !Z; [reflexivity| |].
    + intros a e Q. destruct Fr as (_ & _ & L2). rewrite look_get, Q in L2. contradiction.
    + intros a e Q. rewrite look_get, Q in L. injection L as <-. contradiction.
  - rewrite (O q B). apply put_look; [exact target_slot|exact Logic.I|exact Nq].
Qed.
Lemma put_good d' zs : good_fs (put fs T (File d' zs)).
Proof. destruct Fr as (Hx & Hd & _). apply good_put_new; [exact G|exact Hd|exact Hx|constructor]. Qed.
Lemma put_only d' zs : only_at T fs (put fs T (File d' zs)).
Proof. intros q Nq. apply put_look; [exact target_slot|exact Logic.I|exact Nq]. Qed.
Lemma put_at d' zs : look (put fs T (File d' zs)) T = Some (AFile d' zs).
Proof. now rewrite look_get, (slot_get _ _ _ target_slot). Qed.

Definition rest (copy : bool) : M unit :=
  if copy then let! m <- cache_meta K self ; match m with None => raise AttributeError | Some m => cache_init_meta K target m end else ret tt.
Lemma copy_eq force copy w : copy_to K fuel n self target force copy w =
  (let! go <- may_go target force ; let! _ <- (if go then data_set K target (data_feed fuel n self) else raise PathExistsErr) ; rest copy) w.
Proof. unfold copy_to, may_go, bind, rest. destruct (p_exists target w) as [[[|]|e] w1]; reflexivity. Qed.

(** what the attributes become *)
Lemma fields_only m l k : set_list K m = Ok l -> only_fields K ys (setall (firstn k l) ys).
Proof.
  intros El key Hk. apply setall_other. intros kb b I. apply firstn_In in I. apply (write_inv (c_dateparse K) _ _ _ _ El) in I as (f & v & _ & _ & _ & Ef & _).
  apply enc_inv in Ef as (_ & _ & Ef). apply (Hk f). destruct (c_prefix K) as [[|]|]; exact Ef.
Qed.

Definition seen (s : node) : Prop := only_at T fs s /\ copying K fs T d s.
Lemma copied_seen w w1 : copied fs T d w w1 -> Forall seen (states w) -> w_fs w = fs -> Forall seen (states w1).
Proof.
  intros C Fw Ew. unfold states in *. inversion Fw as [|? ? F1 F2]; subst. destruct C as [(E1 & _ & E2 & _)|(l & E & Fo)].
  - rewrite E1, E2. constructor; assumption.
  - rewrite E. inversion Fo as [|? ? F3 F4]; subst.
    assert (Q : forall s, partly fs T d ys s -> seen s). { intros s (k & ->). split; [apply put_only|]. right. left. exists k. apply put_at. }
    constructor; [now apply Q|]. apply Forall_app. split; [|exact F2]. apply Forall_forall. intros s I. rewrite Forall_forall in F4. apply Q. now apply F4.
Qed.

Lemma rest_run copy w r w' : honest (w_fault w) -> w_cwd w = cwd -> w_fs w = put fs T (File d ys) -> Forall seen (states w) -> rest copy w = (r, w') ->
  Forall seen (states w') /\
  (r = Ok tt -> if copy
     then exists m l m0, recorded K [] (Some (AFile d xs)) = Ok (Some m) /\ set_list K m = Ok l /\
       from_xattrs (c_legacy K) (user_attrs ys) (c_prefix K) = Ok m0 /\ meta_bool m0 = false /\
       look (w_fs w') T = Some (AFile d (setall l ys)) /\ only_at T fs (w_fs w')
     else w_fs w' = w_fs w).
Proof.
  intros Ho Cw Fw Se H. unfold rest in H. destruct copy; [|injection H as <- <-; split; [exact Se|reflexivity]].
  assert (W' : walk (w_fs w) (w_cwd w) true self = Found S (File d xs)). { rewrite Fw, Cw. apply still_leads; [exact target_slot|exact N|exact W]. }
  apply bind_inv in H as [(o & w1 & H1 & H)|(e & H1 & ->)]; destruct (source_meta self S d xs _ _ _ Ho W' H1) as (S1 & R1 & _); pose proof S1 as (F1 & C1 & Hh & T1).
  2:{ split; [unfold states in *; now rewrite F1, Hh|discriminate]. }
  destruct o as [m|]; [|injection H as <- <-; split; [unfold states in *; now rewrite F1, Hh|discriminate]].
  specialize (R1 _ eq_refl).
  assert (Bm : meta_bool m = true). { cbn [recorded] in R1. destruct (from_xattrs (c_legacy K) (user_attrs xs) (c_prefix K)) as [m1|]; [|discriminate]. cbn [rbind] in R1. destruct (meta_bool m1) eqn:E; [|discriminate]. congruence. }
  set (F := put fs T (File d ys)).
  set (J := fun v => exists l k, set_list K m = Ok l /\ v = Some (AFile d (setall (firstn k l) ys))).
  destruct Fr as (Hx & _).
  assert (HI : forall s v, St D x F v s -> J v -> seen s).
  { intros s v Hs (l & k & El & ->). split; [exact (St_only _ _ _ _ Hs Logic.I)|]. right. right. destruct Hs as (_ & _ & L). eexists. split; [exact L|]. now apply (fields_only m). }
  assert (Tr := t_init D x seen F J m Hx HI Bm d ys (fun l k El => ex_intro _ l (ex_intro _ k (conj El eq_refl)))).
  destruct (Tr w1 r w') as (Po & _ & _ & (l & El & Fl)).
  { now rewrite T1. } { rewrite F1, Fw. apply put_St, put_good. } { exact H. }
  split.
  - unfold states in *. pose proof (Forall_inv_tail Se) as Se2. rewrite El, Hh. constructor; [|apply Forall_app; split; assumption].
    destruct r as [u|e].
    + destruct Po as (_ & l' & El' & Hs). split; [exact (St_only _ _ _ _ Hs Logic.I)|]. right. right. destruct Hs as (_ & _ & L). eexists. split; [exact L|].
      rewrite <- (firstn_all l'). now apply (fields_only m).
    + destruct Po as (l' & k & El' & Hs). split; [exact (St_only _ _ _ _ Hs Logic.I)|]. right. right. destruct Hs as (_ & _ & L). eexists. split; [exact L|].
      destruct El' as [->|El']; [rewrite firstn_nil; intros key _; reflexivity|now apply (fields_only m)].
  - intros ->. destruct Po as (R2 & l' & El' & Hs). destruct (none_recorded x d ys None R2 eq_refl) as (_ & m0 & E0 & B0).
    exists m, l', m0. split; [exact R1|]. split; [exact El'|]. split; [exact E0|]. split; [exact B0|]. split; [apply Hs|exact (St_only _ _ _ _ Hs Logic.I)].
Qed.

Lemma copy_all force copy fault r w' : honest fault -> copy_to K fuel n self target force copy (start fs cwd fault) = (r, w') ->
  Forall seen (states w') /\
  (r = Ok tt -> (force = false -> ~ occupied fs cwd target) /\ if copy
     then exists m l m0, recorded K [] (Some (AFile d xs)) = Ok (Some m) /\ set_list K m = Ok l /\
       from_xattrs (c_legacy K) (user_attrs ys) (c_prefix K) = Ok m0 /\ meta_bool m0 = false /\
       look (w_fs w') T = Some (AFile d (setall l ys)) /\ only_at T fs (w_fs w')
     else look (w_fs w') T = Some (AFile d ys) /\ only_at T fs (w_fs w')).
Proof.
  intros Ho H. rewrite copy_eq in H. set (w := start fs cwd fault) in H.
  assert (S0 : Forall seen (states w)). { assert (Q : seen fs) by (split; [intros q _; reflexivity|now left]). repeat constructor; exact Q. }
  apply bind_inv in H as [(go & w1 & H1 & H)|(e & H1 & ->)]; pose proof (may_go_same _ _ _ _ _ H1) as S1; pose proof S1 as (F1 & C1 & Hh1 & T1).
  2:{ split; [unfold states in *; now rewrite F1, Hh1|discriminate]. }
  assert (Se1 : Forall seen (states w1)) by (unfold states in *; now rewrite F1, Hh1).
  destruct go; [|injection H as <- <-; split; [exact Se1|discriminate]].
  assert (Oc : force = false -> ~ occupied fs cwd target). { intros -> Q. exact (may_go_no target w _ _ Ho Q H1 eq_refl). }
  apply bind_inv in H as [(u & w2 & H2 & H)|(e & H2 & ->)];
    destruct (data_stage fs cwd fuel n self target S T d w1 _ _ G source_reads target_writes N source_content Hn F1 C1 H2) as (Cp & Ok2 & C2 & T2);
    pose proof (copied_seen _ _ Cp Se1 F1) as Se2; [|split; [exact Se2|discriminate]].
  destruct u. specialize (Ok2 eq_refl).
  destruct (rest_run copy w2 r w') as (Se3 & R3).
  { rewrite T2, T1. exact Ho. } { now rewrite C2, C1. } { exact Ok2. } { exact Se2. } { exact H. }
  split; [exact Se3|]. intro E. split; [exact Oc|]. specialize (R3 E). destruct copy; [exact R3|]. rewrite R3, Ok2. split; [apply put_at|apply put_only].
Qed.

(** that it returns *)
Lemma meta_live w o : no_fault w -> fine D x (w_fs w) -> (match look (w_fs w) T with None | Some (AFile _ _) => True | _ => False end) -> recorded K x (look (w_fs w) T) = Ok o ->
  exists w', cache_meta K target w = (Ok o, w') /\ same w w'.
Proof.
  intros Nf Fi L R. destruct Fr as (Hx & _). pose proof (walk_true D x Hx (w_fs w) (w_cwd w) Fi) as Wt. rewrite look_get in L, R. destruct (get (w_fs w) T) as [[d0 x0| |]|] eqn:E; try contradiction.
  - destruct (cache_meta K target w) as [r w'] eqn:E1. destruct (source_meta target T d0 x0 w r w' (no_fault_honest _ Nf) Wt E1) as (S1 & _ & Q). rewrite (Q Nf). exists w'. split; [|exact S1]. f_equal. exact R.
  - apply Ok_inj in R. subst o. apply absent_meta; [exact Nf|]. intros [] q nn Q; [congruence|]. rewrite (walk_false D x Hx _ _ Fi), E in Q. discriminate.
Qed.
Lemma data_live w o : no_fault w -> w_fs w = fs -> w_cwd w = cwd -> recorded K x (look fs T) = Ok o -> d <> [] -> (length d < fuel)%nat ->
  exists w', data_set K target (data_feed fuel n self) w = (Ok tt, w').
Proof.
  intros Nf Fw Cw R Nd Lf.
  assert (Fi : fine D x fs). { destruct Fr as (Hx & Hd & L). split; [exact G|]. split; [exact Hd|]. intros t Q. rewrite Q in L. contradiction. }
  assert (M1 : forall w0, same w w0 -> exists w1, cache_meta K target w0 = (Ok o, w1) /\ same w w1).
  { intros w0 S0. pose proof S0 as (F0 & _). destruct (meta_live w0 o) as (w1 & E1 & S1).
    - exact (no_fault_same _ _ S0 Nf).
    - now rewrite F0, Fw.
    - rewrite F0, Fw. apply Fr.
    - now rewrite F0, Fw.
    - exists w1. split; [exact E1|exact (same_trans _ _ _ S0 S1)]. }
  destruct (M1 w (same_refl w)) as (w1 & E1 & S1). destruct (M1 w1 S1) as (w2 & E2 & S2). pose proof S2 as (F2 & C2 & _ & T2).
  assert (N2 : no_fault w2) by exact (no_fault_same _ _ S2 Nf).
  destruct (write_chunks target (data_feed fuel n self) w2) as [r3 w3] eqn:E3.
  destruct (CopyProofs.set_data_run fs cwd fuel n self target S T d w2 r3 w3 G source_reads target_writes N source_content Hn (eq_trans F2 Fw) (eq_trans C2 Cw) E3) as (_ & Q & L).
  specialize (L N2 Nd Lf). subst r3. specialize (Q eq_refl). pose proof (keeps_write _ _ _ _ _ _ _ E3) as (C3 & T3).
  unfold data_set, bind at 1. rewrite E1. destruct o as [m|].
  2:{ unfold bind. rewrite E2, E3. eauto. }
  assert (Lt : exists da, look fs T = Some (AFile da ys)).
  { unfold file_xattrs. destruct Fr as (_ & _ & L). destruct (look fs T) as [[da xa| |]|]; try contradiction; [eauto|discriminate R]. }
  destruct Lt as (da & Lt). rewrite Lt in R.
  assert (Bm : meta_true (Some m) = true). { cbn [recorded] in R. destruct (from_xattrs (c_legacy K) (user_attrs ys) (c_prefix K)) as [m1|]; [|discriminate]. cbn [rbind] in R. destruct (meta_bool m1) eqn:E; [|discriminate]. cbn [meta_true]. congruence. }
  assert (M2 : forall w0, same w3 w0 -> exists w4, cache_meta K target w0 = (Ok (Some m), w4) /\ same w3 w4).
  { intros w0 S0. pose proof S0 as (F0 & _). destruct (meta_live w0 (Some m)) as (w4 & E4 & S4).
    - apply (no_fault_same _ _ S0). intro t. rewrite T3. apply N2.
    - rewrite F0, Q. apply (put_St d ys), put_good.
    - rewrite F0, Q, put_at. exact Logic.I.
    - rewrite F0, Q, put_at. exact R.
    - exists w4. split; [exact E4|exact (same_trans _ _ _ S0 S4)]. }
  destruct (M2 w3 (same_refl w3)) as (w4 & E4 & S4). destruct (M2 w4 S4) as (w5 & E5 & S5). destruct (M2 w5 S5) as (w6 & E6 & _).
  exists w6. unfold cache_set_data, bind. rewrite E2, E3, E4, Bm, E5, Bm, E6, Bm. reflexivity.
Qed.
Lemma set_any w m l zs : has D x fs cwd d zs w -> meta_bool m = true -> as_xattrs (c_dateparse K) m (c_prefix K) = Ok l ->
  exists w', cache_set K target (Some m) w = (Ok tt, w').
Proof.
  intros H B El.
  destruct (exists_true _ _ _ _ _ _ _ H) as (w1 & E1 & H1). destruct (is_symlink_run _ _ _ _ _ _ _ H1) as (w2 & E2 & H2).
  destruct (exists_true _ _ _ _ _ _ _ H2) as (w3 & E3 & H3). destruct (is_symlink_run _ _ _ _ _ _ _ H3) as (w4 & E4 & H4).
  destruct (sets_file _ _ _ _ _ l _ _ H4) as (w5 & E5 & H5). exists w5.
  cbn [cache_set]. rewrite B. unfold p_exists_not_symlink, eat_set, bind, lift, ret. rewrite E1, E2. cbn [negb]. rewrite E3, E4, El. exact E5.
Qed.
Lemma rest_live copy w : no_fault w -> w_cwd w = cwd -> w_fs w = put fs T (File d ys) ->
  (copy = true -> prefix_ok (c_prefix K) /\ gives_dates K /\ recorded K x (look fs T) = Ok None /\ exists m, recorded K [] (Some (AFile d xs)) = Ok (Some m) /\ dated K m) ->
  exists w', rest copy w = (Ok tt, w').
Proof.
  intros Nf Cw Fw Hc. unfold rest. destruct copy; [|exists w; reflexivity]. destruct (Hc eq_refl) as (Hp & Hd & R0 & m & R & Dt). clear Hc.
  assert (W' : walk (w_fs w) (w_cwd w) true self = Found S (File d xs)). { rewrite Fw, Cw. apply still_leads; [exact target_slot|exact N|exact W]. }
  destruct (cache_meta K self w) as [r1 w1] eqn:E1. destruct (source_meta self S d xs _ _ _ (no_fault_honest _ Nf) W' E1) as (S1 & _ & Q1). specialize (Q1 Nf). subst r1. rewrite R in E1.
  assert (Em : from_xattrs (c_legacy K) (user_attrs xs) (c_prefix K) = Ok m /\ meta_bool m = true).
  { cbn [recorded] in R. destruct (from_xattrs (c_legacy K) (user_attrs xs) (c_prefix K)) as [m1|]; [|discriminate]. cbn [rbind] in R. destruct (meta_bool m1) eqn:E; [|discriminate]. split; congruence. }
  destruct Em as [Em Bm]. destruct (from_inv _ _ _ _ Em) as (kws & Ek & _ & Ei). destruct (lists_of K xs m kws Hp Hd Ek Ei Dt) as (l & El).
  assert (R1 : recorded K x (Some (AFile d ys)) = Ok None).
  { destruct Fr as (_ & _ & L). unfold file_xattrs. destruct (look fs T) as [[da xa| |]|]; try contradiction; [exact R0|]. exact (nothing_recorded K x). }
  assert (H : has D x fs cwd d ys w). { split; [exact Nf|]. rewrite Fw. split; [apply put_good|]. split; [apply put_at|]. split; [exact Cw|apply put_only]. }
  pose proof (has_same _ _ _ _ _ _ _ _ H S1) as H1.
  destruct (meta_run _ _ K _ _ _ _ _ _ H1 R1) as (w2 & E2 & H2). destruct (exists_true _ _ _ _ _ _ _ H2) as (w3 & E3 & H3).
  destruct (meta_run _ _ K _ _ _ _ _ _ H3 R1) as (w4 & E4 & H4). destruct (set_any _ _ _ _ H4 Bm El) as (w5 & E5).
  exists w5. unfold bind at 1. rewrite E1. unfold cache_init_meta, bind at 1. rewrite E2. cbn [meta_true]. unfold bind at 1. rewrite E3. cbn [negb]. rewrite Bm.
  unfold meta_updater, bind at 1 2. rewrite E4. unfold update_meta. cbn [negb]. unfold lift, bind, ret, catch, when. rewrite E5. reflexivity.
Qed.
Lemma copy_live force copy fault o : (forall t, fault t = None) -> force = true \/ look fs T = None -> recorded K x (look fs T) = Ok o -> d <> [] -> (length d < fuel)%nat ->
  (copy = true -> prefix_ok (c_prefix K) /\ gives_dates K /\ o = None /\ exists m, recorded K [] (Some (AFile d xs)) = Ok (Some m) /\ dated K m) ->
  exists w', copy_to K fuel n self target force copy (start fs cwd fault) = (Ok tt, w').
Proof.
  intros Nf Hf R Nd Lf Hc. set (w := start fs cwd fault).
  destruct (may_go_yes target force w Nf) as (w1 & E1 & S1).
  { destruct Hf as [Hf|Hf]; [now left|right]. intros (q & nn & Q). cbn [w w_fs w_cwd start] in Q. destruct Fr as (Hx & Hd & L).
    assert (Fi : fine D x fs) by (split; [exact G|]; split; [exact Hd|]; intros t Z; rewrite Z in L; contradiction).
    rewrite (walk_false D x Hx _ _ Fi) in Q. apply look_none in Hf. rewrite Hf in Q. discriminate. }
  pose proof S1 as (F1 & C1 & _ & T1). assert (N1 : no_fault w1) by exact (no_fault_same _ _ S1 Nf).
  destruct (data_live w1 o N1 F1 C1 R Nd Lf) as (w2 & E2).
  destruct (data_stage fs cwd fuel n self target S T d w1 _ _ G source_reads target_writes N source_content Hn F1 C1 E2) as (_ & Q2 & C2 & T2).
  destruct (rest_live copy w2) as (w3 & E3).
  { intro t. rewrite T2. apply N1. } { now rewrite C2, C1. } { exact (Q2 eq_refl). }
  { intro E. destruct (Hc E) as (A1 & A2 & -> & A3). split; [exact A1|]. split; [exact A2|]. split; [exact R|]. exact A3. }
  exists w3. rewrite copy_eq. unfold bind. rewrite E1, E2. exact E3.
Qed.
End Copy.

(** ** The theorems *)
Theorem copy_confined fuel n self fs cwd fault S D x d force copy r w' :
  good_fs fs -> reads fs cwd self S -> content fs S = Some d -> free_or_file fs D x -> S <> D ++ [x] -> (0 < n)%nat -> honest fault ->
  copy_to K fuel n self (path_of (D ++ [x])) force copy (start fs cwd fault) = (r, w') ->
  forall s, In s (states w') -> only_at (D ++ [x]) fs s /\ copying K fs (D ++ [x]) d s.
Proof.
  intros G (d' & xs & W) C Fr N Hn Ho H s I. assert (d' = d). { apply walk_found_get in W. unfold content, look in C. rewrite W in C. congruence. } subst d'.
  destruct (copy_all fs cwd fuel n self S D x d xs G W Fr N Hn force copy fault r w' Ho H) as (Q & _). rewrite Forall_forall in Q. exact (Q s I).
Qed.
Theorem copy_ok fuel n self fs cwd fault S D x d force copy w' :
  good_fs fs -> reads fs cwd self S -> content fs S = Some d -> free_or_file fs D x -> S <> D ++ [x] -> (0 < n)%nat -> honest fault ->
  copy_to K fuel n self (path_of (D ++ [x])) force copy (start fs cwd fault) = (Ok tt, w') ->
  content (w_fs w') (D ++ [x]) = Some d /\ only_at (D ++ [x]) fs (w_fs w') /\ only_fields K (file_xattrs fs (D ++ [x])) (file_xattrs (w_fs w') (D ++ [x])) /\
  (copy = false -> file_xattrs (w_fs w') (D ++ [x]) = file_xattrs fs (D ++ [x])) /\
  (force = false -> look fs (D ++ [x]) = None) /\
  (copy = true -> recorded K x (look fs (D ++ [x])) = Ok None /\ exists m, recorded K x (look fs S) = Ok (Some m) /\
     (prefix_ok (c_prefix K) -> gives_dates K -> exists o, recorded K x (look (w_fs w') (D ++ [x])) = Ok o /\ same_meta K m o)).
Proof.
  intros G (d' & xs & W) C Fr N Hn Ho H. assert (d' = d). { apply walk_found_get in W. unfold content, look in C. rewrite W in C. congruence. } subst d'.
  destruct (copy_all fs cwd fuel n self S D x d xs G W Fr N Hn force copy fault _ w' Ho H) as (_ & Q). destruct (Q eq_refl) as (Oc & Q2). clear Q.
  assert (Lf : force = false -> look fs (D ++ [x]) = None).
  { intro E. specialize (Oc E). destruct Fr as (Hx & Hd & L). destruct (look fs (D ++ [x])) as [[da xa| |]|] eqn:El; try contradiction; [|reflexivity].
    elim Oc. apply look_file in El. exists (D ++ [x]), (File da xa). apply walk_of; [exact G|exact El|discriminate]. }
  pose proof (walk_found_get _ _ _ _ _ _ _ W) as Gs. assert (Ls : look fs S = Some (AFile d xs)) by (unfold look; now rewrite Gs).
  destruct copy.
  - destruct Q2 as (m & l & m0 & R & El & E0 & B0 & L & O). unfold content, file_xattrs at 2. rewrite L. split; [reflexivity|]. split; [exact O|]. split.
    + rewrite <- (firstn_all l) at 1. now apply (fields_only fs D x m).
    + split; [discriminate|]. split; [exact Lf|]. intros _. split.
      * destruct Fr as (_ & _ & Lt). unfold file_xattrs in E0. destruct (look fs (D ++ [x])) as [[da xa| |]|]; try contradiction; [|reflexivity].
        cbn [recorded]. rewrite E0. cbn [rbind]. now rewrite B0.
      * exists m. rewrite Ls. split; [exact R|]. intros Hp Hd. cbn [recorded] in R |- *.
        destruct (from_xattrs (c_legacy K) (user_attrs xs) (c_prefix K)) as [m1|] eqn:Em; [|discriminate]. cbn [rbind] in R. destruct (meta_bool m1); [|discriminate]. apply Ok_inj in R. injection R as ->.
        destruct (stored_reads K xs m l (file_xattrs fs (D ++ [x])) m0 Hp Hd Em El E0 (length l)) as (m' & E'). rewrite firstn_all in E'. rewrite E'. cbn [rbind].
        eexists. split; [reflexivity|]. intros f v Rp Gv. pose proof (stored_value K xs m l _ m0 Hp Hd Em El E0 B0 m' f v E' Rp Gv) as Q.
        destruct (meta_bool m') eqn:B'; [exact Q|]. cbn [value]. rewrite (none_value K (setall l (file_xattrs fs (D ++ [x]))) m' E' B') in Q. exact Q.
  - destruct Q2 as (L & O). unfold content, file_xattrs at 2 3. rewrite L. split; [reflexivity|]. split; [exact O|]. split; [intros key _; reflexivity|]. split; [reflexivity|]. split; [exact Lf|discriminate].
Qed.
Theorem from_ok fuel n source fs cwd fault S D x d force w' :
  good_fs fs -> reads fs cwd source S -> content fs S = Some d -> free_or_file fs D x -> S <> D ++ [x] -> (0 < n)%nat -> honest fault ->
  prefix_ok (c_prefix K) -> gives_dates K ->
  copy_from K fuel n (path_of (D ++ [x])) source force true (start fs cwd fault) = (Ok tt, w') ->
  content (w_fs w') (D ++ [x]) = Some d /\ only_at (D ++ [x]) fs (w_fs w') /\
  exists m o, recorded K x (look fs S) = Ok (Some m) /\ recorded K x (look (w_fs w') (D ++ [x])) = Ok o /\ same_meta K m o.
Proof.
  intros G R C Fr N Hn Ho Hp Hd H. destruct (copy_ok fuel n source fs cwd fault S D x d force true w' G R C Fr N Hn Ho H) as (Q1 & Q2 & _ & _ & _ & Q3).
  split; [exact Q1|]. split; [exact Q2|]. destruct (Q3 eq_refl) as (_ & m & Rm & Q4). destruct (Q4 Hp Hd) as (o & Ro & Sm). exists m, o. auto.
Qed.
Theorem copy_returns fuel n self fs cwd fault S D x d force copy o :
  good_fs fs -> reads fs cwd self S -> content fs S = Some d -> free_or_file fs D x -> S <> D ++ [x] -> (0 < n)%nat -> (forall t, fault t = None) ->
  d <> [] -> (length d < fuel)%nat -> force = true \/ look fs (D ++ [x]) = None -> recorded K x (look fs (D ++ [x])) = Ok o ->
  (copy = true -> o = None /\ prefix_ok (c_prefix K) /\ gives_dates K /\ exists m, recorded K x (look fs S) = Ok (Some m) /\ dated K m) ->
  exists w', copy_to K fuel n self (path_of (D ++ [x])) force copy (start fs cwd fault) = (Ok tt, w').
Proof.
  intros G (d' & xs & W) C Fr N Hn Nf Nd Lf Hf R Hc. assert (d' = d). { apply walk_found_get in W. unfold content, look in C. rewrite W in C. congruence. } subst d'.
  pose proof (walk_found_get _ _ _ _ _ _ _ W) as Gs. assert (Ls : look fs S = Some (AFile d xs)) by (unfold look; now rewrite Gs).
  destruct copy.
  - destruct (Hc eq_refl) as (A1 & A2 & A3 & m & A4 & A5). rewrite Ls in A4. apply (copy_live fs cwd fuel n self S D x d xs G W Fr N Hn force true fault o Nf Hf R Nd Lf). intros _. split; [exact A2|]. split; [exact A3|]. split; [exact A1|]. exists m. split; [exact A4|exact A5].
  - apply (copy_live fs cwd fuel n self S D x d xs G W Fr N Hn force false fault o Nf Hf R Nd Lf). discriminate.
Qed.
Theorem copy_refuses fuel n self target fs cwd fault copy r w' : honest fault -> occupied fs cwd target ->
  copy_to K fuel n self target false copy (start fs cwd fault) = (r, w') ->
  (exists e, r = Err e) /\ (forall s, In s (states w') -> s = fs) /\ ((forall t, fault t = None) -> r = Err PathExistsErr).
Proof.
  intros Hf O H. apply (CopyProofs.copy_refuses fuel n self target fs cwd fault r w' Hf O).
  rewrite CopyProofs.copy_to_eq. rewrite <- H. clear r w' H. set (w := start fs cwd fault).
  assert (E : copy_to K fuel n self target false copy w = (let! go <- may_go target false ; let! _ <- (if go then data_set K target (data_feed fuel n self) else raise PathExistsErr) ;
    (if copy then let! m <- cache_meta K self ; match m with None => raise AttributeError | Some m => cache_init_meta K target m end else ret tt)) w).
  { unfold copy_to, may_go, bind. destruct (p_exists target w) as [[[|]|e] w1]; reflexivity. }
  rewrite E. clear E. unfold bind at 1. unfold bind at 1. destruct (may_go target false w) as [[go|e] w1] eqn:E; [|reflexivity].
  pose proof (may_go_no _ w _ _ Hf O E) as No. destruct go; [congruence|]. reflexivity.
Qed.
End Meta.
