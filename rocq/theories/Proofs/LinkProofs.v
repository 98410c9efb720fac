(** * Setting metadata where a link has some *)
From Coq Require Import String NArith ZArith Bool List Lia.
From Verif Require Import Model.Py Model.PurePath Model.Meta Model.MetaEncode Model.MetaXattr Model.MetaSymlink Model.MetaUpdate Model.Access
  Model.Fs Model.PathOps Model.Sparse Model.Copy Model.Cache
  Spec.FsSpec Spec.LoopSpec Spec.CopySpec Spec.CacheSpec
  Proofs.PyLemmas Proofs.PathLemmas Proofs.AccessProofs Proofs.FsLemmas Proofs.RunLemmas Proofs.RmtreeProofs Proofs.RmdirtreeProofs Proofs.SparseProofs
  Proofs.MoveLemmas Proofs.LoopProofs Proofs.CopyProofs Proofs.Hoare Proofs.SlotLemmas Proofs.CacheLemmas Proofs.CacheOps Proofs.TrashProofs Proofs.UpdateProofs Proofs.CacheProofs Proofs.CacheMove.
Import ListNotations.

(** ** The decision *)
Lemma py_lt_asym a b : py_lt a b = Ok true -> py_lt b a = Ok false.
Proof.
  destruct a as [|z|z|s|l|bs|dt|l], b as [|z'|z'|s'|l'|bs'|dt'|l']; cbn [py_lt]; try discriminate; intro H;
    try (apply Ok_inj in H; apply Z.ltb_lt in H; f_equal; apply Z.ltb_ge; lia).
  destruct (Bool.eqb (dt_aware bs) (dt_aware bs')) eqn:E; [|discriminate].
  apply eqb_prop in E. rewrite E, eqb_reflx. apply Ok_inj in H. apply Z.ltb_lt in H. f_equal. apply Z.ltb_ge. lia.
Qed.
Lemma py_lt_some a b r : py_lt a b = Ok r -> is_none a = false /\ is_none b = false.
Proof. destruct a, b; try discriminate; now split. Qed.

Section Decision.
Variable K : conf.
Lemma replace_newer old new : may_replace K old new = Ok true -> py_eq (m_id old) (m_id new) = true \/ newer K old new.
Proof.
  intro H. unfold may_replace in H. destruct (meta_eq old new) as [[]|]; try discriminate. cbn [rbind] in H.
  destruct (py_eq (m_id old) (m_id new)); [now left|]. right. cbn [negb] in H.
  destruct (get_updated (c_dateparse K) old) as [u|] eqn:Eu; [|discriminate]. cbn [rbind] in H.
  destruct (get_updated (c_dateparse K) new) as [v|] eqn:Ev; [|discriminate]. cbn [rbind] in H.
  destruct (is_none u && is_none v)%bool; [discriminate|].
  destruct (py_lt v u) as [[]|] eqn:E1; try discriminate. cbn [rbind] in H.
  exists u, v. split; [exact Eu|]. split; [exact Ev|].
  destruct (py_lt u v) as [[]|] eqn:E2; [now left| |discriminate]. right. split; [reflexivity|]. split; [assumption|]. cbn [rbind] in H.
  destruct (get_created (c_dateparse K) old) as [c|] eqn:Ec; [|discriminate]. cbn [rbind] in H.
  destruct (get_created (c_dateparse K) new) as [d|] eqn:Ed; [|discriminate]. cbn [rbind] in H.
  exists c, d. split; [reflexivity|]. split; [reflexivity|]. destruct (is_none c), (is_none d); try discriminate.
  cbn [rbind] in H. destruct (py_lt d c) as [[]|]; try discriminate. cbn [rbind] in H. destruct (py_lt c d) as [[]|]; [reflexivity|discriminate|discriminate].
Qed.
Lemma newer_replace old new : meta_eq old new = Ok false -> newer K old new -> (m_size old = PNone \/ m_size new <> PNone) ->
  may_replace K old new = Ok true.
Proof.
  intros N (u & v & Eu & Ev & H) Hs. unfold may_replace. rewrite N. cbn [rbind].
  assert (Sz : negb (negb (is_none (m_size old)) && is_none (m_size new)) = true).
  { destruct Hs as [->|Hs]; [reflexivity|]. destruct (m_size new); [congruence|..]; now rewrite andb_false_r. }
  destruct (negb (py_eq (m_id old) (m_id new))); cbn [rbind]; [|now rewrite Sz].
  rewrite Eu, Ev. cbn [rbind].
  assert (Hn : is_none u = false) by (destruct H as [H|(H & _)]; now apply py_lt_some in H).
  rewrite Hn. cbn [andb]. destruct H as [H|(H1 & H2 & c & d & Ec & Ed & H)].
  - rewrite (py_lt_asym _ _ H). cbn [rbind]. rewrite H. cbn [rbind]. now rewrite Sz.
  - rewrite H2. cbn [rbind]. rewrite H1. cbn [rbind]. rewrite Ec, Ed. cbn [rbind].
    destruct (py_lt_some _ _ _ H) as [-> ->]. rewrite (py_lt_asym _ _ H). cbn [rbind]. rewrite H. cbn [rbind]. now rewrite Sz.
Qed.
End Decision.

(** ** A link with metadata *)
Section Links.
Variables (K : conf) (D : place) (x : str) (TR : place) (fs : node) (t : str) (old : pathmeta).
Notation P := (D ++ [x]).
Notation p := (path_of (D ++ [x])).
Hypothesis Hx : good_name x.
Hypothesis Htr : c_trash K = path_of TR.
Hypothesis Gf : good_fs fs.
Hypothesis Lf : look fs P = Some (ALink t).
Hypothesis Hl : starts_with_name x t.
Hypothesis Ht : is_dir_at fs TR.
Hypothesis Nb : ~ below TR P.
Hypothesis Ro : from_symlink x t false false = Ok old.

Notation at_ := (at_ fs).
Lemma fine_fs : fine D x fs.
Proof.
  split; [assumption|]. split; [apply (look_above fs D x []); congruence|]. intros t' E. rewrite E in Lf. now injection Lf as ->.
Qed.
Lemma Gl : get fs P = Some (Link t). Proof. now apply look_link. Qed.
Lemma l_test (follow : bool) g w : at_ w -> sure w (test (sys_stat follow p) g) (Ok (if follow then false else g (Link t))).
Proof.
  intros [Ho Efs] r w' H. pose proof H as H'. apply test_honest in H as [S H]; [|assumption]. split; [assumption|].
  rewrite Efs in H. assert (W : walk fs (w_cwd w) follow p = if follow then Fail ELOOP else Found P (Link t)).
  { destruct follow; [rewrite (walk_true D x Hx fs _ fine_fs)|rewrite (walk_false D x Hx fs _ fine_fs)]; now rewrite Gl. }
  destruct r as [[]|e].
  - destruct H as (q & n & Wf & E). rewrite W in Wf. destruct follow; [discriminate|]. injection Wf as <- <-. left. now rewrite E.
  - left. destruct follow; [reflexivity|]. now rewrite (H P (Link t) W).
  - right. apply test_err in H' as (k & Hk). eauto.
Qed.
Lemma l_exists w : at_ w -> sure w (p_exists p) (Ok false). Proof. apply (l_test true). Qed.
Lemma l_is_symlink w : at_ w -> sure w (p_is_symlink p) (Ok true). Proof. apply (l_test false). Qed.
Lemma l_symlink_meta w : at_ w -> sure w (symlink_meta p) (Ok old).
Proof.
  intro A. unfold symlink_meta. eapply sure_bind; [now apply l_is_symlink|]. intros w1 S1. cbv beta iota. pose proof (at_same fs _ _ A S1) as A1.
  eapply sure_bind; [now apply l_exists|]. intros w2 S2. cbv beta iota. pose proof (at_same fs _ _ A1 S2) as A2.
  eapply sure_bind with (a := t).
  - apply sure_ask. destruct A2 as [_ ->]. unfold lookup. rewrite (walk_false D x Hx fs _ fine_fs), Gl. reflexivity.
  - intros w3 S3. rewrite pp_name_of, Ro. apply sure_lift.
Qed.
Lemma l_cache_meta w : at_ w -> sure w (cache_meta K p) (Ok (Some old)).
Proof.
  intro A. unfold cache_meta. eapply sure_bind; [now apply l_exists|]. intros w1 S1. cbv beta iota. pose proof (at_same fs _ _ A S1) as A1.
  eapply sure_bind; [now apply l_is_symlink|]. intros w2 S2. cbv beta iota. pose proof (at_same fs _ _ A1 S2) as A2.
  assert (Q : sure w2 (let! m <- symlink_meta p ; ret (Some m)) (Ok (Some old))).
  { eapply sure_bind; [now apply l_symlink_meta|]. intros w3 S3. apply sure_ret. }
  intros r w' H. apply catch_inv in H as [(b & H & ->)|(e & w4 & H & Hh)]; destruct (Q _ _ H) as [S [E|(e1 & k & E & Hf)]]; try discriminate.
  - split; [assumption|now left].
  - injection E as <-. assert (Hr : r = Err e /\ w' = w4).
    { destruct A2 as [Ho _]. apply Ho in Hf as [->|(n & -> & _)]; injection Hh as <- <-; now split. }
    destruct Hr as [-> ->]. split; [assumption|right]. eauto.
Qed.
Lemma l_trashed_path w e w' : at_ w -> trashed_path K p w = (Err e, w') -> e = AttributeError \/ exists k, w_fault w k = Some e.
Proof.
  intros A H. assert (Q : sure w (cache_id K p) (Ok (id_of (Some old)))).
  { unfold cache_id. eapply sure_bind; [now apply l_cache_meta|]. intros w1 S1. cbv beta iota. cbn [id_of]. destruct (meta_bool old); apply sure_ret. }
  assert (Q2 : sure w (trashed_path K p) (match id_of (Some old) with PStr s => Ok (pp_join (c_trash K) (pp_parse (fs_safe_id s))) | _ => Err AttributeError end)).
  { unfold trashed_path. eapply sure_bind; [exact Q|]. intros w1 S1. destruct (id_of (Some old)); try apply sure_raise. apply sure_ret. }
  destruct (Q2 _ _ H) as [_ [E|(e1 & k & E & Hf)]].
  - left. destruct (id_of (Some old)); congruence.
  - right. injection E as <-. eauto.
Qed.

(** The new link is made where there is nothing. *)
Lemma make_link w t' r w' : fine D x (w_fs w) -> look (w_fs w) P = None -> sys_symlink t' p w = (r, w') ->
  (same w w' /\ exists e, r = Err e) \/
  (r = Ok tt /\ changed (w_fs w') w w' /\ look (w_fs w') P = Some (ALink t') /\ only_at P (w_fs w) (w_fs w') /\ good_fs (w_fs w')).
Proof.
  intros Fi Ln H. unfold sys_symlink in H. apply sys_inv in H as [(e & -> & S & _)|(a & s & -> & E & C)]; [left; eauto|].
  right. destruct a. split; [reflexivity|]. assert (Ew : w_fs w' = s) by apply C. rewrite Ew. split; [assumption|]. destruct t' as [|c t']; [discriminate|].
  pose proof Ln as Gn. apply look_none in Gn. rewrite (walk_false D x Hx _ _ Fi), Gn in E. apply Ok_inj in E. injection E as <-.
  destruct Fi as (G & Dd & _).
  assert (E : get (put (w_fs w) P (Link (c :: t'))) P = Some (Link (c :: t'))) by now apply get_put_new.
  assert (EL : look (put (w_fs w) P (Link (c :: t'))) P = Some (ALink (c :: t'))) by (unfold look; now rewrite E).
  split; [exact EL|]. split; [|apply good_put_new; try assumption; exact (good_link _)]. intros q Nq. destruct (below_dec P q) as [(l & ->)|B]; [|now apply look_put_other].
  destruct l as [|z l]; [rewrite app_nil_r in Nq; congruence|]. rewrite (leaf_below' _ P z l), (leaf_below' (w_fs w) P z l); congruence.
Qed.

(** Where the old link is afterwards. *)
Definition kept_in (y : str) (w : world) : Prop :=
  exists i, m_id old = PStr i /\ (y = fs_safe_id i \/ y = x /\ exists k, w_fault w k = Some (OSErr ENAMETOOLONG)).

Lemma link_set m w r w' : at_ w -> (forall k, w_fault w k <> Some (OSErr EEXIST)) -> symlink_set K p m w = (r, w') ->
  (same w w' /\ (may_replace K old m = Ok true -> exists e, r = Err e)) \/
  (may_replace K old m = Ok true /\ exists y w1, kept_in y w /\ changed (w_fs w1) w w1 /\ moved fs P (TR ++ [y]) (w_fs w1) /\
    ((same w1 w' /\ exists e, r = Err e) \/
     exists q, as_symlink (c_dateparse K) m (Some x) = Ok q /\ r = Ok tt /\ changed (w_fs w') w1 w' /\
       look (w_fs w') P = Some (ALink (pp_str q)) /\ only_at P (w_fs w1) (w_fs w') /\ good_fs (w_fs w'))).
Proof.
  intros A Ne H. unfold symlink_set in H.
  apply bind_inv in H as [(b & w1 & H1 & H)|(e & H1 & ->)]; destruct (l_exists w A _ _ H1) as [S1 [E1|(e1 & k & E1 & F1)]]; try discriminate.
  2:{ left. split; [assumption|]. eauto. }
  apply Ok_inj in E1. subst b. pose proof (at_same fs _ _ A S1) as A1.
  apply bind_inv in H as [(b & w2 & H2 & H)|(e & H2 & ->)]; destruct (l_is_symlink w1 A1 _ _ H2) as [S2 [E2|(e2 & k & E2 & F2)]]; try discriminate.
  2:{ left. split; [now apply (same_trans _ w1)|]. eauto. }
  apply Ok_inj in E2. subst b. pose proof (at_same fs _ _ A1 S2) as A2. pose proof (same_trans _ _ _ S1 S2) as S02.
  rewrite bind_bind in H.
  apply bind_inv in H as [(o & w3 & H3 & H)|(e & H3 & ->)]; destruct (l_symlink_meta w2 A2 _ _ H3) as [S3 [E3|(e3 & k & E3 & F3)]]; try discriminate.
  2:{ left. split; [now apply (same_trans _ w2)|]. eauto. }
  apply Ok_inj in E3. subst o. pose proof (at_same fs _ _ A2 S3) as A3. pose proof (same_trans _ _ _ S02 S3) as S03.
  rewrite bind_bind in H.
  apply bind_inv in H as [(go & w4 & H4 & H)|(e & H4 & ->)].
  2:{ injection H4 as H4 <-. left. split; [assumption|]. congruence. }
  injection H4 as Hm <-. destruct go.
  2:{ left. injection H as <- <-. split; [assumption|]. congruence. }
  rewrite bind_bind in H.
  assert (Fi : fine D x (w_fs w3)) by (destruct A3 as [_ ->]; apply fine_fs).
  assert (Gp : get (w_fs w3) P = Some (Link t)) by (destruct A3 as [_ ->]; apply Gl).
  assert (Nd : not_dir (Link t)) by (intros xs es Q; discriminate).
  assert (Ht3 : is_dir_at (w_fs w3) TR) by (destruct A3 as [_ ->]; assumption).
  assert (Fw : w_fault w3 = w_fault w) by now apply fault_same.
  assert (Cr : forall r0 v, (let! _ <- crumple K p ; ret tt) w3 = (r0, v) ->
     (same w v /\ exists e, r0 = Err e /\ e <> OSErr EEXIST) \/
     (r0 = Ok tt /\ exists y, kept_in y w /\ changed (w_fs v) w v /\ moved fs P (TR ++ [y]) (w_fs v))).
  { intros r0 v Hc. apply bind_inv in Hc as [(tp & v1 & Hc & Hr)|(e & Hc & ->)].
    - injection Hr as <- <-. destruct (crumple_run' K D x TR Hx Htr w3 _ v1 _ Fi Gp Nd Ht3 Nb (proj1 A3) Hc) as [(_ & e & Q & _)|(C & o & i & y & Rm & Ei & Hy & Et & Hc2 & Nt & Mv)]; [discriminate|].
      right. split; [reflexivity|]. exists y. destruct A3 as [_ E3]. rewrite E3 in Rm, Mv. rewrite Lf in Rm. cbn [recorded] in Rm. rewrite Ro in Rm. apply Ok_inj in Rm. injection Rm as <-.
      split; [exists i; split; [assumption|]; rewrite <- Fw; assumption|]. split; [|assumption].
      destruct C as (C1 & C2 & C3 & C4). destruct S03 as (B1 & B2 & B3 & B4). repeat split; congruence.
    - left. destruct (crumple_run' K D x TR Hx Htr w3 _ v _ Fi Gp Nd Ht3 Nb (proj1 A3) Hc) as [(S & e' & Q & Kn)|(_ & o & i & y & _ & _ & _ & Q & _)]; [|discriminate].
      injection Q as <-. split; [now apply (same_trans _ w3)|]. exists e. split; [reflexivity|]. intros ->.
      destruct Kn as [Kn|[(k & Kn)|[Kn|Kn]]]; try discriminate.
      + apply l_trashed_path in Kn; [|assumption]. destruct Kn as [Kn|(k & Kn)]; [discriminate|]. apply (Ne k). congruence.
      + apply (Ne k). congruence. }
  apply bind_inv in H as [(u & w5 & H5 & H)|(e & H5 & ->)]; apply catch_inv in H5 as [(u' & H5 & E5)|(e5 & v & H5 & Hh)]; try discriminate.
  - (* crumpled *)
    destruct (Cr _ _ H5) as [(_ & e & Q & _)|(_ & y & Ky & C & Mv)]; [discriminate|]. right. split; [assumption|].
    exists y, w5. split; [assumption|]. split; [assumption|]. split; [assumption|].
    unfold bind at 1, ret at 1 in H. cbv beta iota in H. rewrite pp_name_of in H.
    apply bind_inv in H as [(q & w6 & H6 & H)|(e & H6 & ->)].
    2:{ left. injection H6 as _ <-. split; [apply same_refl|eauto]. }
    injection H6 as Eq <-.
    assert (Fi5 : fine D x (w_fs w5)).
    { destruct Mv as (G5 & _ & Ln & Mo). split; [assumption|]. split.
      - destruct fine_fs as (_ & (zs & Ld) & _). exists zs. rewrite Mo; [assumption| |].
        + intro Q. apply (f_equal (@length str)) in Q. rewrite app_length in Q. cbn [length] in Q. lia.
        + intro Q. apply Nb. rewrite Q. exists ([y] ++ [x]). now rewrite <- app_assoc.
      - intros t' Q. congruence. }
    apply make_link in H; [|assumption|apply Mv].
    destruct H as [(S & e & ->)|(-> & C6 & L6 & O6 & G6)]; [left; split; [assumption|eauto]|].
    right. exists q. tauto.
  - destruct (Cr _ _ H5) as [(S & e & Q & N)|(Q & _)]; [|discriminate]. injection Q as <-. exfalso.
    assert (Hr : @raise unit e5 v = (Ok u, w5)).
    { destruct e5; try exact Hh. match goal with k : errno |- _ => destruct k end; try exact Hh. congruence. }
    discriminate.
  - destruct (Cr _ _ H5) as [(S & e0 & Q & N)|(Q & _)]; [|discriminate]. injection Q as <-. left.
    assert (Hr : @raise unit e5 v = (Err e, w')).
    { destruct e5; try exact Hh. match goal with k : errno |- _ => destruct k end; try exact Hh. congruence. }
    injection Hr as _ <-. split; [assumption|eauto].
Qed.

(** Before it, [_meta_setter] changes nothing where there is a link. *)
Lemma before_set m w r w' : at_ w -> cache_set K p (Some m) w = (r, w') ->
  (same w w' /\ (meta_bool m = true -> exists e, r = Err e)) \/ exists w1, same w w1 /\ symlink_set K p m w1 = (r, w').
Proof.
  intros A H. cbn [cache_set] in H. destruct (meta_bool m).
  2:{ left. injection H as <- <-. split; [apply same_refl|discriminate]. }
  assert (Q1 : sure w (p_exists_not_symlink p) (Ok false)).
  { unfold p_exists_not_symlink. eapply sure_bind; [now apply l_exists|]. intros w1 S1. apply sure_ret. }
  apply bind_inv in H as [(b & w1 & H1 & H)|(e & H1 & ->)]; destruct (Q1 _ _ H1) as [S1 [E1|(e1 & k & E1 & F1)]]; try discriminate; [|left; eauto].
  apply Ok_inj in E1. subst b. pose proof (at_same fs _ _ A S1) as A1.
  assert (Q2 : forall r0 v, prepare K p w1 = (r0, v) -> same w1 v).
  { intros r0 v Hp. unfold prepare in Hp. apply bind_inv in Hp as [(b & v1 & G1 & Hp)|(e & G1 & ->)]; [|now apply quiet_ask in G1].
    apply quiet_ask in G1. pose proof (at_same fs _ _ A1 G1) as A2. destruct b.
    - apply bind_inv in Hp as [(b & v2 & G2 & Hp)|(e & G2 & ->)]; [|now apply quiet_exists in G2; apply (same_trans _ v1)].
      destruct (l_exists v1 A2 _ _ G2) as [S2 [E2|(e2 & k & E2 & _)]]; [|discriminate]. apply Ok_inj in E2. subst b. cbn [negb when] in Hp.
      pose proof (at_same fs _ _ A2 S2) as A3. apply (same_trans _ v1); [assumption|]. apply (same_trans _ v2); [assumption|].
      unfold sys_mkdir in Hp. apply sys_inv in Hp as [(e & _ & S & _)|(a & s & _ & E & _)]; [assumption|].
      destruct A3 as [_ E3]. rewrite E3, (walk_false D x Hx fs _ fine_fs), Gl in E. discriminate.
    - apply bind_inv in Hp as [(b & v2 & G2 & Hp)|(e & G2 & ->)]; apply quiet_ask in G2; [|now apply (same_trans _ v1)].
      pose proof (same_trans _ _ _ G1 G2) as G12. destruct b; [|injection Hp as <- <-; assumption].
      pose proof (at_same fs _ _ A1 G12) as A3.
      apply bind_inv in Hp as [(b & v3 & G3 & Hp)|(e & G3 & ->)]; [|now apply quiet_exists in G3; apply (same_trans _ v2)].
      rewrite pp_parent_of in G3.
      assert (b = true) as ->.
      { destruct (t_exists_dir (fun _ => True) (fun s => s = fs) D (fun s E => eq_ind_r (fun s => good_fs s /\ is_dir_at s D) (conj Gf (proj1 (proj2 fine_fs))) E) v2 _ _ (proj1 A3) (proj2 A3) G3) as [[_ Q] _]. now apply Q. }
      cbn [negb when] in Hp. injection Hp as <- <-. apply quiet_exists in G3. now apply (same_trans _ v2). }
  apply bind_inv in H as [([] & w2 & H2 & H)|(e & H2 & ->)]; apply Q2 in H2; pose proof (same_trans _ _ _ S1 H2) as S2; [|left; eauto].
  pose proof (at_same fs _ _ A S2) as A2.
  apply bind_inv in H as [(b & w3 & H3 & H)|(e & H3 & ->)]; destruct (l_exists w2 A2 _ _ H3) as [S3 [E3|(e3 & k & E3 & F3)]]; try discriminate;
    pose proof (same_trans _ _ _ S2 S3) as S03; [|left; eauto].
  apply Ok_inj in E3. subst b. right. eauto.
Qed.

Section Run.
Variables (cwd : place) (fault : nat -> option exn) (m : pathmeta).
Hypothesis Ho : honest fault.
Hypothesis Ne : forall k, fault k <> Some (OSErr EEXIST).

Definition replaced (s : node) : Prop :=
  (look s P = None \/ exists q, as_symlink (c_dateparse K) m (Some x) = Ok q /\ look s P = Some (ALink (pp_str q))) /\
  exists i y, m_id old = PStr i /\ (y = fs_safe_id i \/ y = x /\ exists k, fault k = Some (OSErr ENAMETOOLONG)) /\
    look s (TR ++ [y]) = Some (ALink t) /\ forall q, q <> P -> q <> TR ++ [y] -> look s q = look fs q.

Lemma set_states r w' : cache_set K p (Some m) (start fs cwd fault) = (r, w') ->
  ((forall s, In s (states w') -> s = fs) /\ (meta_bool m = true -> may_replace K old m = Ok true -> exists e, r = Err e)) \/
  (may_replace K old m = Ok true /\ (forall s, In s (states w') -> s = fs \/ replaced s) /\
   (r = Ok tt -> replaced (w_fs w') /\ exists q, as_symlink (c_dateparse K) m (Some x) = Ok q /\ look (w_fs w') P = Some (ALink (pp_str q)))).
Proof.
  intro H. assert (A0 : at_ (start fs cwd fault)) by now split.
  assert (Sm : forall w, same (start fs cwd fault) w -> forall s, In s (states w) -> s = fs).
  { intros w (B1 & _ & B3 & _) s [<-|Is]; [assumption|]. rewrite B3 in Is. destruct Is as [<-|[]]. reflexivity. }
  apply before_set in H; [|assumption]. destruct H as [(S & E)|(w0 & S0 & H)].
  { left. split; [now apply Sm|auto]. }
  pose proof (at_same fs _ _ A0 S0) as A1. assert (Fw : w_fault w0 = fault) by apply S0.
  apply link_set in H; [|assumption|now rewrite Fw]. destruct H as [(S & E)|(Hm & y & w1 & (i & Ei & Hy) & C & Mv & H)].
  { left. split; [apply Sm; now apply (same_trans _ w0)|auto]. }
  right. split; [assumption|]. rewrite Fw in Hy. pose proof Mv as (_ & Mt & Mp & Mo).
  assert (Npt : P <> TR ++ [y]) by (intro Q; apply Nb; rewrite Q; apply below_app).
  assert (R1 : replaced (w_fs w1)).
  { split; [now left|]. exists i, y. split; [assumption|]. split; [assumption|]. split; [congruence|]. assumption. }
  assert (I1 : forall s, In s (states w1) -> s = fs \/ replaced s).
  { intros s [<-|Is]; [now right|]. destruct C as (_ & _ & Ch & _). rewrite Ch in Is. destruct Is as [<-|Is]; [now right|]. left. apply (Sm w0 S0). now right. }
  destruct H as [((B1 & _ & B3 & _) & e & ->)|(q & Eq & -> & (C1 & _ & C3 & _) & L6 & O6 & _)].
  - split; [|discriminate]. intros s Is. apply I1. unfold states in *. now rewrite B1, B3 in Is.
  - assert (R2 : replaced (w_fs w')).
    { split; [right; eauto|]. exists i, y. split; [assumption|]. split; [assumption|]. split.
      - rewrite O6 by congruence. congruence.
      - intros z Z1 Z2. rewrite O6 by assumption. now apply Mo. }
    split; [|intros _; split; [assumption|eauto]]. intros s [<-|Is]; [now right|]. rewrite C3 in Is. destruct Is as [<-|Is]; [now right|].
    apply I1. now right.
Qed.

(** Metadata of another id is replaced only by newer metadata, and the old link is
    then in the trash. *)
Lemma only_newer r w' : cache_set K p (Some m) (start fs cwd fault) = (r, w') ->
  forall s, In s (states w') -> s = fs \/ ((py_eq (m_id old) (m_id m) = true \/ newer K old m) /\ replaced s).
Proof.
  intros H s Is. destruct (set_states r w' H) as [(Q & _)|(Hm & Q & _)]; [left; auto|].
  destruct (Q s Is) as [->|R]; [now left|]. right. split; [|assumption]. now apply replace_newer.
Qed.
Lemma newer_is_set w' : cache_set K p (Some m) (start fs cwd fault) = (Ok tt, w') -> meta_bool m = true ->
  meta_eq old m = Ok false -> newer K old m -> (m_size old = PNone \/ m_size m <> PNone) ->
  exists q, as_symlink (c_dateparse K) m (Some x) = Ok q /\ look (w_fs w') P = Some (ALink (pp_str q)).
Proof.
  intros H Bm N1 N2 N3. destruct (set_states _ w' H) as [(_ & Q)|(_ & _ & Q)]; [|now apply Q].
  destruct (Q Bm (newer_replace K old m N1 N2 N3)). discriminate.
Qed.
End Run.
End Links.
