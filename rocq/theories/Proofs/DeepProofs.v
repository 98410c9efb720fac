(** * All that is below a cache, whatever fails and whatever is here *)
From Coq Require Import String NArith ZArith Bool List Lia.
From Verif Require Import Model.Py Model.PurePath Model.Meta Model.MetaUpdate Model.Access Model.MetaSymlink Model.Fs Model.PathOps Model.Cache Model.CacheChildren Model.RemoteInit Model.CacheRchildren
  Spec.FsSpec Spec.LoopSpec Spec.CopySpec Spec.CacheSpec Spec.DeepSpec
  Proofs.PyLemmas Proofs.PathLemmas Proofs.FsLemmas Proofs.RunLemmas Proofs.MoveLemmas Proofs.Hoare Proofs.SlotLemmas Proofs.CacheLemmas Proofs.CacheOps
  Proofs.TrashProofs Proofs.CacheMove Proofs.UpdateProofs Proofs.CacheProofs Proofs.LinkProofs Proofs.UpdateLive Proofs.OnlyProofs Proofs.ChildrenProofs Proofs.RchildrenProofs.
Import ListNotations.

Section Fine.
Variables (K : conf) (D : place) (x : str) (TR : place) (fs : node).
Notation P := (D ++ [x]).
Notation p := (path_of (D ++ [x])).
Notation St := (St D x).
Hypothesis Hx : good_name x.
Hypothesis Htr : c_trash K = path_of TR.
Hypothesis Hconf : confined P (c_refresh K p).
Hypothesis Gf : good_fs fs.
Hypothesis Hd : is_dir_at fs D.
Hypothesis Ht : is_dir_at fs TR.
Hypothesis Nb : ~ below TR P.
Hypothesis Hl : forall t, look fs P = Some (ALink t) -> starts_with_name x t.
Hypothesis Hid : usable_id K x (look fs P).

Definition fframe (s : node) : Prop := forall q, q <> P -> (look fs P = None \/ is_dir_at fs P \/ ~ below P q) ->
  (forall y, tname K D x fs y -> ~ below (TR ++ [y]) q) -> look s q = look fs q.
Definition finv (s : node) : Prop := fframe s /\ keep K D x TR fs s.
Definition stays (s : node) : Prop := is_dir_at fs P -> is_dir_at s P.
Definition foutcome (pm : option pathmeta) (w : world) (r : res bool) (w' : world) : Prop :=
  runs finv w w' /\ finv (w_fs w') /\
  (forall b, r = Ok b -> good_fs (w_fs w') /\ came K D x fs pm (w_fs w') /\ fresh K D x fs pm (w_fs w') /\ stays (w_fs w')).

Lemma only_finv s : isF (look fs P) = false -> only D x fs s -> finv s.
Proof. intros N O. split; [intros q Nq _ _; now apply O|]. intros d xs L. now rewrite L in N. Qed.
Lemma finv_same w w' : w_fs w = fs -> same w w' -> runs finv w w' /\ finv (w_fs w').
Proof.
  intros Ew S. split; [now apply runs_same|]. destruct S as (-> & _). rewrite Ew. split; [now intros q _ _ _|]. intros d xs L. left. unfold content. now rewrite L.
Qed.
Lemma start_St2 : St2 D x fs (look fs P) fs.
Proof. split; [now apply start_St|]. now intros q _. Qed.

Lemma fine_step pm w r w' : (forall m, pm = Some m -> m_id m <> PStr []) -> w_fs w = fs -> honest (w_fault w) ->
  (forall k, w_fault w k <> Some (OSErr EEXIST)) -> meta_updater K p pm true w = (r, w') -> foutcome pm w r w'.
Proof.
  intros Hp Ew Ho Ne H.
  assert (Kd : outcome K D x TR fs pm w r w') by now apply (kid_step K D x TR fs).
  assert (Lv : exists v, look fs P = v) by eauto.
  assert (Cs : (exists d xs, look fs P = Some (AFile d xs)) \/ (exists t, look fs P = Some (ALink t)) \/ (exists xs, look fs P = Some (ADir xs)) \/ look fs P = None)
    by (destruct Lv as ([[d xs|xs|t]|] & Lf); eauto 6).
  assert (Easy : look fs P <> None -> ~ is_dir_at fs P -> foutcome pm w r w').
  { intros N1 N2. destruct Kd as (R & I & O). assert (A : forall s, inv K D x TR fs s -> finv s).
    { intros s [F Kp]. split; [|exact Kp]. intros q _ [Q|[Q|Q]] Nt; [congruence|now elim N2|now apply F]. }
    split; [exact (runs_mono _ _ _ _ A R)|]. split; [now apply A|]. intros b Eb. destruct (O b Eb) as (O1 & O2 & O3).
    split; [exact O1|]. split; [exact O2|]. split; [exact O3|]. intro Q. now elim N2. }
  destruct Cs as [(d & xs & Lf)|[(t & Lf)|[(xs & Lf)|Lf]]].
  - apply Easy; [congruence|]. intros (zs & Q). congruence.
  - apply Easy; [congruence|]. intros (zs & Q). congruence.
  - assert (Nf : isF (look fs P) = false) by now rewrite Lf.
    pose proof (plain_step K D x fs Hx Gf Hd Hl pm w r w' Nf Ew Ho H) as H'.
    assert (Fin : forall b, r = Ok b -> is_dir_at (w_fs w') P -> good_fs (w_fs w') /\ came K D x fs pm (w_fs w') /\ fresh K D x fs pm (w_fs w') /\ stays (w_fs w')).
    { intros b Eb Q. destruct Kd as (_ & _ & O). destruct (O b Eb) as (O1 & O2 & O3). split; [exact O1|]. split; [exact O2|]. split; [exact O3|]. now intros _. }
    destruct H' as [(S & e & ->)|(om & df & u & w1 & r1 & S & Ro & Eu & Hc & Er)].
    { destruct (finv_same w w' Ew S). split; [assumption|]. split; [assumption|discriminate]. }
    assert (E1 : w_fs w1 = fs) by (destruct S as (-> & _); assumption).
    assert (F1 : w_fault w1 = w_fault w) by apply S.
    assert (S1 : St2 D x fs (Some (ADir xs)) (w_fs w1)) by (rewrite E1, <- Lf; apply start_St2).
    rewrite <- F1 in Ho. destruct (t2_cache_set_dir K D x Hx fs xs u w1 r1 w' Ho S1 Hc) as [(ys & Q) R].
    assert (A : forall s, I2 D x fs s -> finv s) by (intros s (v & _ & O); now apply only_finv).
    split; [apply (runs_trans _ _ w1); [now apply runs_same|exact (runs_mono _ _ _ _ A R)]|]. split; [apply A; eexists; exact Q|].
    intros b Eb. apply (Fin b Eb). exists ys. apply Q.
  - assert (Nf : isF (look fs P) = false) by now rewrite Lf.
    assert (Fin : forall b, r = Ok b -> good_fs (w_fs w') /\ came K D x fs pm (w_fs w') /\ fresh K D x fs pm (w_fs w') /\ stays (w_fs w')).
    { intros b Eb. destruct Kd as (_ & _ & O). destruct (O b Eb) as (O1 & O2 & O3). split; [exact O1|]. split; [exact O2|]. split; [exact O3|].
      intros (zs & Q). congruence. }
    pose proof (plain_step K D x fs Hx Gf Hd Hl pm w r w' Nf Ew Ho H) as H'.
    destruct H' as [(S & e & ->)|(om & df & u & w1 & r1 & S & Ro & Eu & Hc & Er)].
    { destruct (finv_same w w' Ew S). split; [assumption|]. split; [assumption|discriminate]. }
    assert (E1 : w_fs w1 = fs) by (destruct S as (-> & _); assumption).
    assert (F1 : w_fault w1 = w_fault w) by apply S.
    rewrite Lf in Ro. cbn [recorded] in Ro. apply Ok_inj in Ro. subst om. cbn [update_meta negb] in Eu. apply Ok_inj in Eu. injection Eu as <- <-.
    assert (Done : same w1 w' -> foutcome pm w r w').
    { intro S'. destruct (finv_same w w' Ew (same_trans _ _ _ S S')) as [R Q]. split; [assumption|]. split; [assumption|]. exact Fin. }
    destruct pm as [m|]; [|apply Done; injection Hc as <- <-; apply same_refl].
    destruct (meta_bool m) eqn:Bm.
    2:{ apply Done. cbn [cache_set] in Hc. rewrite Bm in Hc. injection Hc as <- <-. apply same_refl. }
    rewrite <- F1 in Ho.
    destruct (r_is_dir (c_remote K)) eqn:Ed.
    + assert (S1 : St2 D x fs None (w_fs w1)) by (rewrite E1, <- Lf; apply start_St2).
      destruct (t2_cache_set_new K D x Hx fs m Ed Bm w1 r1 w' Ho S1 Hc) as [(v & Q & _) R].
      assert (A : forall s, I2 D x fs s -> finv s) by (intros s (v' & _ & O); now apply only_finv).
      split; [apply (runs_trans _ _ w1); [now apply runs_same|exact (runs_mono _ _ _ _ A R)]|]. split; [apply A; eexists; exact Q|exact Fin].
    + assert (S1 : St fs None (w_fs w1)) by (rewrite E1, <- Lf; now apply start_St).
      destruct (t_cache_set_new K D x fs Hx m (Hp m eq_refl) Bm w1 r1 w' Ho S1 Hc) as [(v & Fv & Q & _) R].
      assert (A : forall s, (exists v, free_kinds K v /\ St fs v s) -> finv s).
      { intros s (v' & Fv' & (_ & O & L)). apply only_finv; [assumption|]. intros q Nq.
        destruct (below_dec P q) as [(r0 & ->)|B]; [|now apply O].
        destruct r0 as [|y r0]; [rewrite app_nil_r in Nq; congruence|]. transitivity (@None thing); [|symmetry; unfold look; rewrite get_app; apply look_none in Lf; now rewrite Lf].
        destruct (get s (P ++ y :: r0)) as [c|] eqn:G; [|unfold look; now rewrite G]. apply get_above in G as (zs & es & G).
        unfold look in L. rewrite G in L. destruct Fv' as [->|[(t & ->)|(Q1 & _)]]; congruence. }
      split; [apply (runs_trans _ _ w1); [now apply runs_same|exact (runs_mono _ _ _ _ A R)]|]. split; [apply A; eauto|exact Fin].
Qed.
End Fine.

Section Deep.
Variables (K : conf) (A TR : place) (far : list str -> kid) (fs : node).
Hypothesis Htr : c_trash K = path_of TR.
Notation side := (DeepSpec.aside K fs A TR).
Notation trash := (deep_trash K fs A).
Notation ok := (proper_deep K far fs A TR).

Definition lone (l : list (list str)) (ps : list str) : Prop := forall qs y, In qs l -> qs <> ps -> trash ps y -> ~ trash qs y.
Definition dkept (ps : list str) (s : node) : Prop := forall d xs, look fs (A ++ ps) = Some (AFile d xs) ->
  content s (A ++ ps) = Some d \/ exists y, trash ps y /\ look s (TR ++ [y]) = Some (AFile d xs).
Definition dfate (l : list (list str)) (s0 s : node) : Prop :=
  (forall q, (forall ps, In ps l -> side ps q) -> look s q = look s0 q) /\
  (forall ps, In ps l -> lone l ps -> dkept ps s).
Definition dcame (ps : list str) (s : node) : Prop :=
  look fs (A ++ ps) = None -> forall m, k_metadata (far ps) = Ok (Some m) -> meta_bool m = true ->
  if r_is_dir (k_remote (far ps)) then exists xs, look s (A ++ ps) = Some (ADir xs) else exists t, look s (A ++ ps) = Some (ALink t).
Definition dfresh (ps : list str) (s : node) : Prop :=
  (forall w a w', k_refresh (far ps) (path_of (A ++ ps)) w = (Ok a, w') -> content (w_fs w') (A ++ ps) = Some (concat (r_chunks (k_remote (far ps))))) ->
  forall d xs om n b u, look fs (A ++ ps) = Some (AFile d xs) -> recorded K (last ps []) (Some (AFile d xs)) = Ok om -> k_metadata (far ps) = Ok n ->
  update_meta (c_dateparse K) om n = Ok (b, u) -> content s (A ++ ps) = Some (if b then concat (r_chunks (k_remote (far ps))) else d).
Definition dstays (ps : list str) (s : node) : Prop := is_dir_at fs (A ++ ps) -> is_dir_at s (A ++ ps).
Definition ddone (ps : list str) (s : node) : Prop := dcame ps s /\ dfresh ps s /\ dstays ps s.
Lemma ddone_look ps s s' : look s' (A ++ ps) = look s (A ++ ps) -> ddone ps s -> ddone ps s'.
Proof. unfold ddone, dcame, dfresh, dstays, is_dir_at, content. intros E H. now rewrite E. Qed.
(** as [in_order], with what is there by now *)
Definition ordered (s : node) (l : list (list str)) : Prop :=
  forall pre ps post, l = pre ++ ps :: post ->
    is_dir_at s (A ++ removelast ps) \/
    (In (removelast ps) pre /\ look fs (A ++ removelast ps) = None /\ r_is_dir (k_remote (far (removelast ps))) = true /\
     exists m, k_metadata (far (removelast ps)) = Ok (Some m) /\ meta_bool m = true).
Definition dready (l : list (list str)) (s : node) : Prop :=
  good_fs s /\ is_dir_at s TR /\ (forall ps, In ps l -> look s (A ++ ps) = look fs (A ++ ps)) /\ ordered s l.

Lemma place_split ps : ps <> [] -> A ++ ps = (A ++ removelast ps) ++ [last ps []].
Proof. intro N. rewrite <- app_assoc. f_equal. now apply app_removelast_last. Qed.
Lemma dir_above s B y r : is_dir_at s (B ++ y :: r) -> is_dir_at s B.
Proof. intros (zs & L). apply look_dir in L as (es & L). apply get_above in L as (xs & es' & L). exists xs. unfold look. now rewrite L. Qed.

(** Nothing listed is below a file or a link. *)
Lemma not_under l s : dready l s -> forall n qs r, length r <= n -> r <> [] -> In (qs ++ r) l -> look s (A ++ qs) = None \/ is_dir_at s (A ++ qs).
Proof.
  intros (G & _ & L & O). induction n as [|n IH]; intros qs r Ln Nr I; [destruct r; [congruence|cbn in Ln; lia]|].
  pose proof I as I'. apply in_split in I' as (pre & post & E). specialize (O pre (qs ++ r) post E).
  rewrite removelast_app in O by assumption.
  destruct (removelast r) as [|y t] eqn:Er.
  - rewrite app_nil_r in O. destruct O as [O|(Ip & Ln0 & _)]; [now right|]. left. rewrite L; [assumption|]. rewrite E. apply in_or_app. now left.
  - destruct O as [O|(Ip & Ln0 & _)].
    + right. apply (dir_above s (A ++ qs) y t). now rewrite <- app_assoc.
    + apply (IH qs (y :: t)); [|discriminate|rewrite E; apply in_or_app; now left].
      assert (length r = S (length (y :: t))). { rewrite <- Er. rewrite (app_removelast_last [] Nr) at 1. rewrite app_length. apply PeanoNat.Nat.add_1_r. } lia.
Qed.

Lemma side_item l s ps qs : dready l s -> In ps l -> In qs l -> ok qs -> ps <> qs -> side ps (A ++ qs).
Proof.
  intros Rd Ip Iq (_ & _ & N1 & _) N. split; [intro E; apply N; symmetry; exact (app_inv_head _ _ _ E)|]. split.
  - destruct (below_dec (A ++ ps) (A ++ qs)) as [(r & E)|B]; [|auto]. rewrite <- app_assoc in E. apply app_inv_head in E. subst qs.
    assert (Nr : r <> []) by (intros ->; apply N; now rewrite app_nil_r).
    pose proof Rd as (_ & _ & L & _). destruct (not_under l s Rd (length r) ps r (le_n _) Nr Iq) as [Q|(zs & Q)]; rewrite L in Q by assumption; [now left|right; left; now exists zs].
  - intros y _ B. apply N1. apply (below_trans _ (TR ++ [y])); [apply below_app|assumption].
Qed.
Lemma side_trash ps : ok ps -> side ps TR.
Proof.
  intros (_ & _ & _ & N2 & _). split; [intro E; apply N2; rewrite E; apply below_refl|]. split; [auto|].
  intros y _ (l & E). apply (f_equal (@length str)) in E. rewrite !app_length in E. cbn [length] in E. lia.
Qed.
Lemma side_trashed ps y : ok ps -> ~ trash ps y -> side ps (TR ++ [y]).
Proof.
  intros (_ & _ & N1 & N2 & _) N. split; [intro E; apply N1; rewrite <- E; apply below_app|]. split.
  - right. right. intro B. apply below_snoc in B as [B|E]; [now apply N2|]. apply N1. rewrite E. apply below_app.
  - intros z Tz (l & E). rewrite <- app_assoc in E. apply app_inv_head in E. injection E as E _. congruence.
Qed.
(** The directory that a listed one is in *)
Lemma side_parent l s ps qs : dready l s -> In ps l -> ok qs -> is_dir_at s (A ++ removelast qs) -> removelast qs <> ps -> side ps (A ++ removelast qs).
Proof.
  intros Rd Ip (Nq & _ & N1 & _) Dq N. split; [intro E; apply N; exact (app_inv_head _ _ _ E)|]. split.
  - destruct (below_dec (A ++ ps) (A ++ removelast qs)) as [(r & E)|B]; [|auto].
    destruct r as [|y r]; [rewrite app_nil_r in E; apply app_inv_head in E; congruence|]. rewrite E in Dq. apply dir_above in Dq as (zs & Q).
    destruct Rd as (_ & _ & L & _). rewrite L in Q by assumption. right. left. now exists zs.
  - intros y _ B. apply N1. rewrite (place_split qs Nq). apply (below_trans _ (TR ++ [y])); [apply below_app|]. apply (below_trans _ (A ++ removelast qs)); [assumption|apply below_app].
Qed.

Lemma item_run ps l w r w' m : ok ps -> dready (ps :: l) (w_fs w) -> honest (w_fault w) -> (forall k, w_fault w k <> Some (OSErr EEXIST)) ->
  k_metadata (far ps) = Ok m ->
  meta_updater (conf_for K (far ps)) (path_of (A ++ ps)) m true w = (r, w') ->
  runs (dfate [ps] (w_fs w)) w w' /\ dfate [ps] (w_fs w) (w_fs w') /\
  (forall b, r = Ok b -> good_fs (w_fs w') /\ ddone ps (w_fs w')).
Proof.
  intros (Np & Hg & N1 & N2 & Hl & Hi & Hm & Hc) (G & Dt & L & O) Ho Ne Em H. specialize (L ps (or_introl eq_refl)).
  assert (Dd : is_dir_at (w_fs w) (A ++ removelast ps)) by (destruct (O [] ps l eq_refl) as [Q|([] & _)]; exact Q).
  assert (Hx : good_name (last ps [])).
  { rewrite Forall_forall in Hg. apply Hg. rewrite (app_removelast_last [] Np) at 2. apply in_or_app. right. now left. }
  pose proof (place_split ps Np) as Es.
  set (D := A ++ removelast ps) in *. set (x := last ps []) in *.
  assert (U : foutcome (conf_for K (far ps)) D x TR (w_fs w) m w r w').
  { apply (fine_step (conf_for K (far ps)) D x TR (w_fs w)); try assumption; try (rewrite <- Es).
    - exact Hc.
    - exact N1.
    - intros t Lt. apply Hl. now rewrite <- L.
    - rewrite L. exact Hi.
    - intros m' ->. now apply Hm.
    - reflexivity.
    - exact H. }
  assert (F0 : forall s, finv (conf_for K (far ps)) D x TR (w_fs w) s -> dfate [ps] (w_fs w) s).
  { intros s [Fr Kp]. unfold fframe, keep, tname in *. rewrite <- Es in *. rewrite L in *. split.
    - intros q Q. destruct (Q ps (or_introl eq_refl)) as (Q1 & Q2 & Q3). apply Fr; [assumption| |exact Q3]. destruct Q2 as [Q2|[(zs & Q2)|Q2]]; [now left| |auto].
      right. left. exists zs. now rewrite L.
    - intros c' [<-|[]] _ d xs Lf. exact (Kp d xs Lf). }
  destruct U as (R & I & Oc). split; [exact (runs_mono _ _ _ _ F0 R)|]. split; [now apply F0|].
  intros b Eb. destruct (Oc b Eb) as (O1 & O2 & O3 & O4). split; [exact O1|]. unfold came, fresh, stays in *. rewrite <- Es in *. rewrite L in *. split; [|split].
  - intros Ln m' Em' Bm. apply (O2 Ln m'); [congruence|assumption].
  - intros Sd d xs om n b' u Lf Ro En Eu. apply (O3 Sd d xs om b' u Lf Ro). rewrite Em in En. apply Ok_inj in En. subst n. exact Eu.
  - intros (zs & Q). apply O4. exists zs. now rewrite L.
Qed.

Lemma deep_run : forall l w r w', (forall ps, In ps l -> ok ps) -> NoDup l -> dready l (w_fs w) ->
  honest (w_fault w) -> (forall k, w_fault w k <> Some (OSErr EEXIST)) ->
  cache_rchildren K (path_of A) far l w = (r, w') ->
  runs (dfate l (w_fs w)) w w' /\ dfate l (w_fs w) (w_fs w') /\
  (forall qs, r = Ok qs -> qs = map (fun ps => path_of (A ++ ps)) l /\ forall ps, In ps l -> ddone ps (w_fs w')).
Proof.
  induction l as [|c l IH]; intros w r w' Hp Nd Rd Ho Ne H.
  - injection H as <- <-. split; [apply runs_refl|]. split; [split; [reflexivity|intros c []]|]. intros ps E. injection E as <-. split; [reflexivity|intros c []].
  - inversion Nd as [|? ? Nc Nd' Z]; subst. clear Nd.
    assert (Hn : forall c', In c' l -> c <> c') by (intros c' Ic E; apply Nc; now rewrite E).
    assert (Pc : ok c) by (apply Hp; now left).
    assert (Pl : forall c', In c' l -> ok c') by (intros c' Ic; apply Hp; now right).
    pose proof Rd as (G & Dt & L & Od).
    assert (F0 : dfate (c :: l) (w_fs w) (w_fs w)).
    { split; [now intros|]. intros ps Ip _ d xs Lf. left. unfold content. rewrite L by assumption. now rewrite Lf. }
    assert (F1 : forall s, dfate [c] (w_fs w) s -> dfate (c :: l) (w_fs w) s).
    { intros s [Fr Kp]. split.
      - intros q Q. apply Fr. intros c' [<-|[]]. apply Q. now left.
      - intros c' [<-|Ic] Ap.
        + apply Kp; [now left|]. intros c'' y [<-|[]] N. congruence.
        + intros d xs Lf. left. unfold content. rewrite Fr.
          * rewrite (L c') by now right. now rewrite Lf.
          * intros c'' [<-|[]]. apply (side_item (c :: l) (w_fs w)); [assumption|now left|now right|now apply Pl|now apply Hn]. }
    cbn [cache_rchildren] in H. rewrite here_place in H.
    apply bind_inv in H as [(m & w0 & H0 & H)|(e & H0 & ->)].
    2:{ apply quiet_lift in H0. split; [now apply runs_same|]. split; [|discriminate]. destruct H0 as (-> & _). exact F0. }
    injection H0 as Em <-.
    apply bind_inv in H as [(p & w1 & H1 & H)|(e & H1 & ->)]; apply (item_run c l) in H1 as (R1 & I1 & O1); try assumption.
    2:{ split; [exact (runs_mono _ _ _ _ F1 R1)|]. split; [now apply F1|discriminate]. }
    destruct (O1 p eq_refl) as (G1 & C1). pose proof I1 as [Fr1 Kp1].
    assert (Fa : w_fault w1 = w_fault w) by apply R1.
    assert (Rl : dready l (w_fs w1)).
    { split; [assumption|]. split; [|split].
      - destruct Dt as (zs & Ld). exists zs. rewrite Fr1; [assumption|]. intros c' [<-|[]]. now apply side_trash.
      - intros c' Ic. rewrite Fr1; [apply L; now right|]. intros c'' [<-|[]]. apply (side_item (c :: l) (w_fs w)); [assumption|now left|now right|now apply Pl|now apply Hn].
      - intros pre ps post E. assert (Ips : In ps l) by (rewrite E; apply in_or_app; right; now left).
        destruct (list_eq_dec (list_eq_dec N.eq_dec) (removelast ps) c) as [Ec|Ec].
        + left. rewrite Ec. destruct C1 as (Cm & _ & Cs).
          destruct (Od (c :: pre) ps post) as [Q|(_ & Q1 & Q2 & m' & Q3 & Q4)]; [cbn; now rewrite E| |].
          * rewrite Ec in Q. apply Cs. destruct Q as (zs & Q). exists zs. rewrite <- Q. symmetry. apply L. now left.
          * rewrite Ec in *. specialize (Cm Q1 m' Q3 Q4). rewrite Q2 in Cm. exact Cm.
        + destruct (Od (c :: pre) ps post) as [Q|([Q0|Q0] & Q1)]; [cbn; now rewrite E| | |].
          * left. assert (Sd : side c (A ++ removelast ps)) by (apply (side_parent (c :: l) (w_fs w)); [assumption|now left|now apply Pl|assumption|assumption]).
            destruct Q as (zs & Q). exists zs. rewrite Fr1; [assumption|]. intros c'' [<-|[]]. exact Sd.
          * now elim Ec.
          * right. exact (conj Q0 Q1). }
    assert (Ol : forall c', In c' l -> side c' (A ++ c)).
    { intros c' Ic. apply (side_item (c :: l) (w_fs w)); [assumption|now right|now left|assumption|]. intro E. apply (Hn c' Ic). now symmetry. }
    assert (F2 : forall s, dfate l (w_fs w1) s -> dfate (c :: l) (w_fs w) s).
    { intros s [Fr Kp]. split.
      - intros q Q. rewrite Fr; [|intros c' Ic; apply Q; now right]. apply Fr1. intros c' [<-|[]]. apply Q. now left.
      - intros c' [<-|Ic] Ap.
        + intros d xs Lf.
          assert (A1 : lone [c] c) by (intros c'' y [<-|[]] N; congruence).
          destruct (Kp1 c (or_introl eq_refl) A1 d xs Lf) as [Q|(y & Ty & Ly)].
          * left. unfold content in *. now rewrite Fr.
          * right. exists y. split; [assumption|]. rewrite Fr; [assumption|]. intros c' Ic. apply side_trashed; [now apply Pl|].
            apply (Ap c' y); [now right| |assumption]. intro E. apply (Hn c' Ic). now symmetry.
        + apply Kp; [assumption|]. intros c'' y Ic' N. apply Ap; [now right|assumption]. }
    assert (Ap : forall r0 v, cache_rchildren K (path_of A) far l w1 = (r0, v) ->
      runs (dfate (c :: l) (w_fs w)) w v /\ dfate (c :: l) (w_fs w) (w_fs v) /\
      (forall qs, r0 = Ok qs -> qs = map (fun ps => path_of (A ++ ps)) l /\ forall c', In c' (c :: l) -> ddone c' (w_fs v))).
    { intros r0 v Hl. apply IH in Hl as (R2 & I2 & O2); try assumption; [|now rewrite Fa|now rewrite Fa].
      split; [apply (runs_trans _ _ w1); [exact (runs_mono _ _ _ _ F1 R1)|exact (runs_mono _ _ _ _ F2 R2)]|]. split; [now apply F2|].
      intros ps ->. destruct (O2 ps eq_refl) as [-> C2]. split; [reflexivity|]. intros c' [<-|Ic]; [|now apply C2].
      destruct I2 as [Fr _]. apply (ddone_look c (w_fs w1)); [now apply Fr|assumption]. }
    apply bind_inv in H as [(ps & w2 & H2 & H)|(e & H2 & ->)]; apply Ap in H2 as (R2 & I2 & O2).
    + injection H as <- <-. split; [assumption|]. split; [assumption|]. intros ps' E. injection E as <-. destruct (O2 ps eq_refl) as [-> C2]. split; [reflexivity|assumption].
    + split; [assumption|]. split; [assumption|discriminate].
Qed.

Lemma deep_states l cwd fault r w' : good_fs fs -> is_dir_at fs TR -> (forall ps, In ps l -> ok ps) -> NoDup l -> in_order far A fs l ->
  honest fault -> (forall k, fault k <> Some (OSErr EEXIST)) ->
  cache_rchildren K (path_of A) far l (start fs cwd fault) = (r, w') ->
  (forall s, In s (states w') -> dfate l fs s) /\
  (forall qs, r = Ok qs -> qs = map (fun ps => path_of (A ++ ps)) l /\ forall ps, In ps l -> ddone ps (w_fs w')).
Proof.
  intros G Dt Hp Nd Od Ho Ne H.
  apply deep_run in H as (R & I & O); try assumption; [|split; [assumption|]; split; [assumption|]; split; [reflexivity|exact Od]].
  split; [|assumption]. intros s [<-|Is]; [assumption|]. destruct R as (_ & _ & h & E & Fh). rewrite E in Is. apply in_app_iff in Is as [Is|[<-|[]]].
  - now apply (proj1 (Forall_forall _ _) Fh).
  - split; [reflexivity|]. intros c _ _ d xs Lf. left. unfold content. cbn [start w_fs]. now rewrite Lf.
Qed.
End Deep.

Lemma deep_safe K A TR far fs cwd fault l r w' :
  good_fs fs -> is_dir_at fs TR -> c_trash K = path_of TR ->
  (forall ps, In ps l -> proper_deep K far fs A TR ps) -> NoDup l -> in_order far A fs l ->
  honest fault -> (forall k, fault k <> Some (OSErr EEXIST)) ->
  cache_rchildren K (path_of A) far l (start fs cwd fault) = (r, w') ->
  forall s, In s (states w') ->
    (forall q, (forall ps, In ps l -> DeepSpec.aside K fs A TR ps q) -> look s q = look fs q) /\
    (forall ps d xs, In ps l -> look fs (A ++ ps) = Some (AFile d xs) ->
       (forall qs y, In qs l -> qs <> ps -> deep_trash K fs A ps y -> ~ deep_trash K fs A qs y) ->
       content s (A ++ ps) = Some d \/ exists y, deep_trash K fs A ps y /\ look s (TR ++ [y]) = Some (AFile d xs)).
Proof.
  intros G Dt Htr Hp Nd Od Ho Ne H s Is. destruct (deep_states K A TR far fs Htr l cwd fault r w' G Dt Hp Nd Od Ho Ne H) as [Q _].
  destruct (Q s Is) as [Q1 Q2]. split; [assumption|]. intros c d xs Ic L Ap. now apply (Q2 c Ic Ap).
Qed.
Lemma deep_complete K A TR far fs cwd fault l qs w' :
  good_fs fs -> is_dir_at fs TR -> c_trash K = path_of TR ->
  (forall ps, In ps l -> proper_deep K far fs A TR ps) -> NoDup l -> in_order far A fs l ->
  honest fault -> (forall k, fault k <> Some (OSErr EEXIST)) ->
  cache_rchildren K (path_of A) far l (start fs cwd fault) = (Ok qs, w') ->
  qs = map (fun ps => path_of (A ++ ps)) l /\
  (forall ps m, In ps l -> look fs (A ++ ps) = None -> k_metadata (far ps) = Ok (Some m) -> meta_bool m = true ->
    if r_is_dir (k_remote (far ps)) then is_dir_at (w_fs w') (A ++ ps) else exists t, look (w_fs w') (A ++ ps) = Some (ALink t)) /\
  (forall ps, In ps l -> is_dir_at fs (A ++ ps) -> is_dir_at (w_fs w') (A ++ ps)) /\
  (forall ps d xs om n b u, In ps l ->
    (forall w a v, k_refresh (far ps) (path_of (A ++ ps)) w = (Ok a, v) -> content (w_fs v) (A ++ ps) = Some (concat (r_chunks (k_remote (far ps))))) ->
    look fs (A ++ ps) = Some (AFile d xs) -> recorded K (last ps []) (Some (AFile d xs)) = Ok om -> k_metadata (far ps) = Ok n ->
    update_meta (c_dateparse K) om n = Ok (b, u) -> content (w_fs w') (A ++ ps) = Some (if b then concat (r_chunks (k_remote (far ps))) else d)).
Proof.
  intros G Dt Htr Hp Nd Od Ho Ne H. destruct (deep_states K A TR far fs Htr l cwd fault _ w' G Dt Hp Nd Od Ho Ne H) as [_ Q].
  destruct (Q qs eq_refl) as [Q1 Q2]. split; [assumption|]. split; [|split].
  - intros ps m Ip L Em Bm. exact (proj1 (Q2 ps Ip) L m Em Bm).
  - intros ps Ip. exact (proj2 (proj2 (Q2 ps Ip))).
  - intros ps d xs om n b u Ip Sd. exact (proj1 (proj2 (Q2 ps Ip)) Sd d xs om n b u).
Qed.
