(** * Moving a cached file *)
From Coq Require Import String NArith ZArith Bool List Lia.
From Verif Require Import Model.Py Model.PurePath Model.Meta Model.MetaEncode Model.MetaXattr Model.MetaSymlink Model.MetaUpdate Model.Access
  Model.Fs Model.PathOps Model.Sparse Model.Copy Model.Cache
  Spec.FsSpec Spec.LoopSpec Spec.CopySpec Spec.CacheSpec
  Proofs.PyLemmas Proofs.PathLemmas Proofs.FsLemmas Proofs.RunLemmas Proofs.RmtreeProofs Proofs.RmdirtreeProofs
  Proofs.MoveLemmas Proofs.Hoare Proofs.SlotLemmas Proofs.CacheLemmas Proofs.TrashProofs.
Import ListNotations.

Definition faulty (w : world) : Prop := exists k e, w_fault w k = Some e.

Lemma test_faulty follow p f w e w' : test (sys_stat follow p) f w = (Err e, w') -> faulty w.
Proof. intro H. apply test_err in H as (k & H). now exists k, e. Qed.
Lemma broken_inv E y w r w' : good_fs (w_fs w) -> is_dir_at (w_fs w) E -> good_name y -> p_is_broken_symlink (path_of (E ++ [y])) w = (r, w') ->
  same w w' /\ (r = Ok true -> exists t, get (w_fs w) (E ++ [y]) = Some (Link t)) /\ (forall e, r = Err e -> faulty w).
Proof.
  intros G He Hy H. unfold p_is_broken_symlink in H. apply bind_inv in H as [(b & w1 & H1 & H)|(e & H1 & ->)].
  2:{ pose proof H1 as S. apply test_inv in S as [S _]. split; [assumption|]. split; [discriminate|]. intros _ _. now apply test_faulty in H1. }
  pose proof H1 as S. apply test_inv in S as [S T]. destruct b.
  - destruct (T eq_refl) as (q & n & W & F). assert (L : exists t, get (w_fs w) (E ++ [y]) = Some (Link t)).
    { destruct (get (w_fs w) (E ++ [y])) as [m|] eqn:Gm.
      - rewrite (walk_of _ _ _ _ _ G Gm) in W by discriminate. injection W as <- <-. destruct m; try discriminate. eauto.
      - rewrite walk_of_missing in W; try assumption; [discriminate|]. now apply look_none. }
    apply bind_inv in H as [(b & w2 & H2 & H)|(e & H2 & ->)]; pose proof H2 as S2; apply test_inv in S2 as [S2 _].
    + injection H as <- <-. split; [now apply (same_trans _ w1)|]. split; [auto|discriminate].
    + split; [now apply (same_trans _ w1)|]. split; [discriminate|]. intros _ _. apply test_faulty in H2. destruct H2 as (k & e' & K). exists k, e'.
      now destruct S as (_ & _ & _ & <-).
  - injection H as <- <-. split; [assumption|]. split; discriminate.
Qed.
Lemma faulty_same w w' : same w w' -> faulty w' -> faulty w.
Proof. intros (_ & _ & _ & E) (k & e & F). exists k, e. congruence. Qed.

Lemma finally_inv {A} (m : M A) f w r w' : finally m f w = (r, w') ->
  exists r1 w1 r2, m w = (r1, w1) /\ f w1 = (r2, w') /\ r = match r2 with Err e => Err e | Ok _ => r1 end.
Proof.
  unfold finally. intro H. destruct (m w) as [[a|e] w1] eqn:Em; unfold bind in H; destruct (f w1) as [[u|e'] w2] eqn:Ef; injection H as <- <-;
    (eexists _, _, _; split; [reflexivity|]; split; [exact Ef|reflexivity]).
Qed.

Lemma bind_bind {A B C} (m : M A) (f : A -> M B) (g : B -> M C) w : bind (bind m f) g w = bind m (fun a => bind (f a) g) w.
Proof. unfold bind. destruct (m w) as [[a|e] w1]; reflexivity. Qed.
Lemma bind_ext {A B} (m : M A) (f g : A -> M B) w : (forall a w, f a w = g a w) -> bind m f w = bind m g w.
Proof. intro H. unfold bind. destruct (m w) as [[a|e] w1]; [apply H|reflexivity]. Qed.

Section Move.
Variables (K : conf) (D : place) (x : str) (E : place) (y : str) (fs : node) (d : bytes) (xs : Fs.xattrs).
Notation P := (D ++ [x]).
Notation T := (E ++ [y]).
Notation u := ($".unlink-" ++ y).
Notation U := (E ++ [$".unlink-" ++ y]).
Notation mine := (Some (AFile d xs)).
Hypothesis Hx : good_name x.
Hypothesis Hy : good_name y.
Hypothesis Gf : good_fs fs.
Hypothesis Lf : look fs P = mine.
Hypothesis He : is_dir_at fs E.
Hypothesis Npt : P <> T.
Hypothesis Npu : P <> U.

Lemma Hu : good_name u.
Proof.
  destruct Hy as (_ & _ & _ & Hs). repeat split; try discriminate. intro I. apply in_app_iff in I as [I|I]; [|now apply Hs].
  cbn in I. repeat (destruct I as [I|I]; [discriminate|]). contradiction.
Qed.
Lemma Ntu : T <> U.
Proof. intro Q. apply app_inj_tail in Q as [_ Q]. apply (f_equal (@length _)) in Q. rewrite app_length in Q. cbn in Q. lia. Qed.

Definition calm : Prop := (forall t, look fs T <> Some (ALink t)) /\ (forall t, look fs U <> Some (ALink t)).
Definition others (s : node) : Prop :=
  good_fs s /\ is_dir_at s E /\ (forall q, q <> P -> q <> T -> q <> U -> look s q = look fs q) /\ (calm -> look s U = look fs U) /\
  (is_dir_at s U -> is_dir_at fs U).
Definition before (s : node) : Prop := others s /\ look s P = mine /\ (calm -> look s T = look fs T) /\ (is_dir_at s T -> is_dir_at fs T).
Definition behind (s : node) : Prop := others s /\ look s P = None /\ look s T = mine.
Definition safe (s : node) : Prop :=
  (look s P = mine \/ look s T = mine) /\ (forall q, q <> P -> q <> T -> q <> U -> look s q = look fs q) /\ (calm -> look s U = look fs U).
Lemma before_safe s : before s -> safe s. Proof. intros ((_ & _ & O & C & _) & L & _). split; [now left|now split]. Qed.
Lemma behind_safe s : behind s -> safe s. Proof. intros ((_ & _ & O & C & _) & _ & L). split; [now right|now split]. Qed.

Lemma before_fs : before fs.
Proof. split; [|split; [assumption|split; auto]]. split; [assumption|]. split; [assumption|]. split; [auto|]. split; auto. Qed.

Lemma E_not q : q = P \/ q = T \/ q = U -> forall s, others s -> E <> q \/ is_dir_at s q.
Proof. intros _ s (_ & H & _). destruct (place_dec E q) as [<-|N]; [now right|now left]. Qed.
Lemma E_T : E <> T. Proof. intro Q. apply (f_equal (@length _)) in Q. rewrite app_length in Q. cbn in Q. lia. Qed.
Lemma E_U : E <> U. Proof. intro Q. apply (f_equal (@length _)) in Q. rewrite app_length in Q. cbn in Q. lia. Qed.
Lemma E_P s : is_dir_at s E -> look s P = mine -> E <> P.
Proof. intros (ys & Q) L ->. congruence. Qed.

Definition why (w : world) : Prop := faulty w \/ is_dir_at fs T \/ is_dir_at fs U.
Lemma why_same w w' : same w w' -> why w' -> why w.
Proof. intros S [F|Q]; [left; now apply (faulty_same _ w')|now right]. Qed.
Lemma why_run w w' : w_fault w' = w_fault w -> why w' -> why w.
Proof. intros S [(k & e & F)|Q]; [left; exists k, e; congruence|now right]. Qed.


(** the target's link goes aside *)
Lemma aside w r w' t : before (w_fs w) -> get (w_fs w) T = Some (Link t) -> sys_rename (path_of T) (path_of U) w = (r, w') ->
  (same w w' /\ exists e, r = Err e /\ why w) \/ (r = Ok tt /\ changed (w_fs w') w w' /\ before (w_fs w')).
Proof.
  intros (O & L & C & Dt) G H. pose proof O as (Go & Ho & Oq & Ou & Du). assert (Hl : not_dir (Link t)) by (intros ? ?; discriminate).
  apply (rename_leaf w T (Link t) E u r w' Go (P_nil E y) G Hl Ho Hu Ntu) in H as [(S & e & -> & Q)|(-> & Ch & (G' & M1 & M2 & M3) & Nd)].
  - left. split; [assumption|]. exists e. split; [reflexivity|]. destruct Q as [Q|(_ & Q)]; [left; now exists (w_tick w), e|right; right; now apply Du].
  - right. split; [reflexivity|]. split; [assumption|]. assert (Nc : ~ calm). { intros Hc. specialize (C Hc). destruct Hc as [Hc _]. apply (Hc t). rewrite <- C. now apply look_link. }
    split; [|split; [now rewrite M3 by (congruence || assumption)|split; [tauto|]]].
    + split; [assumption|]. split; [|split; [|split; [tauto|]]].
      * destruct Ho as (zs & Ho). exists zs. rewrite M3; [assumption|apply E_T|apply E_U].
      * intros q N1 N2 N3. rewrite M3 by assumption. now apply Oq.
      * intros (zs & Q). discriminate (eq_trans (eq_sym (eq_trans M1 (proj2 (look_link _ _ _) G))) Q).
    + intros (zs & Q). congruence.
Qed.
(** and back *)
Lemma back w r w' t : before (w_fs w) -> get (w_fs w) U = Some (Link t) -> sys_rename (path_of U) (path_of T) w = (r, w') ->
  (same w w' /\ exists e, r = Err e /\ why w) \/ (r = Ok tt /\ changed (w_fs w') w w' /\ before (w_fs w')).
Proof.
  intros (O & L & C & Dt) G H. pose proof O as (Go & Ho & Oq & Ou & Du). assert (Hl : not_dir (Link t)) by (intros ? ?; discriminate).
  apply (rename_leaf w U (Link t) E y r w' Go (P_nil E u) G Hl Ho Hy (not_eq_sym Ntu)) in H as [(S & e & -> & Q)|(-> & Ch & (G' & M1 & M2 & M3) & Nd)].
  - left. split; [assumption|]. exists e. split; [reflexivity|]. destruct Q as [Q|(_ & Q)]; [left; now exists (w_tick w), e|right; left; now apply Dt].
  - right. split; [reflexivity|]. split; [assumption|]. assert (Nc : ~ calm). { intros Hc. specialize (Ou Hc). destruct Hc as [_ Hc]. apply (Hc t). rewrite <- Ou. now apply look_link. }
    split; [|split; [now rewrite M3 by (congruence || assumption)|split; [tauto|]]].
    + split; [assumption|]. split; [|split; [|split; [tauto|]]].
      * destruct Ho as (zs & Ho). exists zs. rewrite M3; [assumption|apply E_U|apply E_T].
      * intros q N1 N2 N3. rewrite M3 by assumption. now apply Oq.
      * intros (zs & Q). discriminate (eq_trans (eq_sym M2) Q).
    + intros (zs & Q). discriminate (eq_trans (eq_sym (eq_trans M1 (proj2 (look_link _ _ _) G))) Q).
Qed.
(** the file moves *)
Lemma across w r w' : before (w_fs w) -> sys_rename (path_of P) (path_of T) w = (r, w') ->
  (same w w' /\ exists e, r = Err e /\ why w) \/ (r = Ok tt /\ changed (w_fs w') w w' /\ behind (w_fs w')).
Proof.
  intros (O & L & C & Dt) H. pose proof O as (Go & Ho & Oq & Ou & Du). assert (Hl : not_dir (File d xs)) by (intros ? ?; discriminate).
  apply look_file in L as G.
  apply (rename_leaf w P (File d xs) E y r w' Go (P_nil D x) G Hl Ho Hy Npt) in H as [(S & e & -> & Q)|(-> & Ch & (G' & M1 & M2 & M3) & Nd)].
  - left. split; [assumption|]. exists e. split; [reflexivity|]. destruct Q as [Q|(_ & Q)]; [left; now exists (w_tick w), e|right; left; now apply Dt].
  - right. split; [reflexivity|]. split; [assumption|]. split; [|split; [assumption|congruence]].
    split; [assumption|]. split; [|split; [|split]].
    + pose proof (E_P _ Ho L). destruct Ho as (zs & Ho). exists zs. rewrite M3; [assumption|assumption|apply E_T].
    + intros q N1 N2 N3. rewrite M3 by assumption. now apply Oq.
    + intro Hc. rewrite M3; [now apply Ou|congruence|apply not_eq_sym, Ntu].
    + intros (zs & Q). apply Du. exists zs. rewrite M3 in Q; [assumption|congruence|apply not_eq_sym, Ntu].
Qed.
(** the link that went aside is removed *)
Lemma away w r w' t : good_fs (w_fs w) -> get (w_fs w) U = Some (Link t) -> sys_unlink (path_of U) w = (r, w') ->
  (same w w' /\ exists e, r = Err e /\ why w) \/
  (r = Ok tt /\ changed (w_fs w') w w' /\ good_fs (w_fs w') /\ look (w_fs w') U = None /\ forall q, q <> U -> look (w_fs w') q = look (w_fs w) q).
Proof.
  intros Go G H. unfold sys_unlink in H. eapply sys_step in H.
  2:{ unfold lookup. rewrite (walk_of _ _ _ _ _ Go G) by discriminate. reflexivity. }
  cbn [fst] in H. destruct H as [(e & -> & S & F)|(-> & Ch)].
  - left. split; [assumption|]. exists e. split; [reflexivity|]. left. now exists (w_tick w), e.
  - right. pose proof Ch as (Ef & _). rewrite Ef. split; [reflexivity|]. split; [assumption|]. split; [now apply good_fs_del|]. split.
    + apply look_del_below; [apply P_nil|apply below_refl].
    + intros q Nq. destruct (below_dec U q) as [(r & ->)|B]; [|now apply look_del_other]. destruct r as [|z r]; [rewrite app_nil_r in Nq; congruence|].
      rewrite look_del_below; [|apply P_nil|apply below_app]. symmetry. apply leaf_below'. intros zs Q. rewrite (proj2 (look_link _ _ _) G) in Q. discriminate.
Qed.
Lemma others_away s s' t : others s -> get s U = Some (Link t) -> good_fs s' -> look s' U = None -> (forall q, q <> U -> look s' q = look s q) -> others s'.
Proof.
  intros (Go & Ho & Oq & Ou & Du) G Go' Lu Q. split; [assumption|]. split; [|split; [|split]].
  - destruct Ho as (zs & Ho). exists zs. rewrite Q; [assumption|apply E_U].
  - intros q N1 N2 N3. rewrite Q by assumption. now apply Oq.
  - intro Hc. exfalso. specialize (Ou Hc). destruct Hc as [_ Hc]. apply (Hc t). rewrite <- Ou. now apply look_link.
  - intros (zs & Qd). congruence.
Qed.

Definition cleanup : M unit := let! l <- p_is_broken_symlink (path_of U) ; when l (sys_unlink (path_of U)).
Lemma cleanup_run w r w' : others (w_fs w) -> cleanup w = (r, w') ->
  w_fault w' = w_fault w /\ w_cwd w' = w_cwd w /\ (forall e, r = Err e -> why w) /\
  ((w_fs w' = w_fs w /\ w_hist w' = w_hist w) \/
   (w_hist w' = w_fs w' :: w_hist w /\ others (w_fs w') /\ forall q, q <> U -> look (w_fs w') q = look (w_fs w) q)).
Proof.
  intros O H. pose proof O as (Go & Ho & _). unfold cleanup in H.
  apply bind_inv in H as [(b & w1 & H1 & H)|(e & H1 & ->)]; apply (broken_inv E u _ _ _ Go Ho Hu) in H1 as (S & Bt & Be).
  2:{ destruct S as (S1 & S2 & S3 & S4). split; [assumption|]. split; [assumption|]. split; [|left; now split]. intros e' Q. left. now apply (Be e). }
  destruct b; cbn [when] in H.
  - destruct (Bt eq_refl) as (t & G). pose proof S as (S1 & S2 & S3 & S4). rewrite <- S1 in G, Go.
    apply (away _ _ _ t Go G) in H as [((A1 & A2 & A3 & A4) & e & -> & W)|(-> & (C1 & C2 & C3 & C4) & G' & L' & Q)].
    + split; [congruence|]. split; [congruence|]. split; [intros e' _; now apply (why_same _ w1)|]. left. split; congruence.
    + split; [congruence|]. split; [congruence|]. split; [discriminate|]. right. split; [congruence|].
      rewrite S1 in G, Q. split; [now apply (others_away (w_fs w) _ t)|assumption].
  - injection H as <- <-. destruct S as (S1 & S2 & S3 & S4). split; [assumption|]. split; [assumption|]. split; [discriminate|]. left. now split.
Qed.

Definition body : M unit :=
  let! l <- p_is_broken_symlink (path_of T) ;
  let! _ <- when l (sys_rename (path_of T) (path_of U)) ;
  sys_rename (path_of P) (path_of T).
Lemma body_run w r w' : before (w_fs w) -> body w = (r, w') ->
  runs safe w w' /\ match r with Ok _ => behind (w_fs w') | Err _ => before (w_fs w') /\ why w end.
Proof.
  intros B H. pose proof B as (O & _). pose proof O as (Go & Ho & _). unfold body in H.
  apply bind_inv in H as [(b & w1 & H1 & H)|(e & H1 & ->)]; apply (broken_inv E y _ _ _ Go Ho Hy) in H1 as (S & Bt & Be).
  2:{ split; [now apply runs_same|]. destruct S as (-> & _). split; [assumption|]. left. now apply (Be e). }
  assert (B1 : before (w_fs w1)) by (destruct S as (-> & _); assumption).
  apply bind_inv in H as [(v & w2 & H1 & H)|(e & H1 & ->)].
  - assert (R : runs safe w w2 /\ before (w_fs w2)).
    { destruct b; cbn [when] in H1.
      - destruct (Bt eq_refl) as (t & G). assert (G1 : get (w_fs w1) T = Some (Link t)) by (destruct S as (-> & _); assumption).
        apply (aside _ _ _ t B1 G1) in H1 as [(_ & e & Q & _)|(_ & Ch & B2)]; [discriminate|]. split; [|assumption].
        apply (runs_trans _ _ w1); [now apply runs_same|]. apply (runs_changed _ (w_fs w2)); [assumption|now apply before_safe].
      - injection H1 as _ <-. split; [now apply runs_same|assumption]. }
    destruct R as [R B2]. apply (across _ _ _ B2) in H as [(S2 & e & -> & W)|(-> & Ch & B3)].
    + split; [apply (runs_trans _ _ w2); [assumption|now apply runs_same]|]. destruct S2 as (-> & _). split; [assumption|]. apply (why_run _ w2); [apply R|assumption].
    + split; [|assumption]. apply (runs_trans _ _ w2); [assumption|]. apply (runs_changed _ (w_fs w')); [assumption|now apply behind_safe].
  - destruct b; cbn [when] in H1; [|discriminate]. destruct (Bt eq_refl) as (t & G). assert (G1 : get (w_fs w1) T = Some (Link t)) by (destruct S as (-> & _); assumption).
    apply (aside _ _ _ t B1 G1) in H1 as [(S1 & e' & Q & W)|(Q & _)]; [|discriminate].
    split; [apply runs_same; now apply (same_trans _ w1)|]. destruct S1 as (-> & _). split; [assumption|]. now apply (why_same _ w1).
Qed.

Definition handler : M unit := let! l <- p_is_broken_symlink (path_of U) ; when l (sys_rename (path_of U) (path_of T)).
Lemma handler_run w r w' : before (w_fs w) -> handler w = (r, w') ->
  runs safe w w' /\ before (w_fs w').
Proof.
  intros B H. pose proof B as (O & _). pose proof O as (Go & Ho & _). unfold handler in H.
  apply bind_inv in H as [(b & w1 & H1 & H)|(e & H1 & ->)]; apply (broken_inv E u _ _ _ Go Ho Hu) in H1 as (S & Bt & Be).
  2:{ split; [now apply runs_same|]. now destruct S as (-> & _). }
  assert (B1 : before (w_fs w1)) by (destruct S as (-> & _); assumption).
  destruct b; cbn [when] in H.
  - destruct (Bt eq_refl) as (t & G). assert (G1 : get (w_fs w1) U = Some (Link t)) by (destruct S as (-> & _); assumption).
    apply (back _ _ _ t B1 G1) in H as [(S1 & e & -> & W)|(-> & Ch & B2)].
    + split; [apply runs_same; now apply (same_trans _ w1)|]. now destruct S1 as (-> & _).
    + split; [|assumption]. apply (runs_trans _ _ w1); [now apply runs_same|]. apply (runs_changed _ (w_fs w')); [assumption|now apply before_safe].
  - injection H as <- <-. split; [now apply runs_same|assumption].
Qed.

Lemma dance_run w r w' : before (w_fs w) -> finally (catch body (fun _ => handler)) cleanup w = (r, w') ->
  runs safe w w' /\ (behind (w_fs w') /\ (forall e, r = Err e -> why w) \/ before (w_fs w') /\ why w).
Proof.
  intros B H. apply finally_inv in H as (r1 & w1 & r2 & H1 & H2 & ->).
  assert (M1 : runs safe w w1 /\ (behind (w_fs w1) /\ (exists a, r1 = Ok a) \/ before (w_fs w1) /\ why w)).
  { apply catch_inv in H1 as [(a & H1 & ->)|(e & w2 & H1 & H3)]; apply (body_run _ _ _ B) in H1.
    - destruct H1 as [R Q]. split; [assumption|]. left. split; [assumption|eauto].
    - destruct H1 as (R & B2 & W). apply (handler_run _ _ _ B2) in H3 as (R3 & B3). split; [now apply (runs_trans _ _ w2)|]. right. now split. }
  destruct M1 as [R1 Q1]. assert (O1 : others (w_fs w1)) by (destruct Q1 as [((O & _) & _)|((O & _) & _)]; assumption).
  apply (cleanup_run _ _ _ O1) in H2 as (F2 & Cw & We & Hc). assert (Fl : w_fault w1 = w_fault w) by apply R1.
  assert (Q2 : (behind (w_fs w') /\ (exists a, r1 = Ok a) \/ before (w_fs w') /\ why w)).
  { destruct Hc as [[-> _]|(_ & O2 & Q)]; [assumption|].
    assert (QP : look (w_fs w') P = look (w_fs w1) P) by (apply Q; exact Npu). assert (QT : look (w_fs w') T = look (w_fs w1) T) by (apply Q; exact Ntu).
    destruct Q1 as [((_ & L1 & L2) & Ok1)|((_ & L1 & Cm & Dt) & W)]; [left|right]; split; try assumption.
    - split; [assumption|]. split; congruence.
    - split; [assumption|]. split; [congruence|]. split; [intro c; rewrite QT; now apply Cm|]. intros (zs & Z). apply Dt. exists zs. congruence. }
  split.
  - apply (runs_trans _ _ w1); [assumption|]. split; [assumption|]. split; [assumption|]. destruct Hc as [(_ & ->)|(Eh & _)].
    + exists []. split; [reflexivity|constructor].
    + exists [w_fs w']. split; [assumption|]. constructor; [|constructor]. destruct Q2 as [(Q2 & _)|(Q2 & _)]; [now apply behind_safe|now apply before_safe].
  - destruct Q2 as [(Q2 & a & Ea)|Q2]; [left|now right]. split; [assumption|]. intros e Er. destruct r2 as [v|e2].
    + congruence.
    + apply (why_run _ w1); [assumption|]. now apply (We e2).
Qed.

Lemma fine_P w : w_fs w = fs -> fine D x (w_fs w).
Proof.
  intros ->. split; [assumption|]. split; [apply (look_above fs D x []); congruence|]. intros t Q. congruence.
Qed.
Lemma self_link w r w' : w_fs w = fs -> p_is_broken_symlink (path_of P) w = (r, w') -> same w w' /\ r <> Ok true /\ forall e, r = Err e -> faulty w.
Proof.
  intros Ew H. pose proof (fine_P w Ew) as (Go & Hd & _). apply (broken_inv D x _ _ _ Go Hd Hx) in H as (S & B & F). split; [assumption|]. split; [|assumption].
  intro Q. destruct (B Q) as (t & G). rewrite Ew in G. apply look_link in G. congruence.
Qed.

Definition prelude (has_remote : bool) : M unit :=
  let! e <- p_exists (path_of T) ;
  let! there <- (if e then ret true else p_is_broken_symlink (path_of T)) ;
  when there
      (let! a <- cache_id K (path_of T) ;
       let! b <- cache_id K (path_of P) ;
       if py_eq a b then
         let! l <- p_is_broken_symlink (path_of P) ;
         when l (let! m <- cache_meta K (path_of P) ; let! _ <- meta_updater K (path_of T) m true ; ret tt)
       else
         let! l <- p_is_broken_symlink (path_of T) ;
         if l then raise (if has_remote then WhyDidntThisGetMovedErr else AttributeError)
         else raise PathExistsErr).
Lemma prelude_run b w r w' : w_fs w = fs -> prelude b w = (r, w') -> same w w' /\ forall e, r = Err e -> faulty w \/ look fs T <> None.
Proof.
  intros Ew H. unfold prelude in H. apply bind_inv in H as [(e & w1 & H1 & H)|(e & H1 & ->)].
  2:{ pose proof H1 as S. apply test_inv in S as [S _]. split; [assumption|]. intros e' _. left. now apply test_faulty in H1. }
  apply test_inv in H1 as [S1 T1]. assert (Ew1 : w_fs w1 = fs) by (destruct S1 as (-> & _); assumption).
  assert (Hw : good_fs (w_fs w1) /\ is_dir_at (w_fs w1) E) by (rewrite Ew1; now split). destruct Hw as [Gw Ew'].
  assert (T1' : e = true -> look fs T <> None).
  { intros -> L. destruct (T1 eq_refl) as (q & n & W & _). rewrite walk_of_missing in W; try assumption; [discriminate| | |]; rewrite Ew; assumption. }
  apply bind_inv in H as [(there & w2 & H2 & H)|(e2 & H2 & ->)].
  2:{ destruct e; [discriminate|]. apply (broken_inv E y _ _ _ Gw Ew' Hy) in H2 as (S2 & _ & F). split; [now apply (same_trans _ w1)|]. intros e' _. left.
      apply (faulty_same _ w1); [assumption|now apply (F e2)]. }
  assert (S2 : same w w2 /\ (there = true -> look fs T <> None)).
  { destruct e.
    - injection H2 as <- <-. split; [assumption|auto].
    - apply (broken_inv E y _ _ _ Gw Ew' Hy) in H2 as (S2 & B & _). split; [now apply (same_trans _ w1)|]. intros ->. destruct (B eq_refl) as (t & G). rewrite Ew1 in G. apply look_link in G. congruence. }
  destruct S2 as [S2 T2]. assert (Ew2 : w_fs w2 = fs) by (destruct S2 as (-> & _); assumption).
  destruct there; cbn [when] in H; [|injection H as <- <-; split; [assumption|discriminate]].
  split; [|intros _ _; right; auto]. clear S1 T1 T1' H2 Gw Ew'.
  apply bind_inv in H as [(a & w3 & H3 & H)|(e3 & H3 & ->)]; apply quiet_cache_id in H3; apply (same_trans _ _ _ S2) in H3; [|assumption].
  apply bind_inv in H as [(c & w4 & H4 & H)|(e4 & H4 & ->)]; apply quiet_cache_id in H4; apply (same_trans _ _ _ H3) in H4; [|assumption].
  assert (Ew4 : w_fs w4 = fs) by (destruct H4 as (-> & _); assumption).
  destruct (py_eq a c).
  - apply bind_inv in H as [(l & w5 & H5 & H)|(e5 & H5 & ->)]; apply (self_link _ _ _ Ew4) in H5 as (S5 & N5 & _); apply (same_trans _ _ _ H4) in S5; [|assumption].
    destruct l; [congruence|]. cbn [when] in H. injection H as _ <-. assumption.
  - assert (Hw : good_fs (w_fs w4) /\ is_dir_at (w_fs w4) E) by (rewrite Ew4; now split). destruct Hw as [Gw Ew'].
    apply bind_inv in H as [(l & w5 & H5 & H)|(e5 & H5 & ->)]; apply (broken_inv E y _ _ _ Gw Ew' Hy) in H5 as (S5 & _); apply (same_trans _ _ _ H4) in S5; [|assumption].
    destruct l; injection H as _ <-; assumption.
Qed.

Lemma move_eq b w : move K (path_of P) (path_of T) b w = (
  let! _ <- prelude b ;
  let! e <- p_exists (path_of P) ;
  if e then let! _ <- finally (catch body (fun _ => handler)) cleanup ; ret (path_of T)
  else let! l <- p_is_broken_symlink (path_of P) ;
       let! _ <- when l (sys_unlink (path_of P)) ;
       ret (path_of T)) w.
Proof.
  unfold move. destruct (pp_eqb (path_of P) (path_of T)) eqn:Q.
  { apply pp_eqb_eq in Q. unfold path_of in Q. injection Q as Q. contradiction. }
  unfold prelude, body, handler, cleanup. rewrite pp_parent_of, pp_name_of. change (child (path_of E) u) with (path_of U). rewrite bind_bind. apply bind_ext. intros e w1. rewrite bind_bind. apply bind_ext. intros th w2. reflexivity.
Qed.

Lemma move_run b w r w' : w_fs w = fs -> honest (w_fault w) -> move K (path_of P) (path_of T) b w = (r, w') ->
  runs safe w w' /\
  match r with
  | Ok t => t = path_of T /\ (behind (w_fs w') \/ before (w_fs w') /\ why w)
  | Err _ => behind (w_fs w') /\ why w \/ before (w_fs w') /\ (why w \/ look fs T <> None)
  end.
Proof.
  intros Ew Ho H. rewrite move_eq in H. pose proof before_fs as B.
  apply bind_inv in H as [(v & w1 & H1 & H)|(e & H1 & ->)]; apply (prelude_run _ _ _ _ Ew) in H1 as [S1 F1].
  2:{ split; [now apply runs_same|]. right. destruct S1 as (-> & _). rewrite Ew. split; [assumption|]. destruct (F1 e eq_refl); [left; now left|now right]. }
  assert (Ew1 : w_fs w1 = fs) by (destruct S1 as (-> & _); assumption). assert (Ho1 : honest (w_fault w1)) by (destruct S1 as (_ & _ & _ & ->); assumption).
  apply bind_inv in H as [(e & w2 & H2 & H)|(e & H2 & ->)]; pose proof H2 as S2; apply test_inv in S2 as [S2 _]; apply (same_trans _ _ _ S1) in S2.
  2:{ split; [now apply runs_same|]. right. destruct S2 as (-> & _). rewrite Ew. split; [assumption|]. left. left. apply (faulty_same _ w1); [assumption|]. now apply test_faulty in H2. }
  destruct (t_exists D x Hx (fun _ => True) (fun s => s = fs) (fun s Q => eq_ind_r (fine D x) (eq_ind _ (fine D x) (fine_P w1 Ew1) _ Ew1) Q) w1 _ _ Ho1 Ew1 H2) as [[E2 Q2] _].
  specialize (Q2 e eq_refl). rewrite E2, Lf in Q2. cbn [isE] in Q2. subst e.
  assert (B2 : before (w_fs w2)) by now rewrite E2.
  apply bind_inv in H as [(v' & w3 & H3 & H)|(e & H3 & ->)]; apply (dance_run _ _ _ B2) in H3 as (R & Q).
  - injection H as <- <-. split; [apply (runs_trans _ _ w2); [now apply runs_same|assumption]|]. split; [reflexivity|].
    destruct Q as [(Q & _)|(Q & W)]; [now left|right]. split; [assumption|]. now apply (why_same _ w2).
  - split; [apply (runs_trans _ _ w2); [now apply runs_same|assumption]|].
    destruct Q as [(Q & W)|(Q & W)]; [left|right]; (split; [assumption|]); [apply (why_same _ w2); [assumption|now apply (W e)]|left; now apply (why_same _ w2)].
Qed.

(** Something else at the target is not overwritten. *)
Lemma move_refuses b w r w' mp mt : w_fs w = fs -> honest (w_fault w) -> look fs T <> None -> (forall t, look fs T = Some (ALink t) -> starts_with_name y t) ->
  recorded K x mine = Ok mp -> recorded K y (look fs T) = Ok mt -> py_eq (id_of mt) (id_of mp) = false ->
  move K (path_of P) (path_of T) b w = (r, w') -> same w w' /\ exists e, r = Err e.
Proof.
  intros Ew Ho Lt Ht Rp Rt Ne H. rewrite move_eq in H.
  assert (Ft : fine E y fs) by (split; [assumption|]; split; assumption). assert (Fp : fine D x fs) by (rewrite <- Ew; now apply fine_P).
  assert (FT : forall s, s = fs -> fine E y s) by (intros s ->; assumption). assert (FP : forall s, s = fs -> fine D x s) by (intros s ->; assumption).
  apply bind_inv in H as [(v & w1 & H1 & H)|(e & H1 & ->)].
  2:{ apply (prelude_run _ _ _ _ Ew) in H1 as [S1 _]. split; [assumption|eauto]. }
  exfalso. clear H. unfold prelude in H1. apply bind_inv in H1 as [(e & w2 & H2 & H)|(e & _ & Q)]; [|discriminate].
  pose proof H2 as S2. apply test_inv in S2 as [S2 _].
  destruct (t_exists E y Hy (fun _ => True) (fun s => s = fs) FT w _ _ Ho Ew H2) as [[_ Q2] _]. specialize (Q2 e eq_refl). clear H2.
  assert (Ew2 : w_fs w2 = fs) by (destruct S2 as (-> & _); assumption). assert (Ho2 : honest (w_fault w2)) by (destruct S2 as (_ & _ & _ & ->); assumption).
  rewrite Ew2 in Q2. apply bind_inv in H as [(there & w3 & H3 & H)|(e3 & _ & Q)]; [|discriminate].
  assert (S3 : same w2 w3 /\ there = true).
  { destruct e.
    - injection H3 as <- <-. split; [apply same_refl|reflexivity].
    - pose proof H3 as S3. apply (broken_inv E y) in S3 as (S3 & _); [|rewrite Ew2; assumption|rewrite Ew2; assumption|assumption]. split; [assumption|].
      destruct (t_broken E y Hy (fun _ => True) (fun s => s = fs) FT w2 _ _ Ho2 Ew2 H3) as [[E3 Q3] _]. rewrite (Q3 there eq_refl), E3.
      destruct (look fs T) as [[| |]|]; try discriminate; [reflexivity|congruence]. }
  destruct S3 as [S3 ->]. cbn [when] in H. apply (same_trans _ _ _ S2) in S3. clear S2 H3 Ew2 Ho2.
  assert (Ew3 : w_fs w3 = fs) by (destruct S3 as (-> & _); assumption). assert (Ho3 : honest (w_fault w3)) by (destruct S3 as (_ & _ & _ & ->); assumption).
  apply bind_inv in H as [(a & w4 & H4 & H)|(e4 & _ & Q)]; [|discriminate].
  destruct (t_cache_id K E y Hy (fun _ => True) (fun s => s = fs) FT w3 _ _ Ho3 Ew3 H4) as [[E4 Q4] _]. destruct (Q4 a eq_refl) as (m4 & R4 & ->).
  apply quiet_cache_id in H4. apply (same_trans _ _ _ S3) in H4. rewrite E4, Rt in R4. apply Ok_inj in R4. subst m4.
  assert (Ho4 : honest (w_fault w4)) by (destruct H4 as (_ & _ & _ & ->); assumption).
  apply bind_inv in H as [(c & w5 & H5 & H)|(e5 & _ & Q)]; [|discriminate].
  destruct (t_cache_id K D x Hx (fun _ => True) (fun s => s = fs) FP w4 _ _ Ho4 E4 H5) as [[E5 Q5] _]. destruct (Q5 c eq_refl) as (m5 & R5 & ->).
  rewrite E5, Lf, Rp in R5. apply Ok_inj in R5. subst m5. rewrite Ne in H.
  apply bind_inv in H as [(l & w6 & H6 & H)|(e6 & _ & Q)]; [|discriminate]. destruct l; discriminate.
Qed.
End Move.
