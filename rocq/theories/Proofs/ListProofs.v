(** * Listings are complete *)
From Coq Require Import String NArith ZArith Bool List Lia Arith FinFun.
From Verif Require Import Model.Py Model.PurePath Model.Fs Model.PathOps Model.Rmdirtree Model.Listing
  Spec.FsSpec Spec.LoopSpec Proofs.PyLemmas Proofs.FsLemmas Proofs.RunLemmas Proofs.RmdirtreeProofs Proofs.GoodFs Spec.ListSpec.
Import ListNotations.

Lemma under_child p x r : under (child p x) r = under p (x :: r).
Proof. unfold under, child. cbn [pp_abs pp_parts]. now rewrite <- app_assoc. Qed.
Lemma under_inj p a b : under p a = under p b -> a = b.
Proof. unfold under. intro H. injection H as H. now apply app_inv_head in H. Qed.
Lemma child_under p x : child p x = under p [x].
Proof. reflexivity. Qed.
Lemma under_nil p : under p [] = p.
Proof. unfold under. rewrite app_nil_r. now destruct p. Qed.

(** ** Going down from a directory *)
Lemma walk_down root b x c follow : forall cur comps R xs es,
  good_name x -> walk_from root true b cur comps = Found R (Dir xs es) -> entry x es = Some c ->
  (follow = true -> forall t, c <> Link t) ->
  walk_from root follow b cur (comps ++ [x]) = Found (R ++ [x]) c.
Proof.
  intros cur comps R xs es (_ & D1 & D2 & _). apply str_eqb_neq in D1, D2. revert cur comps R xs es.
  assert (E0 : forall b cur R xs es, walk_from root true b cur [] = Found R (Dir xs es) -> entry x es = Some c ->
    (follow = true -> forall t, c <> Link t) -> walk_from root follow b cur [x] = Found (R ++ [x]) c).
  { intros b' cur R xs es H En F. rewrite walk_eq in H. destruct (get root cur) as [m|] eqn:G; [|discriminate].
    injection H as <- ->. rewrite walk_eq, G, D1, D2, En.
    destruct c as [d' xs'|xs' es'|t'].
    - rewrite walk_eq, get_snoc, G, En. reflexivity.
    - rewrite walk_eq, get_snoc, G, En. reflexivity.
    - destruct follow; [exfalso; now apply (F eq_refl t')|reflexivity]. }
  induction b as [|b IHb]; intros cur comps; revert cur; induction comps as [|y rest IH]; intros cur R xs es H En F;
    try (exact (E0 _ _ _ _ _ H En F)); rewrite walk_eq in H; cbn [app]; rewrite walk_eq;
    destruct (get root cur) as [m|] eqn:G; try discriminate;
    destruct m as [d zs|zs fs|t]; try discriminate;
    destruct (str_eqb y $"."); try (now apply (IH _ _ _ _ H En F)); destruct (str_eqb y $".."); try (now apply (IH _ _ _ _ H En F));
    destruct (entry y fs) as [[d' xs'|xs' es'|t']|] eqn:E; try (now apply (IH _ _ _ _ H En F));
    try (destruct rest; discriminate).
  assert (G1 : (match rest with [] => negb true | _ => false end) = false) by (destruct rest; reflexivity).
  assert (G2 : (match rest ++ [x] with [] => negb follow | _ => false end) = false) by (destruct rest; reflexivity).
  rewrite G1 in H. rewrite G2. destruct t' as [|a t']; [discriminate|]. rewrite app_assoc. now apply (IHb _ _ _ _ _ H En F).
Qed.

(** ** Running *)
Lemma scandir_run p w r w' R xs es : walk (w_fs w) (w_cwd w) true p = Found R (Dir xs es) -> sys_scandir p w = (r, w') ->
  same w w' /\ (r = Ok (map (fun e => (fst e, dtype_of (snd e))) es) \/ exists e, r = Err e /\ is_fault (w_fault w) e).
Proof.
  intros W H. apply ask_inv in H as [S [H|(e & H & F)]]; (split; [exact S|]).
  - left. unfold lookup in H. rewrite W in H. exact H.
  - right. exists e. split; [exact H|]. now exists (w_tick w).
Qed.

Lemma or_denied_run {A} (m : M A) d w r w' : or_denied m d w = (r, w') ->
  m w = (r, w') \/ (r = Ok d /\ exists e, m w = (Err e, w') /\ (e = OSErr EACCES \/ e = OSErr EPERM)).
Proof.
  intro H. apply catch_inv in H as [(a & H & ->)|(e & w1 & H & K)]; [now left|].
  destruct e; try (injection K as <- <-; now left).
  match goal with K : (match ?x with EACCES => _ | _ => _ end) _ = _ |- _ => destruct x end;
    injection K as <- <-; try (now left); right; (split; [reflexivity|]); eexists; (split; [exact H|]); auto.
Qed.

(** One directory, read for something. *)
Lemma read_run {A} (g : list (str * dtype) -> list A) p w r w' R xs es :
  walk (w_fs w) (w_cwd w) true p = Found R (Dir xs es) ->
  or_denied (let! l <- sys_scandir p ; ret (g l)) [] w = (r, w') ->
  same w w' /\ match r with
    | Ok a => a = g (map (fun e => (fst e, dtype_of (snd e))) es) \/ (a = [] /\ ~ never_denied (w_fault w))
    | Err e => is_fault (w_fault w) e
    end.
Proof.
  intros W H. apply or_denied_run in H as [H|(-> & e & H & D)].
  - apply bind_inv in H as [(l & w1 & H & K)|(e & H & ->)].
    + injection K as <- <-. destruct (scandir_run _ _ _ _ _ _ _ W H) as [S [E|(e & E & _)]]; [|discriminate].
      split; [exact S|]. left. apply Ok_inj in E. now subst.
    + destruct (scandir_run _ _ _ _ _ _ _ W H) as [S [E|(e' & E & F)]]; [discriminate|]. split; [exact S|]. now injection E as ->.
  - apply bind_inv in H as [(l & w1 & H & K)|(e' & H & K)]; [discriminate|]. injection K as <-.
    destruct (scandir_run _ _ _ _ _ _ _ W H) as [S [E|(e' & E & t & F)]]; [discriminate|]. split; [exact S|]. right. split; [reflexivity|].
    injection E as <-. intro N. destruct (N t) as [N1 N2]. destruct D as [->| ->]; contradiction.
Qed.

Lemma each_cat_run {A B} (f : A -> M (list B)) (P : A -> list B -> Prop) (F : exn -> Prop) w0 : forall l w r w',
  (forall x w r w', In x l -> same w0 w -> f x w = (r, w') -> same w w' /\ match r with Ok a => P x a | Err e => F e end) ->
  same w0 w -> each_cat f l w = (r, w') ->
  same w w' /\ match r with Ok a => exists ls, Forall2 P l ls /\ a = concat ls | Err e => F e end.
Proof.
  induction l as [|x l IH]; intros w r w' Hf S H.
  - injection H as <- <-. split; [apply same_refl|]. exists []. split; [constructor|reflexivity].
  - cbn [each_cat] in H. apply bind_inv in H as [(a & w1 & H1 & H)|(e & H1 & ->)].
    + destruct (Hf _ _ _ _ (or_introl eq_refl) S H1) as [S1 Pa]. pose proof (same_trans _ _ _ S S1) as S2.
      apply bind_inv in H as [(b & w2 & H2 & H)|(e & H2 & ->)].
      * injection H as <- <-. destruct (IH _ _ _ (fun y v s v' I => Hf y v s v' (or_intror I)) S2 H2) as (S3 & ls & Fl & ->).
        split; [now apply (same_trans _ _ _ S1)|]. exists (a :: ls). split; [now constructor|reflexivity].
      * destruct (IH _ _ _ (fun y v s v' I => Hf y v s v' (or_intror I)) S2 H2) as (S3 & Fe).
        split; [now apply (same_trans _ _ _ S1)|exact Fe].
    + exact (Hf _ _ _ _ (or_introl eq_refl) S H1).
Qed.

(** ** What [rglob] collects *)
Definition first_parents (p : ppath) (l : list ppath) : Prop :=
  forall l1 q l2, l = l1 ++ q :: l2 -> exists r x, q = under p (r ++ [x]) /\ (r = [] \/ In (under p r) l1).

Record collected (fs : node) (denied : Prop) (p : ppath) (R : place) (l : list ppath) : Prop := {
  col_real : forall q, In q l -> exists r, q = under p r /\ r <> [] /\ get fs (R ++ r) <> None;
  col_all : ~ denied -> forall r, r <> [] -> get fs (R ++ r) <> None -> In (under p r) l;
  col_first : ~ denied -> first_parents p l
}.

Lemma in_subdirs x es : In x (subdirs (map (fun e => (fst e, dtype_of (snd e))) es)) <-> exists xs ds, In (x, Dir xs ds) es.
Proof.
  unfold subdirs. rewrite in_map_iff. split.
  - intros ((y & k) & E & I). cbn [fst] in E. subst y. apply filter_In in I as [I K]. apply in_map_iff in I as ((y & c) & E & I).
    cbn [fst snd] in E. injection E as -> <-. destruct c as [|xs ds|]; try discriminate. now exists xs, ds.
  - intros (xs & ds & I). exists (x, DT_DIR). split; [reflexivity|]. apply filter_In. split; [|reflexivity].
    apply in_map_iff. now exists (x, Dir xs ds).
Qed.

Lemma first_app p l l' : first_parents p l ->
  (forall l1 q l2, l' = l1 ++ q :: l2 -> exists r x, q = under p (r ++ [x]) /\ (r = [] \/ In (under p r) l \/ In (under p r) l1)) ->
  first_parents p (l ++ l').
Proof.
  intros A B l1 q l2 E. revert l1 E. revert A. 
  assert (Sp : forall (a l1 : list ppath), a ++ l' = l1 ++ q :: l2 ->
     (exists m, a = l1 ++ q :: m) \/ (exists m, l1 = a ++ m /\ l' = m ++ q :: l2)).
  { induction a as [|z a IH]; intros l1 E.
    - right. exists l1. split; [reflexivity|exact E].
    - destruct l1 as [|y l1]; cbn [app] in E; injection E as -> E.
      + left. exists a. reflexivity.
      + destruct (IH _ E) as [(m & ->)|(m & -> & E2)]; [left; now exists m|right; now exists m]. }
  intros A l1 E. destruct (Sp _ _ E) as [(m & ->)|(m & -> & E2)].
  - exact (A _ _ _ eq_refl).
  - destruct (B _ _ _ E2) as (r & x & -> & C). exists r, x. split; [reflexivity|].
    destruct C as [C|[C|C]]; [now left|right; apply in_or_app; now left|right; apply in_or_app; now right].
Qed.

Lemma first_concat p l : forall into ls, (forall x, In x into -> In (child p x) l) ->
  Forall2 (fun x a => first_parents (child p x) a) into ls ->
  forall l1 q l2, concat ls = l1 ++ q :: l2 -> exists r x, q = under p (r ++ [x]) /\ (r = [] \/ In (under p r) l \/ In (under p r) l1).
Proof.
  intros into ls I F. assert (A : Forall2 (fun x a => In (child p x) l /\ first_parents (child p x) a) into ls).
  { clear -I F. induction F; constructor; [split; [apply I; now left|assumption]|]. apply IHF. intros; apply I; now right. }
  clear I F. induction A as [|x a into ls [I F] A IH]; intros l1 q l2 E.
  - destruct l1; discriminate.
  - cbn [concat] in E.
    assert (Sp : (exists m, a = l1 ++ q :: m) \/ (exists m, l1 = a ++ m /\ concat ls = m ++ q :: l2)).
    { clear -E. revert l1 E. induction a as [|z a IH]; intros l1 E.
      - right. exists l1. split; [reflexivity|exact E].
      - destruct l1 as [|y l1]; cbn [app] in E; injection E as -> E.
        + left. now exists a.
        + destruct (IH _ E) as [(m & ->)|(m & -> & E2)]; [left; now exists m|right; now exists m]. }
    destruct Sp as [(m & ->)|(m & -> & E2)].
    + destruct (F _ _ _ eq_refl) as (r & y & -> & C). exists (x :: r), y. rewrite under_child. split; [reflexivity|].
      right. destruct C as [->|C]; [left; now rewrite <- child_under|right; now rewrite <- under_child].
    + destruct (IH _ _ _ E2) as (r & y & -> & C). exists r, y. split; [reflexivity|].
      destruct C as [C|[C|C]]; [now left|right; now left|right; right; apply in_or_app; now right].
Qed.

Lemma glob_run : forall fuel w p R xs es r w', good (w_fs w) -> walk (w_fs w) (w_cwd w) true p = Found R (Dir xs es) ->
  (depth (Dir xs es) <= fuel)%nat -> glob fuel p w = (r, w') ->
  same w w' /\ match r with Ok l => collected (w_fs w) (~ never_denied (w_fault w)) p R l | Err e => is_fault (w_fault w) e end.
Proof.
  induction fuel as [|fuel IH]; intros w p R xs es r w' Gd W D H; [cbn in D; lia|].
  assert (G : get (w_fs w) R = Some (Dir xs es)) by exact (walk_found_get _ _ _ _ _ _ _ W).
  pose proof (good_get _ _ _ Gd G) as GD. inversion GD as [| |? ? ND GN GC]; subst.
  cbn [glob] in H. apply bind_inv in H as [(here & w1 & H1 & H)|(e & H1 & ->)].
  2: { exact (read_run (map (fun e => child p (fst e))) _ _ _ _ _ _ _ W H1). }
  destruct (read_run (map (fun e => child p (fst e))) _ _ _ _ _ _ _ W H1) as [S1 P1].
  pose proof S1 as (F1 & C1 & _ & T1).
  assert (W1 : walk (w_fs w1) (w_cwd w1) true p = Found R (Dir xs es)) by (rewrite F1, C1; exact W).
  apply bind_inv in H as [(into & w2 & H2 & H)|(e & H2 & ->)].
  2: { destruct (read_run subdirs _ _ _ _ _ _ _ W1 H2) as [S2 P2]. split; [exact (same_trans _ _ _ S1 S2)|]. now rewrite <- T1. }
  destruct (read_run subdirs _ _ _ _ _ _ _ W1 H2) as [S2 P2]. rewrite T1 in P2.
  pose proof (same_trans _ _ _ S1 S2) as S12.
  assert (Into : forall x, In x into -> exists ys ds, entry x es = Some (Dir ys ds)).
  { intros x I. destruct P2 as [->|[-> _]]; [|contradiction]. apply in_subdirs in I as (ys & ds & I). exists ys, ds. now apply entry_In_nodup. }
  assert (Each : forall r w3, each_cat (fun x => glob fuel (child p x)) into w2 = (r, w3) ->
    same w2 w3 /\ match r with Ok a => exists ls, Forall2 (fun x l => collected (w_fs w) (~ never_denied (w_fault w)) (child p x) (R ++ [x]) l) into ls /\ a = concat ls
                  | Err e => is_fault (w_fault w) e end).
  { intros r3 w3 H3. refine (each_cat_run _ _ _ w _ _ _ _ _ S12 H3).
    intros x v s v' I Sv Hv. destruct Sv as (Fv & Cv & Hiv & Tv). destruct (Into _ I) as (ys & ds & En).
    assert (Wv : walk (w_fs v) (w_cwd v) true (child p x) = Found (R ++ [x]) (Dir ys ds)).
    { rewrite Fv, Cv. apply (walk_down _ _ _ _ _ _ _ _ xs es); [|exact W|exact En|intros _ t; discriminate].
      apply GN. apply entry_In in En. change x with (fst (x, Dir ys ds)). now apply in_map. }
    apply IH with (R := R ++ [x]) (xs := ys) (es := ds) in Hv; [|now rewrite Fv|exact Wv|].
    - rewrite Fv, Tv in Hv. exact Hv.
    - pose proof (depth_entry xs _ _ _ En). lia. }
  apply bind_inv in H as [(deeper & w3 & H3 & H)|(e & H3 & ->)].
  2: { destruct (Each _ _ H3) as [S3 Fe]. split; [exact (same_trans _ _ _ S12 S3)|exact Fe]. }
  injection H as <- <-. destruct (Each _ _ H3) as (S3 & ls & Fl & ->). split; [exact (same_trans _ _ _ S12 S3)|].
  assert (Gx : forall x r, get (w_fs w) (R ++ x :: r) = match entry x es with Some c => get c r | None => None end).
  { intros x r. rewrite get_app, G. reflexivity. }
  constructor.
  - intros q I. apply in_app_or in I as [I|I].
    + destruct P1 as [->|[-> _]]; [|contradiction]. apply in_map_iff in I as ((y & k) & <- & I). apply in_map_iff in I as ((y' & c) & E & I).
      injection E as -> <-. exists [y]. split; [reflexivity|]. split; [discriminate|]. rewrite Gx, (entry_In_nodup _ _ _ ND I). discriminate.
    + apply in_concat in I as (l & Il & Iq). clear -Fl Il Iq. induction Fl as [|x a into ls [C _ _] Fl IHF]; [contradiction|].
      destruct Il as [->|Il]; [|now apply IHF]. destruct (C _ Iq) as (r & -> & N & Gr). exists (x :: r). rewrite under_child.
      split; [reflexivity|]. split; [discriminate|]. now rewrite <- app_assoc in Gr.
  - intros N r Nr Gr. destruct P1 as [->|[_ X]]; [|contradiction]. destruct P2 as [->|[_ X]]; [|contradiction].
    destruct r as [|x r]; [contradiction|]. rewrite Gx in Gr. destruct (entry x es) as [c|] eqn:En; [|contradiction].
    apply in_or_app. destruct r as [|y r].
    + left. apply in_map_iff. exists (x, dtype_of c). split; [reflexivity|]. apply in_map_iff. exists (x, c). split; [reflexivity|]. now apply entry_In.
    + right. assert (K : exists ys ds, c = Dir ys ds).
      { destruct c as [d ys|ys ds|t]; [now cbn in Gr|now exists ys, ds|now cbn in Gr]. }
      destruct K as (ys & ds & ->). pose proof (entry_In _ _ _ En) as Ix.
      assert (In x (subdirs (map (fun e => (fst e, dtype_of (snd e))) es))) as I2 by (apply in_subdirs; now exists ys, ds).
      rewrite <- under_child.
      assert (Q : get (w_fs w) ((R ++ [x]) ++ y :: r) <> None) by (rewrite <- app_assoc; cbn [app]; rewrite Gx, En; exact Gr).
      clear -Fl I2 N Q. induction Fl as [|z a into ls [_ C _] Fl IHF]; [contradiction|]. cbn [concat]. apply in_or_app.
      destruct I2 as [->|I2]; [left; apply C; [exact N|discriminate|exact Q]|right; now apply IHF].
  - intros N. destruct P1 as [->|[_ X]]; [|contradiction]. destruct P2 as [->|[_ X]]; [|contradiction].
    apply first_app.
    + intros l1 q l2 E. assert (I : In q (l1 ++ q :: l2)) by (apply in_or_app; right; now left). rewrite <- E in I.
      apply in_map_iff in I as ((y & k) & <- & _). exists [], y. split; [reflexivity|now left].
    + apply first_concat with (into := subdirs (map (fun e => (fst e, dtype_of (snd e))) es)).
      * intros x I. apply in_subdirs in I as (ys & ds & I). apply in_map_iff. exists (x, DT_DIR). split; [reflexivity|].
        apply in_map_iff. now exists (x, Dir ys ds).
      * clear -Fl N. induction Fl as [|z a into ls [_ _ C] Fl IHF]; constructor; [now apply C|exact IHF].
Qed.

(** ** Each path once *)
Lemma uniq_In z : forall l seen, In z (uniq seen l) <-> In z l /\ ~ In z seen.
Proof.
  induction l as [|q l IH]; intro seen; cbn [uniq]; [cbn; tauto|].
  destruct (in_set q seen) eqn:E.
  - apply in_set_In in E. rewrite IH. cbn [In]. split; [tauto|]. intros [[->|I] N]; [contradiction|tauto].
  - assert (N : ~ In q seen) by (intro I; apply in_set_In in I; congruence). cbn [In]. rewrite IH. cbn [In]. split.
    + intros [->|[I K]]; [tauto|]. split; [tauto|]. intro; apply K; tauto.
    + intros [[->|I] K]; [tauto|]. destruct (in_set z [q]) eqn:Z.
      * apply in_set_In in Z as [->|[]]. now left.
      * right. split; [exact I|]. intros [->|I2]; [|contradiction]. assert (in_set z [z] = true) by (apply in_set_In; now left). congruence.
Qed.
Lemma uniq_NoDup : forall l seen, NoDup (uniq seen l).
Proof.
  induction l as [|q l IH]; intro seen; cbn [uniq]; [constructor|]. destruct (in_set q seen) eqn:E; [apply IH|]. constructor; [|apply IH].
  intro I. apply uniq_In in I as [_ I]. apply I. now left.
Qed.
Lemma uniq_split : forall l seen l1 q l2, uniq seen l = l1 ++ q :: l2 ->
  exists k1 k2, l = k1 ++ q :: k2 /\ forall z, In z k1 -> In z seen \/ In z l1.
Proof.
  induction l as [|y l IH]; intros seen l1 q l2 E; cbn [uniq] in E; [destruct l1; discriminate|].
  destruct (in_set y seen) eqn:Y.
  - destruct (IH _ _ _ _ E) as (k1 & k2 & -> & K). exists (y :: k1), k2. split; [reflexivity|]. intros z [<-|I]; [|now apply K].
    left. now apply in_set_In.
  - destruct l1 as [|y' l1]; cbn [app] in E; injection E as -> E.
    + exists [], l. split; [reflexivity|]. intros z [].
    + destruct (IH _ _ _ _ E) as (k1 & k2 & -> & K). exists (y' :: k1), k2. split; [reflexivity|].
      intros z [<-|I]; [right; now left|]. destruct (K _ I) as [[<-|I2]|I2]; [right; now left|now left|right; now right].
Qed.

Lemma collected_lists fs (d : Prop) p R l : ~ d -> collected fs d p R l -> lists fs p R (fun _ => True) (uniq [] l).
Proof.
  intros N [Cr Ca Cf]. constructor.
  - intro q. rewrite uniq_In. split.
    + intros [I _]. destruct (Cr _ I) as (r & -> & Nr & Gr). exists r. repeat split; try assumption. now rewrite look_none.
    + intros (r & -> & Nr & Gr & _). split; [|intros []]. apply Ca; [assumption|assumption|]. now rewrite look_none in Gr.
  - apply uniq_NoDup.
  - intros l1 l2 r x E. destruct (uniq_split _ _ _ _ _ E) as (k1 & k2 & E2 & K).
    destruct (Cf N _ _ _ E2) as (r' & x' & U & C). apply under_inj in U. apply app_inj_tail in U as [<- <-].
    destruct C as [C|C]; [now left|right]. destruct (K _ C) as [[]|I]. exact I.
Qed.

(** ** Tests and lists of a directory *)
Lemma is_dir_run p w r w' : honest (w_fault w) -> p_is_dir p w = (r, w') ->
  same w w' /\ match r with
    | Ok true => exists R, opens (w_fs w) (w_cwd w) p R
    | Ok false => forall R, ~ opens (w_fs w) (w_cwd w) p R
    | Err e => is_fault (w_fault w) e
    end.
Proof.
  intros Ho H. pose proof (test_honest _ _ _ _ _ _ Ho H) as [S T]. split; [exact S|]. destruct r as [[]|e].
  - destruct T as (q & n & W & E). destruct n as [|xs es|]; try discriminate. exists q, xs, es. exact W.
  - intros R (xs & es & W). specialize (T _ _ W). discriminate.
  - clear T. unfold p_is_dir, test in H. apply catch_inv in H as [(b & _ & H)|(e1 & w1 & H & K)]; [discriminate|].
    apply bind_inv in H as [(n & w2 & _ & H)|(e2 & H & E)]; [discriminate|]. injection E as <-.
    apply ask_inv in H as [_ [H|(e3 & H & F)]].
    + unfold lookup in H. destruct (walk _ _ _ _) as [q n|d x|er] eqn:W; try discriminate; cbn in H; injection H as ->.
      * discriminate.
      * apply walk_fail in W. rewrite W in K. discriminate.
    + injection H as <-. destruct (ignored e1); [discriminate|]. injection K as <- _. now exists (w_tick w).
Qed.

Lemma iterdir_run p w r w' R xs es : walk (w_fs w) (w_cwd w) true p = Found R (Dir xs es) -> p_iterdir p w = (r, w') ->
  same w w' /\ match r with Ok l => l = map (child p) (map fst es) | Err e => is_fault (w_fault w) e end.
Proof.
  intros W H. apply bind_inv in H as [(l & w1 & H & K)|(e & H & ->)]; apply ask_inv in H as [S H].
  - injection K as <- <-. split; [exact S|]. destruct H as [H|(e & H & _)]; [|discriminate].
    unfold lookup in H. rewrite W in H. apply Ok_inj in H. now subst.
  - split; [exact S|]. destruct H as [H|(e' & H & F)].
    + unfold lookup in H. rewrite W in H. discriminate.
    + injection H as <-. now exists (w_tick w).
Qed.

(** ** rglob *)
Lemma rglob_run p w r w' : good (w_fs w) -> honest (w_fault w) -> p_rglob p w = (r, w') ->
  same w w' /\ match r with
    | Ok l => ((forall R, ~ opens (w_fs w) (w_cwd w) p R) /\ l = []) \/
              exists R l', opens (w_fs w) (w_cwd w) p R /\ l = uniq [] l' /\ collected (w_fs w) (~ never_denied (w_fault w)) p R l'
    | Err e => is_fault (w_fault w) e
    end.
Proof.
  intros Gd Ho H. unfold p_rglob in H. apply bind_inv in H as [(d & w1 & H1 & H)|(e & H1 & ->)].
  2: { exact (is_dir_run _ _ _ _ Ho H1). }
  destruct (is_dir_run _ _ _ _ Ho H1) as [S1 D]. pose proof S1 as (F1 & C1 & _ & T1). destruct d.
  - destruct D as (R & xs & es & W). assert (G : get (w_fs w) R = Some (Dir xs es)) by exact (walk_found_get _ _ _ _ _ _ _ W).
    assert (W1 : walk (w_fs w1) (w_cwd w1) true p = Found R (Dir xs es)) by (rewrite F1, C1; exact W).
    assert (K : forall r w2, glob (depth (w_fs w)) p w1 = (r, w2) -> same w1 w2 /\ match r with
      Ok l => collected (w_fs w) (~ never_denied (w_fault w)) p R l | Err e => is_fault (w_fault w) e end).
    { intros r2 w2 H2. apply (glob_run _ _ _ R xs es) in H2; [|now rewrite F1|exact W1|now apply depth_get in G]. now rewrite F1, T1 in H2. }
    apply bind_inv in H as [(l & w2 & H2 & H)|(e & H2 & ->)].
    + injection H as <- <-. destruct (K _ _ H2) as [S2 C]. split; [exact (same_trans _ _ _ S1 S2)|]. right. exists R, l. repeat split; try apply C.
      now exists xs, es.
    + destruct (K _ _ H2) as [S2 C]. split; [exact (same_trans _ _ _ S1 S2)|exact C].
  - injection H as <- <-. split; [exact S1|]. now left.
Qed.

(** ** What the anchor hides *)
Lemma rsplit1_join c : forall s a b, rsplit1 c s = Some (a, b) -> s = a ++ c :: b.
Proof.
  induction s as [|x s IH]; intros a b H; [discriminate|]. cbn [rsplit1] in H. destruct (rsplit1 c s) as [[u v]|].
  - injection H as <- <-. cbn [app]. now rewrite (IH _ _ eq_refl).
  - destruct (N.eqb x c) eqn:E; [|discriminate]. injection H as <- <-. apply N.eqb_eq in E. now subst.
Qed.
Lemma rsplit1_last c : forall s a b, rsplit1 c s = Some (a, b) -> ~ In c b.
Proof.
  induction s as [|x s IH]; intros a b H; [discriminate|]. cbn [rsplit1] in H. destruct (rsplit1 c s) as [[u v]|] eqn:E.
  - injection H as <- <-. now apply (IH u v).
  - destruct (N.eqb x c) eqn:Q; [|discriminate]. injection H as <- <-. intro I. clear -E I.
    apply in_split in I as (u & v & ->). revert E. induction u as [|y u IH]; cbn [app rsplit1].
    + destruct (rsplit1 c v) as [[? ?]|]; [discriminate|]. rewrite N.eqb_refl. discriminate.
    + destruct (rsplit1 c (u ++ c :: v)) as [[? ?]|]; [discriminate|]. now intro; apply IH.
Qed.
Lemma ignore_ours y : existsb (str_eqb y) cache_ignore = true <-> ours y.
Proof.
  unfold cache_ignore, ours. cbn [existsb]. rewrite !orb_true_iff, !str_eqb_eq. split.
  - intros [H|[H|[H|H]]]; try discriminate; auto.
  - intros [H|[H|H]]; auto.
Qed.
Lemma hidden_name x : existsb (str_eqb (stem x)) cache_ignore = true <-> ours x \/ namesake x.
Proof.
  rewrite ignore_ours. split.
  - unfold stem. destruct (rsplit1 (chr ".") x) as [[a b]|] eqn:E; [|now left].
    pose proof (rsplit1_join _ _ _ _ E) as J. pose proof (rsplit1_last _ _ _ _ E) as L.
    destruct a as [|c a]; [now left|]. destruct b as [|d b]; [now left|]. intro O. right. exists (c :: a), (d :: b). repeat split; try assumption. discriminate.
  - intros [[->|[->| ->]]|(y & e & O & -> & Ne & Nd)]; [left|right; left|right; right|]; try reflexivity.
    unfold stem. rewrite rsplit1_app by exact Nd. assert (y <> []) by (destruct O as [->|[->| ->]]; discriminate).
    destruct y; [contradiction|]. destruct e; [contradiction|]. exact O.
Qed.

Section Anchored.
Variable has_cache : ppath -> bool.
Variable anchor : option ppath.

Definition shown (es : list (str * node)) (x : str) : Prop := In x (map fst es) /\ ~ ours x /\ ~ namesake x.

Lemma shown_filter p (es : list (str * node)) : filter (fun q => negb (existsb (str_eqb (stem (last (pp_parts q) []))) cache_ignore)) (map (child p) (map fst es)) =
  map (child p) (filter (fun x => negb (existsb (str_eqb (stem x)) cache_ignore)) (map fst es)).
Proof.
  induction (map fst es) as [|x l IH]; [reflexivity|]. cbn [map filter]. unfold child at 1. cbn [pp_parts]. rewrite last_last.
  destruct (negb _); [cbn [map]; now rewrite IH|exact IH].
Qed.
Lemma In_shown (es : list (str * node)) x : In x (filter (fun x => negb (existsb (str_eqb (stem x)) cache_ignore)) (map fst es)) <-> shown es x.
Proof.
  rewrite filter_In, negb_true_iff. unfold shown. pose proof (hidden_name x) as H. destruct (existsb _ _).
  - split; [intros [_ X]; discriminate|]. intros (_ & A & B). destruct (proj1 H eq_refl); contradiction.
  - split; intros [A B]; (split; [exact A|]); [|reflexivity]. split; intro; assert (false = true) by (apply H; tauto); discriminate.
Qed.

Lemma children_run p w r w' : honest (w_fault w) -> p_children has_cache anchor p w = (r, w') ->
  same w w' /\ match r with
    | Ok l => ((forall R, ~ opens (w_fs w) (w_cwd w) p R) /\ l = []) \/
              exists R xs es, walk (w_fs w) (w_cwd w) true p = Found R (Dir xs es) /\
                l = map (child p) (if at_anchor has_cache anchor p
                                   then filter (fun x => negb (existsb (str_eqb (stem x)) cache_ignore)) (map fst es)
                                   else map fst es)
    | Err e => is_fault (w_fault w) e
    end.
Proof.
  intros Ho H. unfold p_children in H. apply bind_inv in H as [(d & w1 & H1 & H)|(e & H1 & ->)].
  2: { exact (is_dir_run _ _ _ _ Ho H1). }
  destruct (is_dir_run _ _ _ _ Ho H1) as [S1 D]. pose proof S1 as (F1 & C1 & _ & T1). destruct d.
  - destruct D as (R & xs & es & W).
    assert (W1 : walk (w_fs w1) (w_cwd w1) true p = Found R (Dir xs es)) by (rewrite F1, C1; exact W).
    destruct (at_anchor has_cache anchor p).
    + apply bind_inv in H as [(l & w2 & H2 & H)|(e & H2 & ->)]; destruct (iterdir_run _ _ _ _ _ _ _ W1 H2) as [S2 C].
      * injection H as <- <-. split; [exact (same_trans _ _ _ S1 S2)|]. right. exists R, xs, es. split; [exact W|]. subst l. apply shown_filter.
      * split; [exact (same_trans _ _ _ S1 S2)|]. now rewrite <- T1.
    + destruct (iterdir_run _ _ _ _ _ _ _ W1 H) as [S2 C]. split; [exact (same_trans _ _ _ S1 S2)|].
      destruct r as [l|e]; [right; exists R, xs, es; split; [exact W|exact C]|now rewrite <- T1].
  - injection H as <- <-. split; [exact S1|]. now left.
Qed.

Lemma rchildren_plain p w r w' fuel : good (w_fs w) -> honest (w_fault w) -> at_anchor has_cache anchor p = false ->
  rchildren has_cache anchor fuel p w = (r, w') ->
  same w w' /\ match r with
    | Ok l => ((forall R, ~ opens (w_fs w) (w_cwd w) p R) /\ l = []) \/
              exists R l', opens (w_fs w) (w_cwd w) p R /\ l = uniq [] l' /\ collected (w_fs w) (~ never_denied (w_fault w)) p R l'
    | Err e => is_fault (w_fault w) e
    end.
Proof.
  intros Gd Ho A H. destruct fuel; cbn [rchildren] in H; rewrite A in H; (apply bind_inv in H as [(d & w1 & H1 & H)|(e & H1 & ->)];
    [|exact (is_dir_run _ _ _ _ Ho H1)]); destruct (is_dir_run _ _ _ _ Ho H1) as [S1 _]; pose proof S1 as (F1 & C1 & _ & T1);
    rewrite andb_false_r in H; apply rglob_run in H; try (now rewrite ?F1, ?T1); destruct H as [S2 H]; rewrite F1, C1, T1 in H;
    (split; [exact (same_trans _ _ _ S1 S2)|exact H]).
Qed.

Lemma child_ne p x : child p x <> p.
Proof. intro H. apply (f_equal (fun q => length (pp_parts q))) in H. unfold child in H. cbn [pp_parts] in H. rewrite app_length in H. cbn in H. lia. Qed.

Lemma anchor_children p x : at_anchor has_cache anchor p = true -> at_anchor has_cache anchor (child p x) = false.
Proof.
  unfold at_anchor. destruct anchor as [a|]; [|now rewrite andb_false_r]. intro H. apply andb_true_iff in H as [_ H].
  apply RmtreeProofs.pp_eqb_eq in H. subst a. destruct (pp_eqb (child p x) p) eqn:E; [|apply andb_false_r].
  apply RmtreeProofs.pp_eqb_eq in E. now apply child_ne in E.
Qed.

(** At the anchor: everything there, and in what it opens. *)
Lemma rchildren_anchor p w r w' : good (w_fs w) -> honest (w_fault w) -> at_anchor has_cache anchor p = true ->
  p_rchildren has_cache anchor p w = (r, w') ->
  same w w' /\ match r with
    | Ok l => ((forall R, ~ opens (w_fs w) (w_cwd w) p R) /\ l = []) \/
              exists R xs es ls, walk (w_fs w) (w_cwd w) true p = Found R (Dir xs es) /\ l = concat ls /\
                Forall2 (fun x a => exists b, a = child p x :: b /\
                   (((forall S, ~ opens (w_fs w) (w_cwd w) (child p x) S) /\ b = []) \/
                    exists S l', opens (w_fs w) (w_cwd w) (child p x) S /\ b = uniq [] l' /\ collected (w_fs w) (~ never_denied (w_fault w)) (child p x) S l'))
                  (filter (fun x => negb (existsb (str_eqb (stem x)) cache_ignore)) (map fst es)) ls
    | Err e => is_fault (w_fault w) e
    end.
Proof.
  intros Gd Ho A H. unfold p_rchildren in H. cbn [rchildren] in H. rewrite A in H. apply bind_inv in H as [(d & w1 & H1 & H)|(e & H1 & ->)].
  2: { exact (is_dir_run _ _ _ _ Ho H1). }
  destruct (is_dir_run _ _ _ _ Ho H1) as [S1 D]. pose proof S1 as (F1 & C1 & _ & T1). rewrite andb_true_r in H. destruct d.
  - apply bind_inv in H as [(l & w2 & H2 & H)|(e & H2 & ->)]; apply children_run in H2; try (now rewrite T1); destruct H2 as [S2 K];
      pose proof (same_trans _ _ _ S1 S2) as S12.
    2: { split; [exact S12|]. now rewrite <- T1. }
    rewrite A, F1, C1 in K. destruct K as [[N _]|(R & xs & es & W & ->)].
    { destruct D as (R & D). exfalso. exact (N R D). }
    set (names := filter _ (map fst es)) in *.
    assert (Q : same w2 w' /\ match r with Ok l => exists ls, Forall2 (fun q a => exists b, a = q :: b /\
                   (((forall S, ~ opens (w_fs w) (w_cwd w) q S) /\ b = []) \/
                    exists S l', opens (w_fs w) (w_cwd w) q S /\ b = uniq [] l' /\ collected (w_fs w) (~ never_denied (w_fault w)) q S l')) (map (child p) names) ls /\ l = concat ls
                 | Err e => is_fault (w_fault w) e end).
    { refine (each_cat_run _ _ _ w _ _ _ _ _ S12 H). intros q v s v' I (Fv & Cv & _ & Tv) Hv. apply in_map_iff in I as (x & <- & _).
      pose proof (anchor_children p x A) as Ac.
      change ((let! r <- rchildren has_cache anchor 0 (child p x) ; ret (child p x :: r)) v = (s, v')) in Hv.
      assert (Gv : good (w_fs v)) by now rewrite Fv. assert (Hov : honest (w_fault v)) by now rewrite Tv.
      apply bind_inv in Hv as [(l & v1 & Hv & K)|(e & Hv & ->)];
        destruct (rchildren_plain _ _ _ _ _ Gv Hov Ac Hv) as [Sv C]; rewrite ?Fv, ?Cv, ?Tv in C.
      - injection K as <- <-. split; [exact Sv|]. exists l. split; [reflexivity|exact C].
      - split; [exact Sv|exact C]. }
    destruct Q as [S3 Q]. split; [exact (same_trans _ _ _ S12 S3)|]. destruct r as [l|e]; [|exact Q]. destruct Q as (ls & Q & ->).
    right. exists R, xs, es, ls. split; [exact W|]. split; [reflexivity|]. fold names. clear -Q. revert ls Q.
    induction names as [|x l IH]; intros ls Q; cbn [map] in Q; inversion Q; subst; constructor; [assumption|now apply IH].
  - apply rglob_run in H; try (now rewrite ?F1, ?T1). destruct H as [S2 H]. split; [exact (same_trans _ _ _ S1 S2)|]. rewrite F1, C1, T1 in H.
    destruct r as [l|e]; [|exact H]. destruct H as [H|(R & l' & O & _)]; [now left|]. exfalso. exact (D R O).
Qed.

(** ** The theorems *)
Lemma denied_not fault : never_denied fault -> ~ ~ never_denied fault.
Proof. tauto. Qed.

Lemma list_sound fs cwd fault p R l w' : good_fs fs -> honest fault -> at_anchor has_cache anchor p = false -> opens fs cwd p R ->
  p_rchildren has_cache anchor p (start fs cwd fault) = (Ok l, w') ->
  forall q, In q l -> exists r, q = under p r /\ r <> [] /\ look fs (R ++ r) <> None.
Proof.
  intros [Gd _] Ho A (xs & es & O) H q I. destruct (rchildren_plain _ (start fs cwd fault) _ _ _ Gd Ho A H) as [_ K]. cbn [w_fs w_cwd w_fault start] in K.
  destruct K as [[K _]|(R' & l' & (xs' & es' & O') & -> & C)]; [exfalso; apply (K R); now exists xs, es|].
  rewrite O in O'. injection O' as <- _ _. apply uniq_In in I as [I _]. destruct C as [C _ _]. destruct (C _ I) as (r & -> & N & G).
  exists r. repeat split; try assumption. now rewrite look_none.
Qed.

Lemma list_plain fs cwd fault p x w' : good_fs fs -> honest fault -> never_denied fault -> at_anchor has_cache anchor p = false ->
  p_rchildren has_cache anchor p (start fs cwd fault) = (x, w') ->
  states w' = states (start fs cwd fault) /\
  match x with
  | Ok l => (forall R, opens fs cwd p R -> lists fs p R (fun _ => True) l) /\ ((forall R, ~ opens fs cwd p R) -> l = [])
  | Err e => is_fault fault e
  end.
Proof.
  intros [Gd _] Ho Nd A H. destruct (rchildren_plain _ (start fs cwd fault) _ _ _ Gd Ho A H) as [(F & C & Hi & _) K]. cbn [w_fs w_cwd w_fault start] in K.
  split; [unfold states; now rewrite F, Hi|]. destruct x as [l|e]; [|exact K]. destruct K as [[K ->]|(R & l' & O & -> & Col)].
  - split; [intros R O; exfalso; exact (K R O)|reflexivity].
  - split; [|intro N; exfalso; exact (N R O)]. intros R' O'. assert (R' = R) as ->.
    { destruct O as (a & b & O), O' as (c & d & O'). congruence. }
    exact (collected_lists _ _ _ _ _ (denied_not _ Nd) Col).
Qed.

Lemma children_list fs cwd fault p x w' : good_fs fs -> honest fault ->
  p_children has_cache anchor p (start fs cwd fault) = (x, w') ->
  states w' = states (start fs cwd fault) /\
  match x with
  | Ok l => (forall R, opens fs cwd p R -> NoDup l /\ forall q, In q l <->
               exists x, q = under p [x] /\ look fs (R ++ [x]) <> None /\
                         (at_anchor has_cache anchor p = true -> ~ ours x /\ ~ namesake x)) /\
            ((forall R, ~ opens fs cwd p R) -> l = [])
  | Err e => is_fault fault e
  end.
Proof.
  intros [Gd _] Ho H. destruct (children_run _ (start fs cwd fault) _ _ Ho H) as [(F & C & Hi & _) K]. cbn [w_fs w_cwd w_fault start] in K.
  split; [unfold states; now rewrite F, Hi|]. destruct x as [l|e]; [|exact K]. destruct K as [[K ->]|(R & xs & es & W & ->)].
  - split; [intros R O; exfalso; exact (K R O)|reflexivity].
  - split; [|intro N; exfalso; apply (N R); now exists xs, es]. intros R' (a & b & O'). rewrite W in O'. injection O' as <- <- <-.
    assert (G : get fs R = Some (Dir xs es)) by exact (walk_found_get _ _ _ _ _ _ _ W).
    pose proof (good_get _ _ _ Gd G) as GD. inversion GD as [| |? ? ND GN GC]; subst.
    assert (Lx : forall x, look fs (R ++ [x]) <> None <-> In x (map fst es)).
    { intro x. rewrite look_none, get_snoc, G. pose proof (entry_none x es) as En. destruct (entry x es) as [c|].
      - split; [|discriminate]. intros _. destruct (in_dec (list_eq_dec N.eq_dec) x (map fst es)) as [I|I]; [exact I|]. apply En in I. discriminate.
      - split; [congruence|]. intros I _. now apply (proj1 En eq_refl). }
    destruct (at_anchor has_cache anchor p); (split; [apply Injective_map_NoDup;
      [intros u v E; rewrite !child_under in E; apply under_inj in E; congruence|try (now apply NoDup_filter); exact ND]|]);
      intro q; rewrite in_map_iff; split.
    + intros (x & <- & I). apply In_shown in I as (I & A & B). exists x. split; [reflexivity|]. split; [now apply Lx|]. intros _. now split.
    + intros (x & -> & I & N). exists x. split; [reflexivity|]. apply In_shown. split; [now apply Lx|]. now apply N.
    + intros (x & <- & I). exists x. split; [reflexivity|]. split; [now apply Lx|]. discriminate.
    + intros (x & -> & I & _). exists x. split; [reflexivity|]. now apply Lx.
Qed.

(** What one entry at the top gives. *)
Definition one_top (fs : node) (cwd : place) (p : ppath) (x : str) (a : list ppath) : Prop :=
  exists b, a = child p x :: b /\ (((forall S, ~ opens fs cwd (child p x) S) /\ b = []) \/
    exists S, opens fs cwd (child p x) S /\ lists fs (child p x) S (fun _ => True) b).

Lemma one_top_In fs cwd p x a q : one_top fs cwd p x a -> (In q a <-> exists r, q = under p (x :: r) /\
  (r = [] \/ exists S, opens fs cwd (under p [x]) S /\ r <> [] /\ look fs (S ++ r) <> None)).
Proof.
  intros (b & -> & B). rewrite <- child_under. split.
  - intros [<-|I]; [exists []; split; [apply child_under|now left]|].
    destruct B as [[_ ->]|(S & O & [L _ _])]; [contradiction|]. apply L in I as (r & -> & N & G & _).
    exists r. rewrite under_child. split; [reflexivity|]. right. now exists S.
  - intros (r & -> & [->|(S & O & N & G)]); [left; apply child_under|]. right.
    destruct B as [[K _]|(S' & O' & [L _ _])]; [exfalso; exact (K _ O)|]. apply L. exists r. rewrite under_child.
    assert (S' = S) as -> by (destruct O as (? & ? & O), O' as (? & ? & O'); congruence). now repeat split.
Qed.

Lemma one_top_NoDup fs cwd p x a : one_top fs cwd p x a -> NoDup a.
Proof.
  intros (b & -> & B). constructor; destruct B as [[_ ->]|(S & O & [L D _])]; try (intros []); try constructor; try exact D.
  intro I. apply L in I as (r & E & N & _). rewrite under_child, child_under in E. apply under_inj in E. injection E as E. now symmetry in E.
Qed.

Lemma one_top_first fs cwd p x a : one_top fs cwd p x a ->
  forall l1 q l2, a = l1 ++ q :: l2 -> exists r y, q = under p (r ++ [y]) /\ (r = [] \/ In (under p r) l1).
Proof.
  intros (b & -> & B) l1 q l2 E. destruct l1 as [|z l1]; cbn [app] in E; injection E as <- E.
  - exists [], x. split; [reflexivity|now left].
  - destruct B as [[_ ->]|(S & O & [L D F])]; [destruct l1; discriminate|].
    assert (I : In q b) by (rewrite E; apply in_or_app; right; now left). apply L in I as (r & -> & N & _).
    destruct (exists_last N) as (r' & y & ->). exists (x :: r'), y. rewrite under_child. split; [reflexivity|]. right.
    destruct (F _ _ _ _ E) as [->|I]; [now left|]. right. now rewrite <- under_child.
Qed.

Lemma NoDup_cat {A} (a b : list A) : NoDup a -> NoDup b -> (forall x, In x a -> ~ In x b) -> NoDup (a ++ b).
Proof.
  induction a as [|x a IH]; intros Na Nb D; [exact Nb|]. inversion Na; subst. cbn [app]. constructor.
  - intro I. apply in_app_or in I as [I|I]; [contradiction|]. apply (D x); [now left|exact I].
  - apply IH; [assumption|assumption|]. intros y I. apply D. now right.
Qed.

Lemma tops fs cwd p names ls : NoDup names -> Forall2 (one_top fs cwd p) names ls ->
  NoDup (concat ls) /\ (forall q, In q (concat ls) <-> exists x r, q = under p (x :: r) /\ In x names /\
     (r = [] \/ exists S, opens fs cwd (under p [x]) S /\ r <> [] /\ look fs (S ++ r) <> None)) /\
  (forall l1 q l2, concat ls = l1 ++ q :: l2 -> exists r y, q = under p (r ++ [y]) /\ (r = [] \/ In (under p r) l1)).
Proof.
  intros ND F. induction F as [|x a names ls O F IH].
  - split; [constructor|]. split; [|intros [|] ? ? E; discriminate]. intro q. split; [intros []|]. intros (x & r & _ & [] & _).
  - inversion ND as [|? ? Nx ND']; subst. destruct (IH ND') as (D & Iq & Fst). cbn [concat]. repeat split.
    + apply NoDup_cat; [exact (one_top_NoDup _ _ _ _ _ O)|exact D|]. intros q I1 I2. apply (one_top_In _ _ _ _ _ _ O) in I1 as (r & -> & _).
      apply Iq in I2 as (y & r' & E & Iy & _). apply under_inj in E. injection E as <- _. contradiction.
    + intro I. apply in_app_or in I as [I|I].
      * apply (one_top_In _ _ _ _ _ _ O) in I as (r & -> & K). exists x, r. repeat split; [now left|exact K].
      * apply Iq in I as (y & r & -> & Iy & K). exists y, r. repeat split; [now right|exact K].
    + intros (y & r & -> & [<-|Iy] & K); apply in_or_app.
      * left. apply (one_top_In _ _ _ _ _ _ O). now exists r.
      * right. apply Iq. now exists y, r.
    + intros l1 q l2 E.
      assert (Sp : (exists m, a = l1 ++ q :: m) \/ (exists m, l1 = a ++ m /\ concat ls = m ++ q :: l2)).
      { clear -E. revert l1 E. induction a as [|z a IH]; intros l1 E.
        - right. exists l1. split; [reflexivity|exact E].
        - destruct l1 as [|y l1]; cbn [app] in E; injection E as -> E.
          + left. now exists a.
          + destruct (IH _ E) as [(m & ->)|(m & -> & E2)]; [left; now exists m|right; now exists m]. }
      destruct Sp as [(m & Ea)|(m & -> & E2)].
      * exact (one_top_first _ _ _ _ _ O _ _ _ Ea).
      * destruct (Fst _ _ _ E2) as (r & y & -> & C). exists r, y. split; [reflexivity|]. destruct C as [C|C]; [now left|right; apply in_or_app; now right].
Qed.

Lemma list_anchor fs cwd fault p x w' : good_fs fs -> honest fault -> never_denied fault -> at_anchor has_cache anchor p = true ->
  p_rchildren has_cache anchor p (start fs cwd fault) = (x, w') ->
  states w' = states (start fs cwd fault) /\
  match x with
  | Ok l => (forall R, opens fs cwd p R -> NoDup l /\ (forall q, In q l <-> exists x r, q = under p (x :: r) /\
               look fs (R ++ [x]) <> None /\ ~ ours x /\ ~ namesake x /\
               (r = [] \/ exists S, opens fs cwd (under p [x]) S /\ r <> [] /\ look fs (S ++ r) <> None)) /\
               (forall l1 l2 r x, l = l1 ++ under p (r ++ [x]) :: l2 -> r = [] \/ In (under p r) l1)) /\
            ((forall R, ~ opens fs cwd p R) -> l = [])
  | Err e => is_fault fault e
  end.
Proof.
  intros [Gd _] Ho Nd A H. destruct (rchildren_anchor _ (start fs cwd fault) _ _ Gd Ho A H) as [(F & C & Hi & _) K]. cbn [w_fs w_cwd w_fault start] in K.
  split; [unfold states; now rewrite F, Hi|]. destruct x as [l|e]; [|exact K]. destruct K as [[K ->]|(R & xs & es & ls & W & -> & Fl)].
  - split; [intros R O; exfalso; exact (K R O)|reflexivity].
  - split; [|intro N; exfalso; apply (N R); now exists xs, es]. intros R' (a & b & O'). rewrite W in O'. injection O' as <- <- <-.
    assert (G : get fs R = Some (Dir xs es)) by exact (walk_found_get _ _ _ _ _ _ _ W).
    pose proof (good_get _ _ _ Gd G) as GD. inversion GD as [| |? ? ND GN GC]; subst.
    assert (Lx : forall x, look fs (R ++ [x]) <> None <-> In x (map fst es)).
    { intro x. rewrite look_none, get_snoc, G. pose proof (entry_none x es) as En. destruct (entry x es) as [c|].
      - split; [|discriminate]. intros _. destruct (in_dec (list_eq_dec N.eq_dec) x (map fst es)) as [I|I]; [exact I|]. apply En in I. discriminate.
      - split; [congruence|]. intros I _. now apply (proj1 En eq_refl). }
    assert (T : Forall2 (one_top fs cwd p) (filter (fun x => negb (existsb (str_eqb (stem x)) cache_ignore)) (map fst es)) ls).
    { clear -Fl Nd. induction Fl as [|x a names ls (b & -> & B) Fl IH]; constructor; [|exact IH]. exists b. split; [reflexivity|].
      destruct B as [B|(S & l' & O & -> & Col)]; [now left|]. right. exists S. split; [exact O|]. exact (collected_lists _ _ _ _ _ (denied_not _ Nd) Col). }
    destruct (tops _ _ _ _ _ (NoDup_filter _ ND) T) as (D & Iq & Fst). split; [exact D|]. split.
    + intro q. rewrite Iq. split.
      * intros (x & r & -> & I & K). apply In_shown in I as (I & A1 & A2). exists x, r. repeat split; try assumption. now apply Lx.
      * intros (x & r & -> & I & A1 & A2 & K). exists x, r. repeat split; try assumption. apply In_shown. repeat split; try assumption. now apply Lx.
    + intros l1 l2 r x E. destruct (Fst _ _ _ E) as (r' & y & U & K). apply under_inj in U. apply app_inj_tail in U as [<- <-]. exact K.
Qed.

Lemma list_anchor_guarded fs cwd fault p R l w' : good_fs fs -> honest fault -> never_denied fault -> at_anchor has_cache anchor p = true ->
  opens fs cwd p R -> (forall x, look fs (R ++ [x]) <> None -> ~ namesake x) -> no_dir_link fs cwd p R ->
  p_rchildren has_cache anchor p (start fs cwd fault) = (Ok l, w') -> lists fs p R not_ours l.
Proof.
  intros Gd Ho Nd A O Nn Nl H. destruct (list_anchor _ _ _ _ _ _ Gd Ho Nd A H) as [_ [K _]]. destruct (K _ O) as (D & Iq & Fst).
  constructor; [|exact D|exact Fst]. intro q. rewrite Iq. clear K Iq Fst D H.
  destruct O as (xs & es & W). assert (G : get fs R = Some (Dir xs es)) by exact (walk_found_get _ _ _ _ _ _ _ W).
  destruct Gd as [Gd _]. pose proof (good_get _ _ _ Gd G) as GD. inversion GD as [| |? ? ND GN GC]; subst.
  assert (Op : forall x ys ds, entry x es = Some (Dir ys ds) -> opens fs cwd (under p [x]) (R ++ [x])).
  { intros x ys ds En. exists ys, ds. apply (walk_down _ _ _ _ _ _ _ _ xs es); [|exact W|exact En|intros _ t; discriminate].
    apply GN. apply entry_In in En. change x with (fst (x, Dir ys ds)). now apply in_map. }
  split.
  - intros (x & r & -> & L & A1 & A2 & B). exists (x :: r). split; [reflexivity|]. split; [discriminate|]. split; [|exact A1].
    destruct B as [->|(S & O & N & Gr)]; [exact L|].
    assert (S = R ++ [x]) as ->.
    { rewrite look_none, get_snoc, G in L. destruct (entry x es) as [c|] eqn:En; [|congruence]. destruct c as [d ys|ys ds|t].
      - exfalso. destruct O as (u & v & O). unfold walk in O, W.
        assert (Q : walk_from fs true max_links (if pp_abs p then [] else cwd) (pp_parts p ++ [x]) = Found (R ++ [x]) (File d ys)).
        { apply (walk_down _ _ _ _ _ _ _ _ xs es); [|exact W|exact En|intros _ t; discriminate].
          apply GN. apply entry_In in En. change x with (fst (x, File d ys)). now apply in_map. }
        unfold under in O. cbn [pp_abs pp_parts] in O. congruence.
      - destruct O as (u & v & O), (Op _ _ _ En) as (u' & v' & O'). congruence.
      - exfalso. apply (Nl x t S); [|exact O]. rewrite look_link, get_snoc, G. exact En. }
    now rewrite <- app_assoc in Gr.
  - intros (r & -> & N & L & A1). destruct r as [|x r]; [contradiction|]. exists x, r. split; [reflexivity|].
    assert (Lx : look fs (R ++ [x]) <> None).
    { intro E. apply L. apply (look_below_none _ _ _ E). exists r. now rewrite <- app_assoc. }
    split; [exact Lx|]. split; [exact A1|]. split; [now apply Nn|]. destruct r as [|y r]; [now left|]. right. exists (R ++ [x]).
    rewrite look_none, get_snoc, G in Lx. destruct (entry x es) as [c|] eqn:En; [|congruence].
    assert (K : exists ys ds, c = Dir ys ds).
    { rewrite look_none, get_app, G in L. cbn [get] in L. rewrite En in L. destruct c as [d ys|ys ds|t]; [now cbn in L|now exists ys, ds|now cbn in L]. }
    destruct K as (ys & ds & ->). split; [now apply (Op _ ys ds)|]. split; [discriminate|]. now rewrite <- app_assoc.
Qed.
End Anchored.

(** ** What is false *)
Definition odd_fs : node := Dir [] [($"odd", Dir [] [($".git.bak", File [] []); ($"k", File [] [])])].
Lemma anchor_namesake :
  ~ forall has_cache anchor fs cwd fault p R l w', good_fs fs -> honest fault -> never_denied fault ->
      at_anchor has_cache anchor p = true -> opens fs cwd p R -> no_dir_link fs cwd p R ->
      p_rchildren has_cache anchor p (start fs cwd fault) = (Ok l, w') -> lists fs p R not_ours l.
Proof.
  intro H. assert (E : exists w', p_rchildren (fun _ => true) (Some (pp_parse $"/odd")) (pp_parse $"/odd") (start odd_fs [] (fun _ => None)) = (Ok [mkPP true [$"odd"; $"k"]], w'))
    by (eexists; vm_compute; reflexivity).
  destruct E as [w' E]. specialize (H (fun _ => true) (Some (pp_parse $"/odd")) odd_fs [] (fun _ => None) (pp_parse $"/odd") [$"odd"] [mkPP true [$"odd"; $"k"]] w' (good_fs_b_ok odd_fs eq_refl)).
  assert (In (under (pp_parse $"/odd") [$".git.bak"]) [mkPP true [$"odd"; $"k"]]) as [K|[]]; [|discriminate].
  eapply lists_all.
  - eapply H; [intros t e X; discriminate|intro t; split; discriminate|reflexivity| | |].
    + eexists _, _. vm_compute. reflexivity.
    + intros x t S L. exfalso. apply look_link in L. change [$"odd"; x] with ([$"odd"] ++ [x]) in L. rewrite get_snoc in L.
      cbn [get odd_fs entry find fst snd str_eqb] in L. change (entry x [($".git.bak", File [] []); ($"k", File [] [])] = Some (Link t)) in L.
      rewrite !entry_cons in L. destruct (str_eqb $".git.bak" x); [discriminate|]. destruct (str_eqb $"k" x); discriminate.
    + exact E.
  - exists [$".git.bak"]. split; [reflexivity|]. split; [discriminate|]. split; [discriminate|]. intros [X|[X|X]]; discriminate.
Qed.

Definition link_fs : node := Dir [] [($"data", Dir [] [($"me", Link $"."); ($".git", Dir [] [($"HEAD", File [] [])])])].
Lemma anchor_link :
  ~ forall has_cache anchor fs cwd fault p R l w', good_fs fs -> honest fault -> never_denied fault ->
      at_anchor has_cache anchor p = true -> opens fs cwd p R ->
      (forall x, look fs (R ++ [x]) <> None -> ~ namesake x) ->
      p_rchildren has_cache anchor p (start fs cwd fault) = (Ok l, w') -> lists fs p R not_ours l.
Proof.
  intro H. assert (E : exists w', p_rchildren (fun _ => true) (Some (pp_parse $"/data")) (pp_parse $"/data") (start link_fs [] (fun _ => None)) = (Ok (map (fun l => mkPP true ($"data" :: l)) [[$"me"]; [$"me"; $"me"]; [$"me"; $".git"]; [$"me"; $".git"; $"HEAD"]]), w'))
    by (eexists; vm_compute; reflexivity).
  destruct E as [w' E]. specialize (H (fun _ => true) (Some (pp_parse $"/data")) link_fs [] (fun _ => None) (pp_parse $"/data") [$"data"]
    (map (fun l => mkPP true ($"data" :: l)) [[$"me"]; [$"me"; $"me"]; [$"me"; $".git"]; [$"me"; $".git"; $"HEAD"]]) w' (good_fs_b_ok link_fs eq_refl)).
  assert (K : exists r, mkPP true [$"data"; $"me"; $".git"; $"HEAD"] = under (pp_parse $"/data") r /\ r <> [] /\ look link_fs ([$"data"] ++ r) <> None /\ not_ours r).
  { eapply lists_all.
    - eapply H; [intros t e X; discriminate|intro t; split; discriminate|reflexivity| | |exact E].
      + eexists _, _. vm_compute. reflexivity.
      + intros x L (y & e & O & -> & Ne & Nd). cbn in L. destruct O as [->|[->| ->]]; cbn in L; congruence.
    - vm_compute. tauto. }
  destruct K as (r & Q & _ & L & _). change (mkPP true _) with (under (pp_parse $"/data") [$"me"; $".git"; $"HEAD"]) in Q.
  apply under_inj in Q. subst r. apply L. reflexivity.
Qed.

Lemma plain_denied :
  ~ forall has_cache anchor fs cwd fault p R l w', good_fs fs -> honest fault ->
      at_anchor has_cache anchor p = false -> opens fs cwd p R ->
      p_rchildren has_cache anchor p (start fs cwd fault) = (Ok l, w') -> lists fs p R (fun _ => True) l.
Proof.
  intro H. assert (E : exists w', p_rchildren (fun _ => true) None (pp_parse $"/") (start odd_fs [] (fun t => if Nat.eqb t 4 then Some (OSErr EACCES) else None)) = (Ok [mkPP true [$"odd"]], w'))
    by (eexists; vm_compute; reflexivity).
  destruct E as [w' E]. specialize (H (fun _ => true) None odd_fs [] (fun t => if Nat.eqb t 4 then Some (OSErr EACCES) else None) (pp_parse $"/") [] [mkPP true [$"odd"]] w' (good_fs_b_ok odd_fs eq_refl)).
  assert (In (under (pp_parse $"/") [$"odd"; $"k"]) [mkPP true [$"odd"]]) as [K|[]]; [|discriminate].
  eapply lists_all.
  - eapply H; [|reflexivity| |exact E].
    + intros t e X. destruct (Nat.eqb t 4); [|discriminate]. injection X as <-. right. exists EACCES. repeat split; discriminate.
    + eexists _, _. vm_compute. reflexivity.
  - exists [$"odd"; $"k"]. split; [reflexivity|]. split; [discriminate|]. split; [discriminate|exact Logic.I].
Qed.
