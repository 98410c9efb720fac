(** * Proofs about rmtree *)
From Coq Require Import String NArith ZArith Bool List Lia.
From Verif Require Import Model.Py Model.PurePath Model.Fs Model.PathOps Spec.FsSpec Spec.LoopSpec Spec.RmtreeSpec
  Proofs.PyLemmas Proofs.FsLemmas Proofs.RunLemmas.
Import ListNotations.

(** ** Nothing outside a zone changes, in it things only vanish *)
Section Zone.
Variable fs0 : node.
Variable cwd : place.
Variable fault : nat -> option exn.
Variable Z : place -> Prop.
Hypothesis Z_below : forall q q', Z q -> below q q' -> Z q'.
Hypothesis Z_dec : forall q, {Z q} + {~ Z q}.
Hypothesis G0 : good_fs fs0.
Hypothesis Ho : honest fault.

Definition inv (fs : node) : Prop :=
  forall q, (Z q -> look fs q = look fs0 q \/ look fs q = None) /\ (~ Z q -> look fs q = look fs0 q).

Definition ok (w : world) : Prop :=
  inv (w_fs w) /\ w_cwd w = cwd /\ w_fault w = fault /\ Forall inv (w_hist w).

Lemma inv_start : inv fs0.
Proof. intro q. split; auto. Qed.

Lemma inv_pruned fs : inv fs -> pruned fs0 fs.
Proof. intros H q. destruct (Z_dec q); [now apply H|left; now apply H]. Qed.

Lemma inv_del fs P : inv fs -> Z P -> inv (del fs P).
Proof.
  intros H ZP q. destruct (below_dec P q) as [B|B].
  - pose proof (Z_below _ _ ZP B) as Zq. split; [|contradiction]. intros _.
    destruct P as [|x P]; [now apply H|]. right. now apply look_del_below.
  - rewrite look_del_other by assumption. apply H.
Qed.

Lemma inv_root fs : inv fs -> exists xs es, fs = Dir xs es.
Proof.
  intro H. pose proof (inv_pruned _ H []) as E. destruct G0 as (_ & xs & es & R). rewrite R in E.
  destruct E as [E|E]; destruct fs; cbn in E; try discriminate; eauto.
Qed.

Lemma ok_same w w' : same w w' -> ok w -> ok w'.
Proof. intros (A & B & C & D) (E & F & G & H). unfold ok. rewrite A, B, C, D. auto. Qed.
Lemma ok_del w w' P : changed (del (w_fs w) P) w w' -> ok w -> Z P -> ok w'.
Proof.
  intros (A & B & C & D) (E & F & G & H) ZP. unfold ok. rewrite A, B, C, D.
  repeat split; try assumption; try (now apply inv_del). constructor; [now apply inv_del|assumption].
Qed.

(** Whatever the path leads to is in the zone. *)
Definition covered (p : ppath) : Prop := forall P n, walk fs0 cwd false p = Found P n -> Z P.

Lemma walk_back fs follow p P n : inv fs -> walk fs cwd follow p = Found P n -> exists n0, walk fs0 cwd follow p = Found P n0.
Proof. intros H W. unfold walk in *. eapply walk_pruned; [now apply inv_pruned|exact W]. Qed.

(** where the path led to is gone *)
Definition gone (p : ppath) (w : world) : Prop :=
  exists P n, walk fs0 cwd false p = Found P n /\ look (w_fs w) P = None.

Definition tame (e : exn) : Prop := e = KeyboardInterrupt \/ exists n, e = OSErr n.

Lemma fault_tame t e : fault t = Some e -> tame e.
Proof. intro H. apply Ho in H as [->|(n & -> & _)]; [now left|right; now exists n]. Qed.

Lemma unlink_zone p w r w' : sys_unlink p w = (r, w') -> ok w -> covered p ->
  ok w' /\ match r with Ok _ => gone p w' | Err e => tame e end.
Proof.
  intros H O C. unfold sys_unlink in H. apply sys_inv in H as [(e & -> & S & K)|(a & fs & -> & F & Ch)].
  - split; [now apply (ok_same w)|]. destruct O as (I & Hc & Hf & _).
    destruct K as [K|K]; [|rewrite Hf in K; now apply fault_tame in K].
    unfold lookup, fail in K. destruct (walk _ _ _ _); cbn in K; try (injection K as <-; right; now eexists).
    destruct n; try discriminate. injection K as <-. right. now eexists.
  - pose proof O as (I & Hc & Hf & Hh). rewrite Hc in F. unfold lookup, fail in F.
    destruct (walk (w_fs w) cwd false p) as [P n|d x|e] eqn:W; cbn in F; try discriminate.
    assert (F' : fs = del (w_fs w) P) by (destruct n; try discriminate; now injection F).
    destruct (walk_back _ _ _ _ _ I W) as (n0 & W0).
    subst fs. split; [apply (ok_del w w' P); auto; now apply (C P n0)|].
    exists P, n0. split; [exact W0|]. destruct Ch as (-> & _). apply look_del_below; [|apply below_refl].
    intros ->. pose proof (walk_found_get _ _ _ _ _ _ _ W) as E. cbn in E. injection E as E.
    destruct (inv_root _ I) as (xs & es & R). rewrite R in E. subst n. discriminate.
Qed.

Lemma rmdir_zone p w r w' : sys_rmdir p w = (r, w') -> ok w -> covered p ->
  ok w' /\ match r with Ok _ => gone p w' | Err e => tame e end.
Proof.
  intros H O C. unfold sys_rmdir in H. apply sys_inv in H as [(e & -> & S & K)|(a & fs & -> & F & Ch)].
  - split; [now apply (ok_same w)|]. destruct O as (I & Hc & Hf & _).
    destruct K as [K|K]; [|rewrite Hf in K; now apply fault_tame in K].
    unfold lookup, fail in K. destruct (pp_parts p) as [|x l].
    + destruct (pp_abs p); injection K as <-; right; now eexists.
    + destruct (str_eqb _ _); [injection K as <-; right; now eexists|].
      destruct (walk _ _ _ _); cbn in K; try (injection K as <-; right; now eexists).
      destruct n as [d y|y [|z es]|t]; try (injection K as <-; right; now eexists).
      destruct p0; [injection K as <-; right; now eexists|discriminate].
  - pose proof O as (I & Hc & Hf & Hh). rewrite Hc in F. destruct (pp_parts p) as [|x l]; [destruct (pp_abs p); discriminate|].
    destruct (str_eqb _ _); [discriminate|]. unfold lookup, fail in F.
    destruct (walk (w_fs w) cwd false p) as [P n|d y|e] eqn:W; cbn in F; try discriminate.
    assert (F' : P <> [] /\ fs = del (w_fs w) P).
    { destruct n as [d y|y [|z es]|t]; try discriminate. destruct P; [discriminate|]. injection F as _ <-. split; [discriminate|reflexivity]. }
    destruct F' as [N ->]. destruct (walk_back _ _ _ _ _ I W) as (n0 & W0).
    split; [apply (ok_del w w' P); auto; now apply (C P n0)|].
    exists P, n0. split; [exact W0|]. destruct Ch as (-> & _). apply look_del_below; [assumption|apply below_refl].
Qed.

Lemma guard_zone p dg w r w' : rmtree_guard p dg w = (r, w') -> ok w ->
  same w w' /\ match r with Ok _ => pp_abs p = true | Err e => e = WillNotRemovePathError \/ tame e end.
Proof.
  intros H O. unfold rmtree_guard in H. destruct (pp_abs p) eqn:A; cbn [negb] in H;
    [|injection H as <- <-; split; [apply same_refl|now left]].
  destruct dg; [injection H as <- <-; split; [apply same_refl|reflexivity]|].
  destruct (Nat.leb _ _); [injection H as <- <-; split; [apply same_refl|now left]|].
  destruct (_ && _)%bool; [injection H as <- <-; split; [apply same_refl|now left]|].
  apply bind_inv in H as [(c & w1 & H & K)|(e & H & ->)].
  - apply ask_inv in H as [S _]. destruct (pp_eqb p c); injection K as <- <-; split; auto.
  - apply ask_inv in H as [S [K|(e' & K & Fl)]].
    + split; [assumption|]. right. destruct (get _ _) as [[]|]; try discriminate; injection K as ->; right; now eexists.
    + injection K as ->. split; [assumption|]. right. destruct O as (_ & _ & Hf & _). rewrite Hf in Fl. now apply fault_tame in Fl.
Qed.

(** enough fuel for whatever the path leads to *)
Definition fueled (fuel : nat) (p : ppath) : Prop :=
  forall P n, walk fs0 cwd false p = Found P n -> (depth n <= fuel)%nat.

Definition fine (e : exn) : Prop := e = WillNotRemovePathError \/ tame e.

Lemma each_zone {A} (f : A -> M unit) l : forall w r w', each f l w = (r, w') -> ok w ->
  (forall x w r w', In x l -> ok w -> f x w = (r, w') -> ok w' /\ match r with Ok _ => True | Err e => fine e end) ->
  ok w' /\ match r with Ok _ => True | Err e => fine e end.
Proof.
  induction l as [|x l IH]; intros w r w' H O K.
  - injection H as <- <-. now split.
  - cbn [each] in H. apply bind_inv in H as [([] & w1 & H1 & H2)|(e & H1 & ->)].
    + destruct (K x w (Ok tt) w1 (or_introl eq_refl) O H1) as [O1 _].
      apply (IH w1 r w' H2 O1). intros y v s v' Hy. apply K. now right.
    + exact (K x w (Err e) w' (or_introl eq_refl) O H1).
Qed.

(** The part in the try block; [rec] is for what is in the directory. *)
Definition rm_body (rec : ppath -> M unit) (p : ppath) : M unit :=
  let! d <- p_is_dir p ;
  if d then
    let! l <- p_is_symlink p ;
    if l then raise (OSErr EPERM)
    else
      let! names <- sys_listdir p ;
      let! _ <- each (fun x =>
          let q := child p x in
          let! l <- p_is_symlink q ;
          if l then sys_unlink q else rec q) names ;
      sys_rmdir p
  else sys_unlink p.
Definition rm_rec (fuel : nat) (ig dg : bool) (q : ppath) : M unit :=
  match fuel with O => raise OutOfFuel | S f => rmtree f ig dg q end.
Definition rm_handler (ig : bool) (e : exn) : M unit :=
  match e with
  | WillNotRemovePathError => raise e
  | OutOfFuel => raise e
  | _ => if ig then ret tt else raise e
  end.

Lemma rmtree_eq fuel ig dg p w : rmtree fuel ig dg p w =
  bind (rmtree_guard p dg) (fun _ => catch (rm_body (rm_rec fuel ig dg) p) (rm_handler ig)) w.
Proof. destruct fuel; reflexivity. Qed.

(** A directory that is not a link: where it is, and what is in it. *)
Lemma dir_facts p w P xs es : ok w -> covered p ->
  walk (w_fs w) cwd true p = Found P (Dir xs es) ->
  (forall q n, walk (w_fs w) cwd false p = Found q n -> forall t, n <> Link t) ->
  exists xs0 es0, get fs0 P = Some (Dir xs0 es0) /\ walk fs0 cwd false p = Found P (Dir xs0 es0) /\ Z P /\
    walk (w_fs w) cwd false p = Found P (Dir xs es) /\
    (forall x, In x (map fst es) -> exists nx, entry x es0 = Some nx /\ good_name x /\
       forall P' m, walk fs0 cwd false (child p x) = Found P' m -> P' = P ++ [x] /\ m = nx).
Proof.
  intros (I & _) C W NL.
  assert (WF : walk (w_fs w) cwd false p = Found P (Dir xs es)).
  { destruct (walk_follow _ _ _ _ _ _ W) as (P' & n' & W').
    pose proof (walk_nofollow _ _ _ _ _ _ W' (NL _ _ W')) as W2.
    unfold walk in W |- *. rewrite W in W2. injection W2 as <- <-. exact W'. }
  destruct (walk_back _ _ _ _ _ I W) as (n0 & W0). destruct (walk_back _ _ _ _ _ I WF) as (n0' & WF0).
  pose proof (walk_found_get _ _ _ _ _ _ _ W0) as Gn. pose proof (walk_found_get _ _ _ _ _ _ _ WF0) as Gn'.
  assert (n0' = n0) as -> by congruence.
  pose proof (walk_found_get _ _ _ _ _ _ _ W) as Gd.
  assert (Ld : look fs0 P = Some (ADir xs)).
  { destruct (inv_pruned _ I P) as [E|E].
    - rewrite <- E. apply look_dir. eauto.
    - apply look_none in E. congruence. }
  apply look_dir in Ld as (es0 & Ld). rewrite Gn in Ld. injection Ld as ->.
  exists xs, es0. split; [exact Gn|]. split; [exact WF0|]. split; [exact (C _ _ WF0)|]. split; [exact WF|].
  intros x Hx.
  assert (Lx : look (w_fs w) (P ++ [x]) <> None) by (rewrite look_none, get_snoc, Gd, entry_none; tauto).
  assert (Lx0 : get fs0 (P ++ [x]) <> None).
  { destruct (inv_pruned _ I (P ++ [x])) as [Ex|Ex]; [|contradiction]. rewrite Ex in Lx. now rewrite look_none in Lx. }
  destruct (get fs0 (P ++ [x])) as [nx|] eqn:Gx; [|congruence].
  assert (Nx : good_name x).
  { destruct G0 as [GG _]. pose proof (good_names _ _ _ GG Gx) as FF. apply Forall_app in FF as [_ FF]. now inversion FF. }
  exists nx. split; [now rewrite get_snoc, Gn in Gx|]. split; [exact Nx|]. destruct Nx as (_ & Nx2 & Nx3 & _).
  intros P' m Wm. pose proof (walk_found_get _ _ _ _ _ _ _ Wm) as Gm. unfold walk, child in Wm. cbn [pp_abs pp_parts] in Wm.
  apply walk_snoc_found in Wm as (Q & ys & fs & WQ & ->); try assumption.
  unfold walk in W0. rewrite W0 in WQ. injection WQ as <- _ _. split; [reflexivity|congruence].
Qed.

(** An invariant of a run and a way for it to end. *)
Lemma body_zone rec p w r w' : rm_body rec p w = (r, w') -> ok w -> covered p ->
  (forall P xs es x, walk fs0 cwd false p = Found P (Dir xs es) -> In x (map fst es) -> covered (child p x) ->
     (forall P' m, walk fs0 cwd false (child p x) = Found P' m -> P' = P ++ [x] /\ entry x es = Some m) ->
     forall v s v', rec (child p x) v = (s, v') -> ok v -> ok v' /\ match s with Ok _ => True | Err e => fine e end) ->
  ok w' /\ match r with Ok _ => gone p w' | Err e => fine e end.
Proof.
  intros H O C K.
  assert (Ho' : forall w, ok w -> honest (w_fault w)) by (intros v (_ & _ & -> & _); assumption).
  apply bind_inv in H as [(d & w2 & Hd & H)|(e & Hd & ->)].
  2:{ apply test_honest in Hd as [S T]; [|auto]. split; [now apply (ok_same w)|right; exact T]. }
  apply test_honest in Hd as [S T]; [|auto]. pose proof (ok_same _ _ S O) as O2.
  destruct d.
  2:{ destruct (unlink_zone _ _ _ _ H O2 C) as [O3 K3]. split; [assumption|]. destruct r; [assumption|now right]. }
  destruct T as (P & n & W & Fn). destruct n as [d1 x1|xs es|t1]; try discriminate.
  apply bind_inv in H as [(l & w3 & Hl & H)|(e & Hl & ->)].
  2:{ apply test_honest in Hl as [S3 T3]; [|auto]. split; [now apply (ok_same w2)|right; exact T3]. }
  apply test_honest in Hl as [S3 T3]; [|auto]. pose proof (ok_same _ _ S3 O2) as O3.
  destruct l; [injection H as <- <-; split; [assumption|right; right; now eexists]|].
  assert (Ew : w_fs w2 = w_fs w /\ w_cwd w2 = cwd /\ w_cwd w = cwd).
  { destruct S as (-> & -> & _), O as (_ & -> & _). auto. }
  destruct Ew as (Ew1 & Ew2 & Ew3). rewrite Ew1, Ew2 in T3. rewrite Ew3 in W.
  destruct (dir_facts p w P xs es O C W) as (xs0 & es0 & Gn & WF0 & ZP & WF & Ch).
  { intros q n Wn t ->. specialize (T3 q (Link t) Wn). discriminate. }
  apply bind_inv in H as [(names & w4 & Hn & H)|(e & Hn & ->)].
  2:{ apply listdir_inv in Hn as [S4 L]. split; [now apply (ok_same w3)|]. right.
      destruct L as [(n & ->)|Fl]; [right; now eexists|]. destruct O3 as (_ & _ & Hf3 & _). rewrite Hf3 in Fl. now apply fault_tame in Fl. }
  apply listdir_inv in Hn as [S4 (P1 & xs1 & es1 & L & ->)].
  assert (Ew4 : w_fs w3 = w_fs w /\ w_cwd w3 = cwd) by (destruct S3 as (-> & -> & _); auto).
  destruct Ew4 as (Ew4 & Ew5). rewrite Ew4, Ew5, W in L. injection L as <- <- <-.
  pose proof (ok_same _ _ S4 O3) as O4.
  assert (Each : forall x v s v', In x (map fst es) -> ok v ->
    (let q := child p x in let! l <- p_is_symlink q ; if l then sys_unlink q else rec q) v = (s, v') ->
    ok v' /\ match s with Ok _ => True | Err e => fine e end).
  { intros x v s v' Hx Ov Hv. cbn zeta in Hv. destruct (Ch x Hx) as (nx & Ex & Nx & Where).
    assert (Cx : covered (child p x)).
    { intros P' m Wm. destruct (Where _ _ Wm) as [-> _]. apply (Z_below P); [exact ZP|apply below_app]. }
    apply bind_inv in Hv as [(l & v1 & Hl & Hv)|(e' & Hl & ->)].
    2:{ apply test_honest in Hl as [Sv Tv]; [|auto]. split; [now apply (ok_same v)|right; exact Tv]. }
    apply test_honest in Hl as [Sv Tv]; [|auto]. pose proof (ok_same _ _ Sv Ov) as Ov1.
    destruct l.
    - destruct (unlink_zone _ _ _ _ Hv Ov1 Cx) as [Ov2 Kv]. split; [assumption|destruct s; [exact Logic.I|now right]].
    - refine (K P xs0 es0 x WF0 _ Cx _ v1 s v' Hv Ov1).
      + apply entry_In in Ex. apply in_map_iff. now exists (x, nx).
      + intros P' m Wm. destruct (Where _ _ Wm) as [-> ->]. now split. }
  apply bind_inv in H as [(u & w5 & He & H)|(e & He & ->)].
  - apply each_zone in He as [O5 _]; [|assumption|exact Each].
    destruct (rmdir_zone _ _ _ _ H O5 C) as [O6 K6]. split; [assumption|]. destruct r; [assumption|now right].
  - apply each_zone in He as [O5 K5]; [|assumption|exact Each]. now split.
Qed.

Lemma handler_inv ig e w r w' : fine e -> rm_handler ig e w = (r, w') ->
  w' = w /\ (r = Err e \/ (ig = true /\ r = Ok tt)).
Proof.
  intros X K. destruct X as [->|[->|(n & ->)]]; cbn in K; try (injection K as <- <-; now auto);
    destruct ig; injection K as <- <-; auto.
Qed.

Lemma rmtree_zone ig dg : forall fuel p w r w', rmtree fuel ig dg p w = (r, w') -> ok w -> covered p -> fueled fuel p ->
  ok w' /\ match r with Ok _ => ig = false -> gone p w' | Err e => fine e end.
Proof.
  induction fuel as [fuel IH] using (well_founded_induction Wf_nat.lt_wf). intros p w r w' H O C Fu.
  rewrite rmtree_eq in H. apply bind_inv in H as [(u & w1 & Hg & H)|(e & Hg & ->)].
  2:{ apply guard_zone in Hg as [S K]; [|assumption]. split; [now apply (ok_same w)|exact K]. }
  apply guard_zone in Hg as [S _]; [|assumption]. apply (ok_same _ _ S) in O. clear S w u.
  assert (B : forall r w', rm_body (rm_rec fuel ig dg) p w1 = (r, w') -> ok w' /\ match r with Ok _ => gone p w' | Err e => fine e end).
  { clear H. intros r1 w2 H. apply (body_zone _ _ _ _ _ H O C).
    intros P xs es x W Hx Cx Where v s v' Hv Ov. pose proof (Fu _ _ W) as Dn.
    destruct (entry x es) as [nx|] eqn:Ex; [|apply entry_none in Ex; contradiction].
    pose proof (depth_entry xs es x nx Ex) as Dx. unfold rm_rec in Hv. destruct fuel as [|f]; [lia|].
    assert (Fx : fueled f (child p x)).
    { intros P' m Wm. destruct (Where _ _ Wm) as [_ E]. injection E as <-. lia. }
    destruct (IH f (Nat.lt_succ_diag_r f) _ _ _ _ Hv Ov Cx Fx) as [Ov' Kv]. split; [assumption|]. destruct s; [exact Logic.I|exact Kv]. }
  apply catch_inv in H as [(a & H & ->)|(e & w2 & H & K)].
  - destruct (B _ _ H) as [O2 K2]. split; [assumption|auto].
  - destruct (B _ _ H) as [O2 K2]. destruct (handler_inv _ _ _ _ _ K2 K) as [-> [->|[-> ->]]]; split; try assumption; discriminate.
Qed.
End Zone.

(** ** rmtree from the start *)
Definition zone_of (fs : node) (cwd : place) (p : ppath) (q : place) : Prop := exists R, leads fs cwd p R /\ below R q.
Lemma leads_fun fs cwd p R R' : leads fs cwd p R -> leads fs cwd p R' -> R = R'.
Proof. intros (n & E) (n' & E'). rewrite E in E'. now injection E'. Qed.
Lemma zone_dec fs cwd p q : {zone_of fs cwd p q} + {~ zone_of fs cwd p q}.
Proof.
  destruct (walk fs cwd false p) as [R n|d x|e] eqn:W.
  - destruct (below_dec R q) as [B|B]; [left; exists R; split; [now exists n|assumption]|].
    right. intros (R' & (n' & L) & B'). rewrite W in L. injection L as <- _. contradiction.
  - right. intros (R & (n & L) & _). congruence.
  - right. intros (R & (n & L) & _). congruence.
Defined.

Lemma rmtree_zone_start fs cwd fault ig dz p r w' : good_fs fs -> honest fault ->
  p_rmtree ig dz p (start fs cwd fault) = (r, w') ->
  (forall s q, In s (states w') -> (zone_of fs cwd p q -> look s q = look fs q \/ look s q = None) /\
                                   (~ zone_of fs cwd p q -> look s q = look fs q)) /\
  match r with Ok _ => ig = false -> gone fs cwd p w' | Err e => fine e end.
Proof.
  intros G Ho H. unfold p_rmtree in H.
  assert (A1 : forall q q', zone_of fs cwd p q -> below q q' -> zone_of fs cwd p q').
  { intros q q' (R & L & B) B'. exists R. split; [assumption|now apply (below_trans _ q)]. }
  assert (A2 : ok fs cwd fault (zone_of fs cwd p) (start fs cwd fault)).
  { assert (I : inv fs (zone_of fs cwd p) fs) by (intro q; split; auto). repeat split; auto; try apply I. now constructor. }
  assert (A3 : covered fs cwd (zone_of fs cwd p) p).
  { intros P n W. exists P. split; [now exists n|apply below_refl]. }
  assert (A4 : fueled fs cwd (depth (w_fs (start fs cwd fault))) p).
  { intros P n W. apply walk_found_get in W. now apply depth_get in W. }
  destruct (rmtree_zone fs cwd fault (zone_of fs cwd p) A1 (zone_dec fs cwd p) G Ho ig _ _ _ _ _ _ H A2 A3 A4) as [O K].
  split; [|exact K]. intros s q [<-|Hs]; [apply O|]. destruct O as (_ & _ & _ & O). rewrite Forall_forall in O. now apply O.
Qed.

Lemma rmtree_confined fs cwd fault ig dz p r w' : good_fs fs -> honest fault ->
  p_rmtree ig dz p (start fs cwd fault) = (r, w') ->
  forall s q, In s (states w') ->
    (look s q = look fs q \/ (look s q = None /\ exists R, leads fs cwd p R /\ below R q)).
Proof.
  intros G Ho H s q Hs. destruct (rmtree_zone_start _ _ _ _ _ _ _ _ G Ho H) as [K _].
  destruct (K s q Hs) as [K1 K2]. destruct (zone_dec fs cwd p q) as [Zq|Zq]; [|left; now apply K2].
  destruct (K1 Zq); [now left|right; now split].
Qed.
Lemma rmtree_gone fs cwd fault dz p w' : good_fs fs -> honest fault ->
  p_rmtree false dz p (start fs cwd fault) = (Ok tt, w') ->
  exists R, leads fs cwd p R /\ forall q, below R q -> look (w_fs w') q = None.
Proof.
  intros G Ho H. destruct (rmtree_zone_start _ _ _ _ _ _ _ _ G Ho H) as [_ K]. destruct (K eq_refl) as (R & n & W & L).
  exists R. split; [now exists n|]. intros q B. now apply (look_below_none _ R).
Qed.
Lemma rmtree_errors fs cwd fault ig dz p e w' : good_fs fs -> honest fault ->
  p_rmtree ig dz p (start fs cwd fault) = (Err e, w') ->
  e = WillNotRemovePathError \/ e = KeyboardInterrupt \/ exists n, e = OSErr n.
Proof. intros G Ho H. now destruct (rmtree_zone_start _ _ _ _ _ _ _ _ G Ho H) as [_ K]. Qed.

(** ** Everything is removed when no call fails *)
Definition allowed (dg : bool) (w : world) (P : place) : Prop :=
  dg = true \/
  ((2 <= length P)%nat /\ ~ (length P = 2%nat /\ In $"home" P) /\ is_dir_at (w_fs w) (w_cwd w) /\ ~ below P (w_cwd w)).

Lemma list_eqb_eq (a b : list str) : list_eqb str_eqb a b = true <-> a = b.
Proof.
  revert b. induction a as [|x a IH]; intros [|y b]; cbn; split; intro H; try discriminate; try reflexivity.
  - apply andb_true_iff in H as [H1 H2]. apply str_eqb_eq in H1. apply IH in H2. congruence.
  - injection H as -> ->. rewrite str_eqb_refl. now apply IH.
Qed.
Lemma pp_eqb_eq a b : pp_eqb a b = true <-> a = b.
Proof.
  unfold pp_eqb. destruct a as [a l], b as [b m]; cbn. rewrite andb_true_iff, Bool.eqb_true_iff, list_eqb_eq.
  split; [intros [-> ->]; reflexivity|intro H; now injection H].
Qed.

Lemma parts_abs P : parts (mkPP true P) = $"/" :: P.
Proof. reflexivity. Qed.

Lemma home_parts P : existsb (str_eqb $"home") (parts (path_of P)) = true <-> In $"home" P.
Proof.
  unfold path_of. rewrite parts_abs. cbn [existsb]. rewrite orb_true_iff, existsb_exists. split.
  - intros [H|(x & H & E)]; [discriminate|]. apply str_eqb_eq in E. now subst.
  - intro H. right. exists $"home". split; [assumption|apply str_eqb_refl].
Qed.

Lemma guard_pass dg w P : no_fault w -> allowed dg w P -> exists w', rmtree_guard (path_of P) dg w = (Ok tt, w') /\ same w w'.
Proof.
  intros N [->|(L & Hm & (xs & D) & B)]; unfold rmtree_guard; cbn [path_of pp_abs negb].
  - exists w. split; [reflexivity|apply same_refl].
  - destruct dg; [exists w; split; [reflexivity|apply same_refl]|].
    assert (E1 : Nat.leb (length (parts (path_of P))) 2 = false).
    { apply Nat.leb_gt. unfold path_of. rewrite parts_abs. cbn [length]. lia. }
    unfold path_of in *. rewrite E1.
    destruct (_ && _)%bool eqn:E2.
    { exfalso. apply andb_true_iff in E2 as [E2 E3]. apply Nat.leb_le in E2. rewrite parts_abs in E2. cbn [length] in E2.
      apply (home_parts P) in E3. apply Hm. split; [lia|assumption]. }
    apply look_dir in D as (es & D).
    destruct (ask_run (fun fs cwd => match get fs cwd with Some (Dir _ _) => Ok (mkPP true cwd) | _ => fail ENOENT end) w N) as (w1 & R & S).
    rewrite D in R. unfold bind, sys_getcwd. rewrite R. exists w1.
    destruct (pp_eqb _ _) eqn:E3; [|now split]. apply pp_eqb_eq in E3. injection E3 as E3. exfalso. apply B. rewrite E3. apply below_refl.
Qed.

Lemma walk_of fs cwd follow P n : good_fs fs -> get fs P = Some n -> (follow = true -> forall t, n <> Link t) ->
  walk fs cwd follow (path_of P) = Found P n.
Proof.
  intros [G _] H F. unfold walk, path_of. cbn [pp_abs pp_parts].
  apply (walk_place fs follow max_links P []); [now apply (good_names _ fs n)|exact H|exact F].
Qed.

Lemma listdir_of w P xs es : no_fault w -> good_fs (w_fs w) -> get (w_fs w) P = Some (Dir xs es) ->
  exists w', sys_listdir (path_of P) w = (Ok (map fst es), w') /\ same w w'.
Proof.
  intros N G H. apply ask_ok; [assumption|]. unfold lookup. now rewrite (walk_of _ _ _ _ _ G H) by discriminate.
Qed.
Lemma unlink_of w P n : no_fault w -> good_fs (w_fs w) -> get (w_fs w) P = Some n -> (forall xs es, n <> Dir xs es) ->
  exists w', sys_unlink (path_of P) w = (Ok tt, w') /\ changed (del (w_fs w) P) w w'.
Proof.
  intros N G H D. unfold sys_unlink.
  apply sys_ok; [assumption|]. unfold lookup. rewrite (walk_of _ _ _ _ _ G H) by discriminate.
  destruct n as [d xs|xs es|t]; [reflexivity|now elim (D xs es)|reflexivity].
Qed.

Lemma rmdir_of w P xs : no_fault w -> good_fs (w_fs w) -> P <> [] -> get (w_fs w) P = Some (Dir xs []) ->
  exists w', sys_rmdir (path_of P) w = (Ok tt, w') /\ changed (del (w_fs w) P) w w'.
Proof.
  intros N G NP H. unfold sys_rmdir.
  assert (E : str_eqb (last P []) $".." = false).
  { destruct (str_eqb (last P []) $"..") eqn:E; [|reflexivity]. apply str_eqb_eq in E.
    pose proof (good_names _ _ _ (proj1 G) H) as F. rewrite Forall_forall in F.
    assert (I : In (last P []) P) by (rewrite (app_removelast_last [] NP) at 2; apply in_or_app; right; now left).
    apply F in I. destruct I as (_ & _ & I & _). contradiction. }
  apply sys_ok; [assumption|]. destruct P as [|x P]; [congruence|]. change (pp_parts (path_of (x :: P))) with (x :: P).
  cbn beta iota. rewrite E. unfold lookup. rewrite (walk_of _ (w_cwd w) false _ _ G H) by discriminate. reflexivity.
Qed.

Lemma same_allowed dg w w' P : same w w' -> allowed dg w P -> allowed dg w' P.
Proof. intros (A & B & _) H. unfold allowed in *. now rewrite A, B. Qed.
Lemma allowed_child dg w P x : allowed dg w P -> allowed dg w (P ++ [x]).
Proof.
  intros [->|(L & Hm & D & B)]; [now left|]. right. rewrite app_length. cbn [length]. repeat split; try assumption; try lia.
  intro K. apply B. apply (below_trans _ (P ++ [x])); [apply below_app|assumption].
Qed.
Lemma allowed_del dg w w' P Q : allowed dg w P -> below P Q -> changed (del (w_fs w) Q) w w' -> allowed dg w' P.
Proof.
  intros [->|(L & Hm & (xs & D) & B)] BQ (A & C & _); [now left|]. right. rewrite A, C. repeat split; try assumption.
  exists xs. rewrite look_del_other; [assumption|]. intro K. apply B. now apply (below_trans _ Q).
Qed.

(** what a run without failing calls that only removes [P] does *)
Definition removes (P : place) (w w' : world) : Prop :=
  w_fs w' = del (w_fs w) P /\ w_cwd w' = w_cwd w /\ w_fault w' = w_fault w.

Lemma rm_complete ig dg : forall fuel w P n, no_fault w -> good_fs (w_fs w) -> P <> [] -> get (w_fs w) P = Some n ->
  (forall t, n <> Link t) -> (depth n <= fuel)%nat -> allowed dg w P ->
  exists w', rmtree fuel ig dg (path_of P) w = (Ok tt, w') /\ removes P w w'.
Proof.
  induction fuel as [fuel IH] using (well_founded_induction Wf_nat.lt_wf). intros w P n N G NP Gn NL Dn Al.
  rewrite rmtree_eq. destruct (guard_pass dg w P N Al) as (w1 & Eg & S1). unfold bind at 1. rewrite Eg.
  enough (B : exists w', rm_body (rm_rec fuel ig dg) (path_of P) w1 = (Ok tt, w') /\ removes P w1 w').
  { destruct B as (w' & B & R). exists w'. unfold catch. rewrite B. split; [reflexivity|].
    destruct S1 as (A1 & A2 & A3 & A4). unfold removes in *. now rewrite A1, A2, A4 in R. }
  apply (no_fault_same _ _ S1) in N. apply (same_allowed _ _ _ _ S1) in Al. destruct S1 as (A1 & _).
  rewrite <- A1 in G, Gn. clear w Eg A1. rename w1 into w.
  unfold rm_body. unfold bind at 1. unfold p_is_dir.
  destruct (test_run true (path_of P) (fun n => match n with Dir _ _ => true | _ => false end) w N) as (w1 & S1 & E1).
  rewrite (walk_of _ _ _ _ _ G Gn) in E1 by auto. rewrite E1.
  pose proof (no_fault_same _ _ S1 N) as N1. pose proof S1 as (F1 & C1 & _ & T1).
  assert (G1 : good_fs (w_fs w1)) by now rewrite F1. assert (Gn1 : get (w_fs w1) P = Some n) by now rewrite F1.
  destruct n as [d xs|xs es|t]; [|clear E1|now elim (NL t)].
  { destruct (unlink_of w1 P (File d xs) N1 G1 Gn1) as (w2 & E2 & (Ch1 & Ch2 & Ch3 & Ch4)); [discriminate|].
    exists w2. split; [exact E2|]. unfold removes. rewrite Ch1, Ch2, Ch4, F1, C1, T1. auto. }
  unfold bind at 1. unfold p_is_symlink at 1.
  destruct (test_run false (path_of P) (fun n => match n with Link _ => true | _ => false end) w1 N1) as (w2 & S2 & E2).
  rewrite (walk_of _ _ _ _ _ G1 Gn1) in E2 by discriminate. rewrite E2. clear E2.
  unfold bind at 1.
  assert (S12 : same w w2) by now apply (same_trans _ w1).
  clear S1 S2 F1 C1 T1 N1 G1 Gn1 w1.
  pose proof (no_fault_same _ _ S12 N) as N2. pose proof (same_allowed _ _ _ _ S12 Al) as Al2. pose proof S12 as (F2 & C2 & _ & T2).
  assert (G2 : good_fs (w_fs w2)) by now rewrite F2. assert (Gn2 : get (w_fs w2) P = Some (Dir xs es)) by now rewrite F2.
  destruct (listdir_of w2 P xs es N2 G2 Gn2) as (w3 & E3 & S3). rewrite E3. clear E3.
  assert (S13 : same w w3) by now apply (same_trans _ w2).
  clear S12 S3 F2 C2 T2 N2 G2 Gn2 Al2 w2.
  pose proof (no_fault_same _ _ S13 N) as N3. pose proof (same_allowed _ _ _ _ S13 Al) as Al3. pose proof S13 as (F3 & C3 & _ & T3).
  assert (G3 : good_fs (w_fs w3)) by now rewrite F3. assert (Gn3 : get (w_fs w3) P = Some (Dir xs es)) by now rewrite F3.
  assert (L : exists w4, each (fun x => let q := child (path_of P) x in
                let! l <- p_is_symlink q ; if l then sys_unlink q else rm_rec fuel ig dg q) (map fst es) w3 = (Ok tt, w4) /\
              get (w_fs w4) P = Some (Dir xs []) /\ del (w_fs w4) P = del (w_fs w3) P /\ good_fs (w_fs w4) /\ no_fault w4 /\
              w_cwd w4 = w_cwd w3 /\ w_fault w4 = w_fault w3).
  { cbn [depth] in Dn.
    assert (Dc : forall x c, In (x, c) es -> (S (depth c) <= fuel)%nat).
    { intros x c Hx. enough (depth c <= fold_right (fun e m => Nat.max (depth (snd e)) m) 0 es)%nat by lia.
      clear Dn Gn Gn3 NL. induction es as [|[y d] es IHe]; [destruct Hx|]. cbn [fold_right snd].
      destruct Hx as [Hx|Hx]; [injection Hx as -> ->; lia|]. apply IHe in Hx. lia. }
    clear S13 F3 C3 T3 Gn Dn NL N G Al w. rename w3 into w, N3 into N, G3 into G, Al3 into Al, Gn3 into Gn.
    revert w N G Al Gn. induction es as [|[x c] es IHe]; intros w N G Al Gn.
    - exists w. repeat split; try assumption; try apply G; try reflexivity.
    - cbn [map fst each]. unfold bind at 1. unfold bind at 1. cbn zeta.
      change (child (path_of P) x) with (path_of (P ++ [x])).
      assert (Gc : get (w_fs w) (P ++ [x]) = Some c).
      { rewrite get_snoc, Gn, entry_cons, str_eqb_refl. reflexivity. }
      assert (Step : forall w0, same w w0 -> exists w1, (forall (l := match c with Link _ => true | _ => false end),
         (if l then sys_unlink (path_of (P ++ [x])) else rm_rec fuel ig dg (path_of (P ++ [x]))) w0 = (Ok tt, w1)) /\ removes (P ++ [x]) w0 w1).
      { intros w0 S0. pose proof (no_fault_same _ _ S0 N) as N0. pose proof (same_allowed _ _ _ _ S0 Al) as Al0. destruct S0 as (F0 & _).
        assert (G0 : good_fs (w_fs w0)) by now rewrite F0. assert (Gc0 : get (w_fs w0) (P ++ [x]) = Some c) by now rewrite F0.
        assert (K : (exists t, c = Link t) \/ (forall t, c <> Link t)) by (destruct c; [right|right|left; now eexists]; discriminate).
        destruct K as [(t & ->)|K].
        - destruct (unlink_of w0 _ (Link t) N0 G0 Gc0) as (w1 & E1 & (Ch1 & Ch2 & Ch3 & Ch4)); [discriminate|].
          exists w1. split; [exact E1|]. unfold removes. rewrite Ch1, Ch2, Ch4. auto.
        - pose proof (Dc x c (or_introl eq_refl)) as Dx. destruct fuel as [|f]; [lia|].
          destruct (IH f (Nat.lt_succ_diag_r f) w0 (P ++ [x]) c N0 G0) as (w1 & E1 & R1);
            [now destruct P|assumption|assumption|lia|now apply allowed_child|].
          exists w1. split; [|exact R1]. cbn zeta. destruct c; [exact E1|exact E1|now elim (K target)]. }
      unfold p_is_symlink at 1.
      destruct (test_run false (path_of (P ++ [x])) (fun n => match n with Link _ => true | _ => false end) w N) as (w0 & S0 & E0).
      rewrite (walk_of _ _ _ _ _ G Gc) in E0 by discriminate. rewrite E0. clear E0.
      destruct (Step w0 S0) as (w1 & E1 & R1). cbn zeta in E1. rewrite E1. clear E1 Step.
      destruct S0 as (F0 & C0 & _ & T0). destruct R1 as (R1 & R2 & R3). rewrite F0 in R1. rewrite C0 in R2. rewrite T0 in R3.
      destruct (IHe) with (w := w1) as (w4 & E4 & A1 & A2 & A3 & A4 & A5 & A6).
      + intros y d Hy. apply (Dc y). now right.
      + intro t. rewrite R3. apply N.
      + rewrite R1. now apply good_fs_del.
      + destruct Al as [->|(L & Hm & (ys & D) & B)]; [now left|]. right. rewrite R1, R2. repeat split; try assumption.
        exists ys. rewrite look_del_other; [assumption|]. intro K. apply B. apply (below_trans _ (P ++ [x])); [apply below_app|assumption].
      + rewrite R1, (get_del_above _ P x []), Gn. cbn [option_map del]. f_equal. f_equal. unfold del_entry. cbn [filter fst].
        rewrite str_eqb_refl. cbn [negb].
        assert (X : ~ In x (map fst es)).
        { pose proof (good_get P _ _ (proj1 G) Gn) as GD. inversion GD as [| |? ? ND _ _]; subst. now inversion ND. }
        clear - X. induction es as [|[y d] es IH]; [reflexivity|]. cbn [filter fst]. destruct (str_eqb y x) eqn:E.
        * apply str_eqb_eq in E. exfalso. apply X. now left.
        * cbn [negb]. rewrite IH; [reflexivity|]. intro K. apply X. now right.
      + exists w4. cbn zeta in E4. rewrite E4. rewrite A2, R1, A5, A6, R2, R3. rewrite (del_del _ P [x]) by assumption. tauto. }
  destruct L as (w4 & E4 & A1 & A2 & A3 & A4 & A5 & A6). unfold bind at 1. cbn zeta in E4. cbn zeta. rewrite E4.
  destruct (rmdir_of w4 P xs A4 A3 NP A1) as (w5 & E5 & (Ch1 & Ch2 & Ch3 & Ch4)). exists w5. split; [exact E5|].
  unfold removes. rewrite Ch1, Ch2, Ch4, A2, A5, A6, F3, C3, T3. auto.
Qed.

Lemma rmtree_removes fs cwd fault ig dz R n w' : good_fs fs -> (forall t, fault t = None) -> R <> [] ->
  get fs R = Some n -> (forall t, n <> Link t) ->
  is_True dz = true \/ ((2 <= length R)%nat /\ ~ (length R = 2%nat /\ In $"home" R) /\ is_dir_at fs cwd /\ ~ below R cwd) ->
  snd (p_rmtree ig dz (path_of R) (start fs cwd fault)) = w' ->
  fst (p_rmtree ig dz (path_of R) (start fs cwd fault)) = Ok tt /\ w_fs w' = del fs R.
Proof.
  intros G N NR Gn NL Al <-. unfold p_rmtree.
  destruct (rm_complete ig (is_True dz) (depth (w_fs (start fs cwd fault))) (start fs cwd fault) R n) as (w' & E & (F & _)); try assumption.
  - now apply depth_get in Gn.
  - rewrite E. now split.
Qed.

(** ** Refusals *)
Lemma rmtree_refuses ig dz p w : is_True dz = false ->
  pp_abs p = false \/ (length (parts p) <= 2)%nat \/ ((length (parts p) <= 3)%nat /\ In $"home" (parts p)) ->
  p_rmtree ig dz p w = (Err WillNotRemovePathError, w).
Proof.
  intros D H. unfold p_rmtree. rewrite rmtree_eq, D. unfold rmtree_guard, bind. destruct (pp_abs p); [|reflexivity]. cbn [negb].
  destruct H as [H|H]; [discriminate|]. destruct (Nat.leb (length (parts p)) 2) eqn:E; [reflexivity|].
  apply Nat.leb_gt in E. destruct H as [H|[H1 H2]]; [lia|]. apply Nat.leb_le in H1. rewrite H1.
  assert (X : existsb (str_eqb $"home") (parts p) = true) by (apply existsb_exists; exists $"home"; split; [assumption|apply str_eqb_refl]).
  now rewrite X.
Qed.
Lemma rmtree_refuses_cwd ig dz w : is_True dz = false ->
  w_fs (snd (p_rmtree ig dz (path_of (w_cwd w)) w)) = w_fs w /\ w_hist (snd (p_rmtree ig dz (path_of (w_cwd w)) w)) = w_hist w /\
  fst (p_rmtree ig dz (path_of (w_cwd w)) w) <> Ok tt /\
  (no_fault w -> is_dir_at (w_fs w) (w_cwd w) -> fst (p_rmtree ig dz (path_of (w_cwd w)) w) = Err WillNotRemovePathError).
Proof.
  intro D. unfold p_rmtree. rewrite rmtree_eq, D. unfold rmtree_guard, bind. cbn [path_of pp_abs negb].
  destruct (Nat.leb _ 2); [now repeat split|]. destruct (_ && _)%bool; [now repeat split|].
  unfold sys_getcwd, ask. destruct (w_fault w (w_tick w)) as [e|] eqn:F.
  - cbn. repeat split; try discriminate. intro N. specialize (N (w_tick w)). congruence.
  - destruct (get (w_fs w) (w_cwd w)) as [[d x|x es|t]|] eqn:Gd; cbn [fst snd w_fs w_hist].
    2:{ rewrite (proj2 (pp_eqb_eq _ _) eq_refl). now repeat split. }
    all: repeat split; try discriminate; intros _ (xs & L); apply look_dir in L as (es & L); congruence.
Qed.
Lemma rmtree_relative ig dz p w : pp_abs p = false -> p_rmtree ig dz p w = (Err WillNotRemovePathError, w).
Proof. intro A. unfold p_rmtree. rewrite rmtree_eq. unfold rmtree_guard, bind. now rewrite A. Qed.

(** ** The current directory *)
Section Cwd.
Variable fs0 : node.
Variable cwd : place.
Variable fault : nat -> option exn.
Hypothesis G0 : good_fs fs0.
Hypothesis Ho : honest fault.
Hypothesis D0 : is_dir_at fs0 cwd.

Definition aside (q : place) : Prop := ~ below q cwd /\ ~ below cwd q.
Lemma prefixes (a b c : place) : below a c -> below b c -> below a b \/ below b a.
Proof.
  revert b c. induction a as [|x a IH]; intros b c A B; [left; apply below_nil|]. destruct b as [|y b]; [right; apply below_nil|].
  destruct A as (r & ->), B as (s & B). cbn in B. injection B as -> B. rewrite !below_cons. apply (IH b (a ++ r)); [apply below_app|now exists s].
Qed.
Lemma aside_below q q' : aside q -> below q q' -> aside q'.
Proof.
  intros [A B] C. split; intro K.
  - apply A. now apply (below_trans _ q').
  - destruct (prefixes q cwd q' C K); contradiction.
Qed.
Lemma aside_dec q : {aside q} + {~ aside q}.
Proof.
  unfold aside. destruct (below_dec q cwd); [right; tauto|]. destruct (below_dec cwd q); [right; tauto|left; tauto].
Defined.
Notation okc := (ok fs0 cwd fault aside).

Lemma above_dir w P : okc w -> below P cwd -> exists xs es, get (w_fs w) P = Some (Dir xs es).
Proof.
  intros (I & _) B. destruct (I P) as [_ I2]. rewrite I2 in I2 by (intros [A _]; contradiction).
  destruct (I P) as [_ I3]. specialize (I3 ltac:(intros [A _]; contradiction)).
  destruct B as (r & E). assert (X : exists xs, look fs0 P = Some (ADir xs)).
  { destruct r as [|x r]; [rewrite app_nil_r in E; subst; exact D0|]. apply (look_above _ P x r). rewrite <- E. destruct D0 as (xs & ->). discriminate. }
  destruct X as (xs & X). rewrite X in I3. apply look_dir in I3 as (es & I3). eauto.
Qed.
Lemma names_cwd : Forall good_name cwd.
Proof. destruct D0 as (xs & D). apply look_dir in D as (es & D). exact (good_names _ _ _ (proj1 G0) D). Qed.
Lemma names_above P : below P cwd -> Forall good_name P.
Proof. intros (r & E). pose proof names_cwd as N. rewrite E in N. now apply Forall_app in N. Qed.
Lemma walk_above w P follow : okc w -> below P cwd -> exists xs es, get (w_fs w) P = Some (Dir xs es) /\
  walk (w_fs w) (w_cwd w) follow (path_of P) = Found P (Dir xs es).
Proof.
  intros O B. destruct (above_dir w P O B) as (xs & es & E). exists xs, es. split; [assumption|].
  apply (walk_place (w_fs w) follow max_links P []); [now apply names_above|assumption|discriminate].
Qed.

Lemma rmdir_above w P r w' : okc w -> below P cwd -> P <> cwd -> sys_rmdir (path_of P) w = (r, w') ->
  same w w' /\ exists e, r = Err e /\ tame e.
Proof.
  intros O B NE H. unfold sys_rmdir in H. destruct (walk_above w P false O B) as (xs & es & E & W).
  apply sys_inv in H as [(e & -> & S & K)|(a & fs & -> & F & Ch)].
  - split; [assumption|]. exists e. split; [reflexivity|]. destruct K as [K|K].
    + unfold lookup, fail in K. rewrite W in K. destruct (pp_parts _) as [|x l].
      * destruct (pp_abs _); injection K as <-; right; now eexists.
      * destruct (str_eqb _ _); [injection K as <-; right; now eexists|]. cbn in K.
        destruct es; [destruct P|]; try discriminate; injection K as <-; right; now eexists.
    + destruct O as (_ & _ & Hf & _). rewrite Hf in K. now apply (fault_tame fault Ho) in K.
  - exfalso. unfold lookup, fail in F. rewrite W in F. destruct (pp_parts _) as [|x l]; [destruct (pp_abs _); discriminate|].
    destruct (str_eqb _ _); [discriminate|]. cbn in F. destruct es as [|z es]; [|discriminate].
    destruct B as (r & Er). destruct r as [|z r]; [rewrite app_nil_r in Er; congruence|].
    destruct (above_dir w (P ++ [z])) as (ys & fs' & K); [assumption|exists r; now rewrite <- app_assoc|].
    rewrite get_snoc, E in K. discriminate.
Qed.

Lemma rm_cwd ig : forall fuel P w r w', rmtree fuel ig false (path_of P) w = (r, w') -> okc w -> below P cwd ->
  (forall n, get fs0 P = Some n -> (depth n <= fuel)%nat) ->
  okc w' /\ match r with Ok _ => True | Err e => fine e end.
Proof.
  induction fuel as [fuel IH] using (well_founded_induction Wf_nat.lt_wf). intros P w r w' H O B Fu.
  destruct (place_dec P cwd) as [->|NE].
  { clear IH Fu. destruct O as (I & Hc & Hf & Hh). rewrite <- Hc in H.
    destruct (rmtree_refuses_cwd ig (ABool false) w eq_refl) as (A1 & A2 & A3 & _).
    rewrite rmtree_eq in H. apply bind_inv in H as [(u & w1 & Hg & H)|(e & Hg & ->)].
    - exfalso. apply A3. clear - Hg. unfold p_rmtree. revert Hg. unfold rmtree_guard. cbn [path_of pp_abs negb].
      destruct (Nat.leb _ 2); [discriminate|]. destruct (_ && _)%bool; [discriminate|]. unfold sys_getcwd, ask, bind.
      destruct (w_fault w (w_tick w)); [discriminate|]. destruct (get _ _) as [[| |]|]; try discriminate.
      now rewrite (proj2 (pp_eqb_eq _ _) eq_refl).
    - assert (O : okc w) by (repeat split; try assumption; apply I).
      apply (guard_zone fs0 cwd fault aside Ho) in Hg as [S K]; [|assumption].
      split; [now apply (ok_same fs0 cwd fault aside w)|exact K]. }
  rewrite rmtree_eq in H. apply bind_inv in H as [(u & w1 & Hg & H)|(e & Hg & ->)].
  2:{ apply (guard_zone fs0 cwd fault aside Ho) in Hg as [S K]; [|assumption].
      split; [now apply (ok_same fs0 cwd fault aside w)|exact K]. }
  apply (guard_zone fs0 cwd fault aside Ho) in Hg as [S _]; [|assumption].
  apply (ok_same fs0 cwd fault aside _ _ S) in O. clear S w u. rename w1 into w.
  enough (X : forall r w', rm_body (rm_rec fuel ig false) (path_of P) w = (r, w') -> okc w' /\ match r with Ok _ => True | Err e => fine e end).
  { apply catch_inv in H as [(a & H & ->)|(e & w2 & H & K)]; [now apply (X (Ok a) w')|].
    destruct (X _ _ H) as [O2 K2]. destruct (handler_inv _ _ _ _ _ K2 K) as [-> [->|[-> ->]]]; now split. }
  clear H r w'. intros r w' H.
  assert (Ho' : forall w, okc w -> honest (w_fault w)) by (intros v (_ & _ & -> & _); assumption).
  apply bind_inv in H as [(d & w2 & Hd & H)|(e & Hd & ->)].
  2:{ apply test_honest in Hd as [S T]; [|auto]. split; [now apply (ok_same fs0 cwd fault aside w)|right; exact T]. }
  apply test_honest in Hd as [S T]; [|auto]. destruct (walk_above w P true O B) as (xs & es & Gd & W).
  destruct d; [clear T|specialize (T _ _ W); discriminate].
  apply (ok_same fs0 cwd fault aside _ _ S) in O. destruct S as (S & _). rewrite <- S in Gd. clear w W S. rename w2 into w.
  apply bind_inv in H as [(d & w2 & Hd & H)|(e & Hd & ->)].
  2:{ apply test_honest in Hd as [S T]; [|auto]. split; [now apply (ok_same fs0 cwd fault aside w)|right; exact T]. }
  apply test_honest in Hd as [S T]; [|auto]. destruct (walk_above w P false O B) as (xs' & es' & Gd' & W).
  destruct d; [destruct T as (q & n & W' & T); rewrite W in W'; injection W' as _ <-; discriminate|clear T W xs' es' Gd'].
  apply (ok_same fs0 cwd fault aside _ _ S) in O. destruct S as (S & _). rewrite <- S in Gd. clear w S. rename w2 into w.
  apply bind_inv in H as [(names & w2 & Hd & H)|(e & Hd & ->)].
  2:{ apply listdir_inv in Hd as [S T]. split; [now apply (ok_same fs0 cwd fault aside w)|right].
      destruct T as [(n & ->)|T]; [right; now eexists|]. destruct O as (_ & _ & Hf & _). rewrite Hf in T. now apply (fault_tame fault Ho) in T. }
  apply listdir_inv in Hd as [S (P1 & xs1 & es1 & W & ->)]. destruct (walk_above w P true O B) as (xs' & es' & Gd' & W').
  rewrite W in W'. injection W' as -> -> ->. rewrite Gd in Gd'. injection Gd' as <- <-. clear W.
  assert (Sub : forall x, In x (map fst es) -> exists es0 nx, get fs0 P = Some (Dir xs es0) /\ entry x es0 = Some nx /\ good_name x).
  { destruct O as (I & _). apply inv_pruned in I; [|exact aside_dec]. intros x Hx.
    assert (LP : look fs0 P = Some (ADir xs)).
    { destruct (I P) as [E|E]; [rewrite <- E; apply look_dir; eauto|]. apply look_none in E. congruence. }
    apply look_dir in LP as (es0 & LP). exists es0.
    destruct (I (P ++ [x])) as [E|E].
    - assert (K : look (w_fs w) (P ++ [x]) <> None) by (rewrite look_none, get_snoc, Gd, entry_none; tauto).
      rewrite E, look_none in K. destruct (get fs0 (P ++ [x])) as [nx|] eqn:Gx; [|congruence]. exists nx.
      split; [assumption|]. split; [now rewrite get_snoc, LP in Gx|].
      pose proof (good_names _ _ _ (proj1 G0) Gx) as F. apply Forall_app in F as [_ F]. now inversion F.
    - apply look_none in E. rewrite get_snoc, Gd in E. apply entry_none in E. contradiction. }
  apply (ok_same fs0 cwd fault aside _ _ S) in O. clear w S Gd. rename w2 into w.
  assert (Each : forall x v s v', In x (map fst es) -> okc v ->
    (let q := child (path_of P) x in let! l <- p_is_symlink q ; if l then sys_unlink q else rm_rec fuel ig false q) v = (s, v') ->
    okc v' /\ match s with Ok _ => True | Err e => fine e end).
  { intros x v s v' Hx Ov Hv. cbn zeta in Hv. change (child (path_of P) x) with (path_of (P ++ [x])) in Hv.
    destruct (Sub x Hx) as (es0 & nx & GP & Ex & Nx).
    assert (Gx : get fs0 (P ++ [x]) = Some nx) by now rewrite get_snoc, GP.
    pose proof (Fu _ GP) as Dn. pose proof (depth_entry xs es0 x nx Ex) as Dx.
    assert (Fx : forall f, fuel = S f -> forall n, get fs0 (P ++ [x]) = Some n -> (depth n <= f)%nat).
    { intros f Ef n Gn. rewrite Gx in Gn. injection Gn as <-. lia. }
    apply bind_inv in Hv as [(l & v1 & Hl & Hv)|(e' & Hl & ->)].
    2:{ apply test_honest in Hl as [Sv Tv]; [|auto]. split; [now apply (ok_same fs0 cwd fault aside v)|right; exact Tv]. }
    apply test_honest in Hl as [Sv Tv]; [|auto]. pose proof (ok_same fs0 cwd fault aside _ _ Sv Ov) as Ov1.
    destruct (below_dec (P ++ [x]) cwd) as [Bx|Bx].
    - destruct l.
      + destruct Tv as (q & n & W' & T). destruct (walk_above v (P ++ [x]) false Ov Bx) as (ys & fs' & _ & W2).
        rewrite W2 in W'. injection W' as _ <-. discriminate.
      + unfold rm_rec in Hv. destruct fuel as [|f]; [lia|].
        apply (IH f (Nat.lt_succ_diag_r f) _ _ _ _ Hv Ov1 Bx). now apply Fx.
    - assert (Ax : aside (P ++ [x])).
      { split; [assumption|]. intro K. apply below_snoc in K as [K|K].
        - apply NE. now apply below_antisym.
        - apply Bx. rewrite K. apply below_refl. }
      assert (W0 : walk fs0 cwd false (path_of (P ++ [x])) = Found (P ++ [x]) nx) by (apply walk_of; [assumption|assumption|discriminate]).
      assert (Cx : covered fs0 cwd aside (path_of (P ++ [x]))).
      { intros P' m Wm. rewrite W0 in Wm. now injection Wm as <- _. }
      destruct l.
      + destruct (unlink_zone fs0 cwd fault aside aside_below aside_dec G0 Ho _ _ _ _ Hv Ov1 Cx) as [Ov2 Kv].
        split; [assumption|]. destruct s; [exact Logic.I|now right].
      + unfold rm_rec in Hv. destruct fuel as [|f]; [lia|].
        assert (Fx' : fueled fs0 cwd f (path_of (P ++ [x]))).
        { intros P' m Wm. rewrite W0 in Wm. injection Wm as _ <-. lia. }
        destruct (rmtree_zone fs0 cwd fault aside aside_below aside_dec G0 Ho ig _ _ _ _ _ _ Hv Ov1 Cx Fx') as [Ov2 Kv].
        split; [assumption|]. destruct s; [exact Logic.I|exact Kv]. }
  apply bind_inv in H as [(u & w5 & He & H)|(e & He & ->)].
  - apply (each_zone fs0 cwd fault aside) in He as [O5 _]; [|assumption|exact Each].
    destruct (rmdir_above _ _ _ _ O5 B NE H) as [S (e & -> & T)]. split; [now apply (ok_same fs0 cwd fault aside w5)|now right].
  - apply (each_zone fs0 cwd fault aside) in He as [O5 K5]; [|assumption|exact Each]. now split.
Qed.
End Cwd.

(** Without faults the refusal gets out, also when errors are ignored. *)
Lemma guard_cwd w P : no_fault w -> is_dir_at (w_fs w) (w_cwd w) ->
  (rmtree_guard (path_of P) false w = (Err WillNotRemovePathError, w)) \/
  (exists w', rmtree_guard (path_of P) false w = (Err WillNotRemovePathError, w') /\ P = w_cwd w) \/
  (exists w', rmtree_guard (path_of P) false w = (Ok tt, w') /\ same w w' /\ P <> w_cwd w /\ (2 <= length P)%nat).
Proof.
  intros N (xs & D). unfold rmtree_guard, path_of. cbn [pp_abs negb]. destruct (Nat.leb (length (parts (mkPP true P))) 2) eqn:E1; [now left|].
  destruct (_ && _)%bool; [now left|]. right. apply look_dir in D as (es & D).
  destruct (ask_ok (fun fs cwd => match get fs cwd with Some (Dir _ _) => Ok (mkPP true cwd) | _ => fail ENOENT end) w (Ok (mkPP true (w_cwd w))) N) as (w1 & R & S); [now rewrite D|].
  unfold bind, sys_getcwd. rewrite R. destruct (pp_eqb _ _) eqn:E3.
  - left. apply pp_eqb_eq in E3. injection E3 as E3. now exists w1.
  - right. exists w1. apply Nat.leb_gt in E1. rewrite parts_abs in E1. cbn [length] in E1.
    split; [reflexivity|]. split; [assumption|]. split; [|lia]. intros ->. now rewrite (proj2 (pp_eqb_eq _ _) eq_refl) in E3.
Qed.

Lemma rm_cwd_raises ig : forall fuel w P n, no_fault w -> good_fs (w_fs w) -> is_dir_at (w_fs w) (w_cwd w) -> below P (w_cwd w) ->
  get (w_fs w) P = Some n -> (depth n <= fuel)%nat ->
  exists w', rmtree fuel ig false (path_of P) w = (Err WillNotRemovePathError, w').
Proof.
  induction fuel as [fuel IH] using (well_founded_induction Wf_nat.lt_wf). intros w P n N G D B Gn Dn.
  rewrite rmtree_eq. unfold bind at 1.
  destruct (guard_cwd w P N D) as [Eg|[(w1 & Eg & _)|(w1 & Eg & S1 & NE & LP)]]; [rewrite Eg; now eexists|rewrite Eg; now eexists|rewrite Eg].
  enough (X : exists w', rm_body (rm_rec fuel ig false) (path_of P) w1 = (Err WillNotRemovePathError, w')).
  { destruct X as (w' & X). exists w'. unfold catch. now rewrite X. }
  apply (no_fault_same _ _ S1) in N. destruct S1 as (F1 & C1 & _). rewrite <- F1 in G, Gn. rewrite <- F1, <- C1 in D. rewrite <- C1 in B, NE. clear w Eg F1 C1. rename w1 into w.
  assert (Dir_n : exists xs es, n = Dir xs es).
  { destruct B as (r & E). destruct r as [|x r]; [rewrite app_nil_r in E; congruence|]. destruct D as (ys & D). rewrite E in D.
    apply look_dir in D as (es & D). apply get_above in D as (xs & es' & D). rewrite Gn in D. injection D as ->. now eexists _, _. }
  destruct Dir_n as (xs & es & ->).
  unfold rm_body. unfold bind at 1. unfold p_is_dir.
  destruct (test_run true (path_of P) (fun n => match n with Dir _ _ => true | _ => false end) w N) as (w1 & S1 & E1).
  rewrite (walk_of _ _ _ _ _ G Gn) in E1 by discriminate. rewrite E1. clear E1.
  apply (no_fault_same _ _ S1) in N. destruct S1 as (F1 & C1 & _). rewrite <- F1 in G, Gn. rewrite <- F1, <- C1 in D. rewrite <- C1 in B, NE. clear w F1 C1. rename w1 into w.
  unfold bind at 1. unfold p_is_symlink at 1.
  destruct (test_run false (path_of P) (fun n => match n with Link _ => true | _ => false end) w N) as (w1 & S1 & E1).
  rewrite (walk_of _ _ _ _ _ G Gn) in E1 by discriminate. rewrite E1. clear E1.
  apply (no_fault_same _ _ S1) in N. destruct S1 as (F1 & C1 & _). rewrite <- F1 in G, Gn. rewrite <- F1, <- C1 in D. rewrite <- C1 in B, NE. clear w F1 C1. rename w1 into w.
  unfold bind at 1. destruct (listdir_of w P xs es N G Gn) as (w1 & E1 & S1). rewrite E1. clear E1.
  apply (no_fault_same _ _ S1) in N. destruct S1 as (F1 & C1 & _). rewrite <- F1 in G, Gn. rewrite <- F1, <- C1 in D. rewrite <- C1 in B, NE. clear w F1 C1. rename w1 into w.
  enough (L : exists w4, each (fun x => let q := child (path_of P) x in
                let! l <- p_is_symlink q ; if l then sys_unlink q else rm_rec fuel ig false q) (map fst es) w = (Err WillNotRemovePathError, w4)).
  { destruct L as (w4 & L). exists w4. unfold bind at 1. cbn zeta in L. cbn zeta. now rewrite L. }
  cbn [depth] in Dn.
  assert (Dc : forall x c, In (x, c) es -> (S (depth c) <= fuel)%nat).
  { intros x c Hx. enough (depth c <= fold_right (fun e m => Nat.max (depth (snd e)) m) 0 es)%nat by lia.
    clear Dn Gn. induction es as [|[y d] es IHe]; [destruct Hx|]. cbn [fold_right snd].
    destruct Hx as [Hx|Hx]; [injection Hx as -> ->; lia|]. apply IHe in Hx. lia. }
  clear Dn. revert w N G D B NE Gn. induction es as [|[x c] es IHe]; intros w N G D B NE Gn.
  - exfalso. destruct B as (r & E). destruct r as [|x r]; [rewrite app_nil_r in E; congruence|]. destruct D as (ys & D). rewrite E in D.
    apply look_dir in D as (es & D). rewrite get_app, Gn in D. discriminate.
  - cbn [map fst each]. unfold bind at 1. unfold bind at 1. cbn zeta.
    change (child (path_of P) x) with (path_of (P ++ [x])).
    assert (Gc : get (w_fs w) (P ++ [x]) = Some c).
    { rewrite get_snoc, Gn, entry_cons, str_eqb_refl. reflexivity. }
    pose proof (Dc x c (or_introl eq_refl)) as Dx.
    unfold p_is_symlink at 1.
    destruct (test_run false (path_of (P ++ [x])) (fun n => match n with Link _ => true | _ => false end) w N) as (w0 & S0 & E0).
    rewrite (walk_of _ _ _ _ _ G Gc) in E0 by discriminate. rewrite E0. clear E0.
    apply (no_fault_same _ _ S0) in N. destruct S0 as (F0 & C0 & _). rewrite <- F0 in G, Gn, Gc. rewrite <- F0, <- C0 in D. rewrite <- C0 in B, NE. clear w F0 C0. rename w0 into w.
    destruct (below_dec (P ++ [x]) (w_cwd w)) as [Bx|Bx].
    + assert (K : match c with Link _ => true | _ => false end = false).
      { destruct c as [| |t]; try reflexivity. exfalso. destruct D as (ys & D). apply look_dir in D as (es' & D).
        destruct Bx as (r & E). rewrite E, get_app, Gc in D. destruct r; discriminate. }
      rewrite K. unfold rm_rec. destruct fuel as [|f]; [lia|].
      destruct (IH f (Nat.lt_succ_diag_r f) w (P ++ [x]) c N G D Bx Gc) as (w1 & E1); [lia|]. rewrite E1. now eexists.
    + assert (Al : allowed false w (P ++ [x])).
      { right. rewrite app_length. cbn [length]. repeat split; try assumption; lia. }
      assert (Step : exists w1, (if match c with Link _ => true | _ => false end then sys_unlink (path_of (P ++ [x])) else rm_rec fuel ig false (path_of (P ++ [x]))) w
        = (Ok tt, w1) /\ removes (P ++ [x]) w w1).
      { assert (K : (exists t, c = Link t) \/ (forall t, c <> Link t)) by (destruct c; [right|right|left; now eexists]; discriminate).
        destruct K as [(t & ->)|K].
        - destruct (unlink_of w _ (Link t) N G Gc) as (w1 & E1 & (Ch1 & Ch2 & Ch3 & Ch4)); [discriminate|].
          exists w1. split; [exact E1|]. unfold removes. rewrite Ch1, Ch2, Ch4. auto.
        - destruct fuel as [|f]; [lia|].
          destruct (rm_complete ig false f w (P ++ [x]) c N G) as (w1 & E1 & R1);
            [now destruct P|assumption|assumption|lia|assumption|].
          exists w1. split; [|exact R1]. destruct c; [exact E1|exact E1|now elim (K target)]. }
      destruct Step as (w1 & E1 & (R1 & R2 & R3)). rewrite E1. clear E1.
      apply IHe.
      * intros y d Hy. apply (Dc y). now right.
      * intro t. rewrite R3. apply N.
      * rewrite R1. now apply good_fs_del.
      * rewrite R1, R2. destruct D as (ys & D). exists ys. now rewrite look_del_other.
      * now rewrite R2.
      * now rewrite R2.
      * rewrite R1, (get_del_above _ P x []), Gn. cbn [option_map del]. f_equal. f_equal. unfold del_entry. cbn [filter fst].
        rewrite str_eqb_refl. cbn [negb].
        assert (X : ~ In x (map fst es)).
        { pose proof (good_get P _ _ (proj1 G) Gn) as GD. inversion GD as [| |? ? ND _ _]; subst. now inversion ND. }
        clear - X. induction es as [|[y d] es IH]; [reflexivity|]. cbn [filter fst]. destruct (str_eqb y x) eqn:E.
        -- apply str_eqb_eq in E. exfalso. apply X. now left.
        -- cbn [negb]. rewrite IH; [reflexivity|]. intro K. apply X. now right.
Qed.

Lemma rmtree_cwd_raises fs cwd fault ig dz R : good_fs fs -> (forall t, fault t = None) -> is_dir_at fs cwd -> below R cwd ->
  dz <> ABool true -> fst (p_rmtree ig dz (path_of R) (start fs cwd fault)) = Err WillNotRemovePathError.
Proof.
  intros G N D B Dz. unfold p_rmtree. assert (E : is_True dz = false) by (destruct dz as [[]|]; cbn; congruence). rewrite E.
  assert (X : exists n, get fs R = Some n).
  { destruct D as (xs & D). apply look_dir in D as (es & D). eapply get_below; eassumption. }
  destruct X as (n & Gn).
  destruct (rm_cwd_raises ig (depth (w_fs (start fs cwd fault))) (start fs cwd fault) R n) as (w' & K); try assumption.
  - now apply depth_get in Gn.
  - now rewrite K.
Qed.

Lemma rmtree_keeps_cwd fs cwd fault ig dz R r w' : good_fs fs -> honest fault -> is_dir_at fs cwd -> below R cwd ->
  is_True dz = false -> p_rmtree ig dz (path_of R) (start fs cwd fault) = (r, w') ->
  (forall s q, In s (states w') -> below cwd q \/ below q cwd -> look s q = look fs q) /\ (ig = false -> r <> Ok tt).
Proof.
  intros G Ho D B Dz H. pose proof H as H0. unfold p_rmtree in H. rewrite Dz in H.
  destruct (rm_cwd fs cwd fault G Ho D ig _ _ _ _ _ H) as [(I & _ & _ & Hh) _].
  - assert (I : inv fs (aside cwd) fs) by (intro q; split; auto). repeat split; auto; try apply I. now constructor.
  - assumption.
  - intros n Gn. cbn. now apply depth_get in Gn.
  - assert (A : forall s q, In s (states w') -> below cwd q \/ below q cwd -> look s q = look fs q).
    { intros s q Hs Bq. assert (NA : ~ aside cwd q) by (intros [X Y]; tauto).
      destruct Hs as [<-|Hs]; [now apply I|]. rewrite Forall_forall in Hh. now apply (Hh s Hs). }
    split; [exact A|]. intros -> ->. destruct (rmtree_gone _ _ _ _ _ _ G Ho H0) as (R' & L & K).
    assert (X : exists n, get fs R = Some n).
    { destruct D as (xs & D). apply look_dir in D as (es & D). eapply get_below; eassumption. }
    destruct X as (n & Gn). pose proof (walk_of fs cwd false R n G Gn ltac:(discriminate)) as W.
    assert (R' = R) as -> by (destruct L as (n' & L); rewrite W in L; now injection L).
    specialize (K cwd B). rewrite A in K; [|now left|left; apply below_refl]. destruct D as (xs & D). congruence.
Qed.

Lemma not_True dz : dz <> ABool true -> is_True dz = false.
Proof. destruct dz as [[]|v]; [congruence|reflexivity|reflexivity]. Qed.

Lemma rmtree_protected ig dz R w r w' : dz <> ABool true -> protected (w_cwd w) R ->
  p_rmtree ig dz (path_of R) w = (r, w') -> untouched w w' /\ r <> Ok tt /\
  (no_fault w -> is_dir_at (w_fs w) (w_cwd w) -> r = Err WillNotRemovePathError).
Proof.
  intros Dz P H. apply not_True in Dz.
  assert (T : (length (parts (path_of R)) <= 2)%nat \/ ((length (parts (path_of R)) <= 3)%nat /\ In $"home" (parts (path_of R))) ->
    untouched w w' /\ r <> Ok tt /\ (no_fault w -> is_dir_at (w_fs w) (w_cwd w) -> r = Err WillNotRemovePathError)).
  { intro K. rewrite rmtree_refuses in H; [|assumption|now right]. injection H as <- <-. now repeat split. }
  destruct P as [P|[(u & ->)| -> ]].
  - apply T. left. unfold path_of. rewrite parts_abs. cbn [length]. lia.
  - apply T. right. cbn. split; [lia|]. right. now left.
  - destruct (rmtree_refuses_cwd ig dz w Dz) as (A & B & C & D). rewrite H in A, B, C, D. cbn [fst snd] in *.
    repeat split; try assumption.
    clear - H Dz. unfold p_rmtree in H. rewrite rmtree_eq, Dz in H. unfold rmtree_guard, bind in H. cbn [path_of pp_abs negb] in H.
    destruct (Nat.leb _ 2); [now injection H as _ <-|]. destruct (_ && _)%bool; [now injection H as _ <-|].
    unfold sys_getcwd, ask in H. destruct (w_fault w (w_tick w)); [now injection H as _ <-|].
    destruct (get _ _) as [[]|]; try now injection H as _ <-. rewrite (proj2 (pp_eqb_eq _ _) eq_refl) in H. now injection H as _ <-.
Qed.
Lemma rmtree_refuses' ig dz p w : dz <> ABool true ->
  pp_abs p = false \/ (length (parts p) <= 2)%nat \/ ((length (parts p) <= 3)%nat /\ In $"home" (parts p)) ->
  p_rmtree ig dz p w = (Err WillNotRemovePathError, w).
Proof. intro D. apply rmtree_refuses. now apply not_True. Qed.
Lemma rmtree_keeps_cwd' fs cwd fault ig dz R r w' : good_fs fs -> honest fault -> is_dir_at fs cwd -> below R cwd ->
  dz <> ABool true -> p_rmtree ig dz (path_of R) (start fs cwd fault) = (r, w') ->
  (forall s q, In s (states w') -> below cwd q \/ below q cwd -> look s q = look fs q) /\ (ig = false -> r <> Ok tt).
Proof. intros G Ho D B Dz. apply rmtree_keeps_cwd; try assumption. now apply not_True. Qed.
Lemma rmtree_removes' fs cwd fault ig dz R n w' : good_fs fs -> (forall t, fault t = None) -> R <> [] ->
  look fs R = Some n -> (forall t, n <> ALink t) ->
  dz = ABool true \/ ((2 <= length R)%nat /\ ~ (length R = 2%nat /\ In $"home" R) /\ is_dir_at fs cwd /\ ~ below R cwd) ->
  snd (p_rmtree ig dz (path_of R) (start fs cwd fault)) = w' ->
  fst (p_rmtree ig dz (path_of R) (start fs cwd fault)) = Ok tt /\
  (forall q, look (w_fs w') q = if is_prefix R q then None else look fs q) /\ w_fs w' = del fs R.
Proof.
  intros G N NR L NL Al E. unfold look in L. destruct (get fs R) as [m|] eqn:Gm; [|discriminate].
  destruct (rmtree_removes fs cwd fault ig dz R m w') as [A B]; try assumption.
  - intros t ->. injection L as <-. now apply (NL t).
  - destruct Al as [->|Al]; [now left|now right].
  - split; [assumption|]. split; [|assumption]. intro q. rewrite B. destruct (is_prefix R q) eqn:P.
    + apply is_prefix_spec in P. now apply look_del_below.
    + apply look_del_other. rewrite <- is_prefix_spec. congruence.
Qed.
