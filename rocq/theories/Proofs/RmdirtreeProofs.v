(** * Proofs about rmdirtree *)
From Coq Require Import String NArith ZArith Bool List Lia.
From Verif Require Import Model.Py Model.PurePath Model.Fs Model.PathOps Model.Rmdirtree Spec.FsSpec Spec.LoopSpec
  Spec.RmdirtreeSpec Proofs.PyLemmas Proofs.FsLemmas Proofs.RunLemmas Proofs.RmtreeProofs.
Import ListNotations.

(** ** Inversion *)
Lemma or_else_inv {A} (m : M A) d w r w' : or_else m d w = (r, w') ->
  (m w = (r, w') /\ forall e, r <> Err (OSErr e)) \/ (r = Ok d /\ exists e, m w = (Err (OSErr e), w')).
Proof.
  unfold or_else. intro H. apply catch_inv in H as [(a & H & ->)|(e & w1 & H & K)]; [left; now split|].
  destruct e; try (injection K as <- <-; left; split; [exact H|discriminate]). injection K as <- <-. right. split; [reflexivity|now exists e].
Qed.
Lemma lookup_err follow p fs cwd e : lookup follow p fs cwd = Err e -> exists n, e = OSErr n.
Proof. unfold lookup, fail. destruct (walk _ _ _ _); intro H; [discriminate|injection H as <-|injection H as <-]; now eexists. Qed.

(** what a list of entries says *)
Definition into_of (l : list (str * dtype)) : list str :=
  map fst (filter (fun e => match snd e with DT_DIR => true | _ => false end) l).

Lemma isdir_inv p w r w' : or_else (let! n <- sys_stat true p ; ret (match n with Dir _ _ => true | _ => false end)) false w = (r, w') ->
  same w w' /\ match r with Ok _ => True | Err e => exists t, w_fault w t = Some e end.
Proof.
  intro H. apply or_else_inv in H as [[H K]|(-> & e & H)].
  - apply bind_inv in H as [(n & w2 & Hn & E)|(e & Hn & ->)].
    + injection E as <- <-. apply ask_inv in Hn as [S _]. now split.
    + apply ask_inv in Hn as [S [E|(e' & E & Fl)]]; (split; [assumption|]).
      * destruct (lookup true p (w_fs w) (w_cwd w)) as [q|e'] eqn:L; [discriminate|]. apply lookup_err in L as (n & ->).
        cbn in E. injection E as ->. now elim (K n).
      * injection E as ->. eauto.
  - apply bind_inv in H as [(n & w2 & Hn & E)|(e' & Hn & _)]; [discriminate|]. apply ask_inv in Hn as [S _]. now split.
Qed.

(** how the entries are sorted into [ds] and [fs] *)
Definition splits (l : list (str * dtype)) (ds fs : list str) : Prop :=
  (forall x, In (x, DT_DIR) l -> In x ds) /\ (forall x k, In (x, k) l -> In x ds \/ In x fs) /\
  (forall x, In x ds -> exists k, In (x, k) l) /\ (forall x, In x fs -> exists k, In (x, k) l /\ k <> DT_DIR).

Lemma classify_inv new p l : forall w r w', classify new p l w = (r, w') -> same w w' /\
  match r with
  | Ok (ds, fs, into) => into = into_of l /\ splits l ds fs
  | Err e => (exists t, w_fault w t = Some e)
  end.
Proof.
  induction l as [|[x k] l IH]; intros w r w' H.
  - injection H as <- <-. split; [apply same_refl|]. split; [reflexivity|]. split; [|split; [|split]]; intros; contradiction.
  - cbn [classify] in H.
    assert (Kd : forall r1 w1, (match k with
                | DT_DIR => ret true
                | DT_REG => ret false
                | DT_LNK => if new then ret false
                            else or_else (let! n <- sys_stat true (child p x) ;
                                          ret (match n with Dir _ _ => true | _ => false end)) false
                end) w = (r1, w1) -> same w w1 /\ match r1 with Ok d => (k = DT_DIR -> d = true) /\ (k = DT_REG -> d = false) | Err e => exists t, w_fault w t = Some e end).
    { intros r1 w1 Hd. destruct k; [injection Hd as <- <-; now repeat split|injection Hd as <- <-; now repeat split|].
      destruct new; [injection Hd as <- <-; now repeat split|].
      apply isdir_inv in Hd as [S K]. split; [assumption|]. destruct r1; [now split|assumption]. }
    apply bind_inv in H as [(d & w1 & Hd & H)|(e & Hd & ->)]; apply Kd in Hd as [S Sd]; clear Kd.
    + apply bind_inv in H as [([[ds fs] into] & w2 & H2 & H)|(e & H2 & ->)].
      * apply IH in H2 as [S2 [-> (A1 & A2 & A3 & A4)]]. injection H as <- <-. split; [now apply (same_trans _ w1)|].
        destruct Sd as [Sd1 Sd2].
        assert (X : splits ((x, k) :: l) (if d then x :: ds else ds) (if d then fs else x :: fs)).
        { split; [|split; [|split]].
          - intros y [E|E]; [injection E as <- ->; rewrite (Sd1 eq_refl); now left|]. apply A1 in E. destruct d; [now right|assumption].
          - intros y k' [E|E]; [injection E as <- <-; destruct d; [left; now left|right; now left]|].
            apply A2 in E as [E|E]; destruct d; [left; now right|now left|now right|right; now right].
          - intros y Hy. destruct d; [destruct Hy as [<-|Hy]; [exists k; now left|]|]; apply A3 in Hy as (k' & Hy); exists k'; now right.
          - intros y Hy. destruct d; [|destruct Hy as [<-|Hy]; [exists k; split; [now left|intros ->; now specialize (Sd1 eq_refl)]|]];
              apply A4 in Hy as (k' & Hy & Nk); exists k'; (split; [now right|assumption]). }
        assert (Y : into_of ((x, k) :: l) = match k with DT_DIR => x :: into_of l | _ => into_of l end) by (unfold into_of; cbn [filter snd]; now destruct k).
        rewrite Y. destruct d; [|destruct k; [|now specialize (Sd1 eq_refl)|]]; now split.
      * apply IH in H2 as [S2 (t & Ht)]. split; [now apply (same_trans _ w1)|]. exists t. destruct S as (_ & _ & _ & <-). assumption.
    + now split.
Qed.

Definition entries (es : list (str * node)) : list (str * dtype) := map (fun e => (fst e, dtype_of (snd e))) es.

Lemma scan_inv new p w r w' : scan new p w = (r, w') -> same w w' /\
  match r with
  | Ok None => True
  | Ok (Some (ds, fs, into)) => exists P xs es, walk (w_fs w) (w_cwd w) true p = Found P (Dir xs es) /\ into = into_of (entries es) /\
      splits (entries es) ds fs
  | Err e => exists t, w_fault w t = Some e
  end.
Proof.
  unfold scan. intro H. apply bind_inv in H as [([l|] & w1 & Hl & H)|(e & Hl & ->)].
  - apply or_else_inv in Hl as [[Hl _]|(K & _)]; [|discriminate].
    apply bind_inv in Hl as [(l' & w2 & Hl & E)|(e & Hl & E)]; [|discriminate]. injection E as -> <-.
    apply ask_inv in Hl as [S [E|(e & E & _)]]; [|discriminate].
    unfold lookup, fail in E. destruct (walk (w_fs w) (w_cwd w) true p) as [P n|d x|er]; try discriminate. cbn in E.
    destruct n as [d x|xs es|t]; try discriminate. apply Ok_inj in E.
    apply bind_inv in H as [([[ds fs] into] & w3 & H2 & H)|(e & H2 & ->)].
    + apply classify_inv in H2 as [S2 [-> Sp]]. injection H as <- <-. split; [now apply (same_trans _ w2)|]. exists P, xs, es. rewrite E in *. now repeat split; try apply Sp.
    + apply classify_inv in H2 as [S2 (t & K)]. split; [now apply (same_trans _ w2)|]. exists t. destruct S as (_ & _ & _ & <-). assumption.
  - injection H as <- <-. split; [|exact Logic.I]. apply or_else_inv in Hl as [[Hl _]|(_ & e & Hl)].
    + apply bind_inv in Hl as [(l' & w2 & Hl & E)|(e & Hl & E)]; discriminate.
    + apply bind_inv in Hl as [(l' & w2 & Hl & E)|(e' & Hl & E)]; [discriminate|]. now apply ask_inv in Hl.
  - apply or_else_inv in Hl as [[Hl K]|(K & _)]; [|discriminate].
    apply bind_inv in Hl as [(l' & w2 & Hl & E)|(e' & Hl & E)]; [discriminate|]. injection E as <-.
    apply ask_inv in Hl as [S [E|(e2 & E & Fl)]]; (split; [assumption|]).
    + exfalso. unfold lookup, fail in E. destruct (walk (w_fs w) (w_cwd w) true p) as [P n|d x|er]; cbn in E; try (injection E as ->; now elim (K ENOENT)).
      * destruct n as [d x|xs es|t]; try discriminate; injection E as ->; now elim (K ENOTDIR).
      * injection E as ->. now elim (K er).
    + injection E as ->. eauto.
Qed.

Lemma rmdir_inv p w r w' : sys_rmdir p w = (r, w') ->
  match r with
  | Ok _ => exists P xs, walk (w_fs w) (w_cwd w) false p = Found P (Dir xs []) /\ P <> [] /\ changed (del (w_fs w) P) w w'
  | Err e => same w w' /\ ((exists n, e = OSErr n) \/ exists t, w_fault w t = Some e)
  end.
Proof.
  unfold sys_rmdir. intro H. apply sys_inv in H as [(e & -> & S & K)|(a & fs & -> & F & Ch)].
  - split; [assumption|]. destruct K as [K|K]; [left|right; eauto].
    unfold lookup, fail in K. destruct (pp_parts p) as [|x l].
    + destruct (pp_abs p); injection K as <-; now eexists.
    + destruct (str_eqb _ _); [injection K as <-; now eexists|].
      destruct (walk (w_fs w) (w_cwd w) false p) as [P n|d y|er]; cbn in K; try (injection K as <-; now eexists).
      destruct n as [d y|y [|z es]|t]; try (injection K as <-; now eexists).
      destruct P; [injection K as <-; now eexists|discriminate].
  - destruct (pp_parts p) as [|x l]; [destruct (pp_abs p); discriminate|].
    destruct (str_eqb _ _); [discriminate|]. unfold lookup, fail in F.
    destruct (walk (w_fs w) (w_cwd w) false p) as [P n|d y|e]; cbn in F; try discriminate.
    destruct n as [d y|y [|z es]|t]; try discriminate. destruct P; [discriminate|]. injection F as _ <-.
    exists (s :: P), y. split; [reflexivity|]. split; [discriminate|assumption].
Qed.

(** ** Only what has no files below it vanishes *)
Section Safe.
Variable fs0 : node.
Variable cwd : place.
Variable fault : nat -> option exn.
Variable Zn : place -> Prop.
Hypothesis Zn_below : forall q q', Zn q -> below q q' -> Zn q'.
Hypothesis G0 : good_fs fs0.
Hypothesis Ho : honest fault.

Definition kept (fs : node) : Prop :=
  forall q, look fs q = look fs0 q \/ (look fs q = None /\ Zn q /\ dirs_only fs0 q).
Definition okd (w : world) : Prop :=
  kept (w_fs w) /\ w_cwd w = cwd /\ w_fault w = fault /\ Forall kept (w_hist w) /\ good_fs (w_fs w).

Lemma kept_pruned fs : kept fs -> pruned fs0 fs.
Proof. intros H q. destruct (H q) as [E|(E & _)]; auto. Qed.
Lemma okd_same w w' : same w w' -> okd w -> okd w'.
Proof. intros (A & B & C & D) (E & F & G & H). unfold okd. rewrite A, B, C, D. auto. Qed.

Lemma kept_del fs P xs : kept fs -> Zn P -> P <> [] -> get fs P = Some (Dir xs []) -> kept (del fs P).
Proof.
  intros H B N E q. destruct (below_dec P q) as [Bq|Bq]; [|rewrite look_del_other by assumption; apply H].
  rewrite look_del_below by assumption.
  assert (LP : look fs P = Some (ADir xs)) by (apply look_dir; eauto).
  assert (Sub : forall r, below P r -> r <> P -> look fs r = None).
  { intros r (t & ->) NE. destruct t as [|x t]; [rewrite app_nil_r in NE; congruence|]. apply look_none.
    rewrite get_app, E. reflexivity. }
  assert (D : is_dir_at fs0 P).
  { destruct (H P) as [X|(X & _)]; [exists xs; congruence|congruence]. }
  assert (All : forall r, below P r -> look fs0 r = None \/ is_dir_at fs0 r).
  { intros r Br. destruct (place_dec r P) as [->|NE]; [now right|]. destruct (H r) as [X|(_ & _ & [X _])]; [|now right].
    left. rewrite <- X. now apply Sub. }
  destruct (All q Bq) as [X|X]; [now left|right]. split; [reflexivity|]. split; [now apply (Zn_below P)|].
  split; [assumption|]. intros r Br. apply All. now apply (below_trans _ q).
Qed.

Definition under (p : ppath) : Prop := forall P n, walk fs0 cwd false p = Found P n -> Zn P.
Definition fuels (fuel : nat) (p : ppath) : Prop := forall P n, walk fs0 cwd false p = Found P n -> (depth n <= fuel)%nat.

Lemma fault_t t e : fault t = Some e -> tame e.
Proof. intro H. apply Ho in H as [->|(n & -> & _)]; [now left|right; now exists n]. Qed.

Lemma rmdir_safe p w r w' : sys_rmdir p w = (r, w') -> okd w -> under p -> okd w' /\ match r with Ok _ => True | Err e => tame e end.
Proof.
  intros H O U. apply rmdir_inv in H. destruct r as [a|e].
  - destruct H as (P & xs & W & N & (A & B & C & D)). destruct O as (E & F & G & H & I). rewrite F in W.
    assert (BP : Zn P).
    { unfold walk in W. destruct (walk_pruned fs0 (w_fs w) false max_links (kept_pruned _ E) _ _ _ _ W) as (n0 & W0). exact (U _ _ W0). }
    pose proof (walk_found_get _ _ _ _ _ _ _ W) as Gd.
    pose proof (kept_del _ _ _ E BP N Gd) as K. split; [|exact Logic.I].
    unfold okd. rewrite A, B, C, D. split; [assumption|]. split; [assumption|]. split; [assumption|]. split; [now constructor|now apply good_fs_del].
  - destruct H as [S K]. split; [now apply (okd_same w)|]. destruct K as [(n & ->)|(t & K)]; [right; now exists n|].
    destruct O as (_ & _ & Hf & _). rewrite Hf in K. now apply fault_t in K.
Qed.

(** [p] does not lead to a link *)
Definition no_link (p : ppath) : Prop := forall P t, walk fs0 cwd false p <> Found P (Link t).

Lemma scan_safe new p w r w' : scan new p w = (r, w') -> okd w -> no_link p -> okd w' /\
  match r with
  | Ok None => True
  | Ok (Some (_, _, into)) => exists P xs es, walk fs0 cwd false p = Found P (Dir xs es) /\ walk fs0 cwd true p = Found P (Dir xs es) /\
      forall x, In x into -> good_name x /\ exists c, entry x es = Some c /\ forall t, c <> Link t
  | Err e => tame e
  end.
Proof.
  intros H O NL. apply scan_inv in H as [S K]. split; [now apply (okd_same w)|].
  destruct r as [[[[ds fs] into]|]|e]; [|exact Logic.I|].
  - destruct K as (P & xs & es & W & -> & _). destruct O as (E & Hc & _ & _ & Gw). rewrite Hc in W.
    pose proof (kept_pruned _ E) as Pr.
    destruct (walk_pruned fs0 (w_fs w) true max_links Pr _ _ _ _ W) as (n0 & W0).
    destruct (walk_follow _ _ _ _ _ _ W0) as (P' & n' & W').
    assert (N' : forall t, n' <> Link t) by (intros t ->; exact (NL _ _ W')).
    pose proof (walk_nofollow _ _ _ _ _ _ W' N') as W2. rewrite W0 in W2. injection W2 as <- <-.
    pose proof (walk_found_get _ _ _ _ _ _ _ W0) as G1. pose proof (walk_found_get _ _ _ _ _ _ _ W) as Gd.
    assert (LP : look fs0 P = Some (ADir xs)).
    { destruct (Pr P) as [X|X]; [rewrite <- X; apply look_dir; eauto|]. apply look_none in X. congruence. }
    apply look_dir in LP as (es0 & LP). rewrite G1 in LP. injection LP as ->.
    exists P, xs, es0. split; [exact W'|]. split; [exact W0|]. intros x Hx.
    unfold into_of, entries in Hx. apply in_map_iff in Hx as ([y k] & E1 & Hx). cbn in E1. subst y. apply filter_In in Hx as [Hx Hk].
    cbn in Hk. destruct k; try discriminate. apply in_map_iff in Hx as ([y c] & E1 & Hx). cbn in E1. injection E1 as -> Ec.
    assert (Ec' : entry x es = Some c).
    { apply entry_In_nodup; [|assumption]. pose proof (good_get _ _ _ (proj1 Gw) Gd) as GD. now inversion GD. }
    assert (Lx : exists ys, look (w_fs w) (P ++ [x]) = Some (ADir ys)).
    { unfold look. rewrite get_snoc, Gd, Ec'. destruct c; try discriminate. now eexists. }
    destruct Lx as (ys & Lx). destruct (Pr (P ++ [x])) as [X|X]; [|congruence]. rewrite X in Lx.
    apply look_dir in Lx as (fs' & Gx).
    split; [pose proof (good_names _ _ _ (proj1 G0) Gx) as FF; apply Forall_app in FF as [_ FF]; now inversion FF|].
    rewrite get_snoc, G1 in Gx. exists (Dir ys fs'). split; [assumption|discriminate].
  - destruct K as (t & K). destruct O as (_ & _ & Hf & _). rewrite Hf in K. now apply fault_t in K.
Qed.

Lemma visit_safe p ds fs d w r w' : visit p ds fs d w = (r, w') -> okd w -> under p -> okd w' /\ match r with Ok _ => True | Err e => tame e end.
Proof.
  unfold visit. destruct (check_subs p ds d []) as [h sps]. intros H O U.
  assert (D : forall X : M (list ppath), X = ret d -> X w = (r, w') -> okd w' /\ match r with Ok _ => True | Err e => tame e end).
  { intros X -> E. injection E as <- <-. now split. }
  destruct fs; [|now apply (D _ eq_refl)]. destruct h; [now apply (D _ eq_refl)|]. clear D.
  apply bind_inv in H as [(u & w1 & H & K)|(e & H & ->)].
  - apply rmdir_safe in H as [O1 _]; try assumption. injection K as <- <-. now split.
  - now apply rmdir_safe in H.
Qed.

Lemma each_del_safe (f : str -> list ppath -> M (list ppath)) l : forall d w r w', each_del f l d w = (r, w') -> okd w ->
  (forall x d w r w', In x l -> okd w -> f x d w = (r, w') -> okd w' /\ match r with Ok _ => True | Err e => tame e end) ->
  okd w' /\ match r with Ok _ => True | Err e => tame e end.
Proof.
  induction l as [|x l IH]; intros d w r w' H O K.
  - injection H as <- <-. now split.
  - cbn [each_del] in H. apply bind_inv in H as [(d1 & w1 & H1 & H2)|(e & H1 & ->)].
    + destruct (K x d w (Ok d1) w1 (or_introl eq_refl) O H1) as [O1 _].
      apply (IH d1 w1 r w' H2 O1). intros y e v s v' Hy. apply K. now right.
    + exact (K x d w (Err e) w' (or_introl eq_refl) O H1).
Qed.

Lemma walk_up_safe new : forall fuel p d w r w', walk_up fuel new p d w = (r, w') -> okd w -> under p -> no_link p -> fuels fuel p ->
  okd w' /\ match r with Ok _ => True | Err e => tame e end.
Proof.
  induction fuel as [fuel IH] using (well_founded_induction Wf_nat.lt_wf). intros p d w r w' H O U NL Fu.
  assert (E : walk_up fuel new p d w = bind (scan new p) (fun s => match s with
    | None => ret d
    | Some (subs, files, into) =>
        let! d <- each_del (fun x d => match fuel with O => raise OutOfFuel | S f => walk_up f new (child p x) d end) into d ;
        visit p subs files d end) w) by now destruct fuel.
  rewrite E in H. clear E.
  apply bind_inv in H as [(s & w1 & Hs & H)|(e & Hs & ->)]; apply scan_safe in Hs as [O1 K]; try assumption; [|now split].
  destruct s as [[[ds fs] into]|]; [|injection H as <- <-; now split].
  destruct K as (P & xs & es & W & Wf & Sub).
  assert (Each : forall x d w r w', In x into -> okd w ->
    match fuel with O => raise OutOfFuel | S f => walk_up f new (child p x) d end w = (r, w') ->
    okd w' /\ match r with Ok _ => True | Err e => tame e end).
  { intros x d' v s v' Hx Ov Hv. destruct (Sub x Hx) as (Nx & c & Ec & Lc). pose proof (Fu _ _ W) as Dn.
    pose proof (depth_entry xs es x c Ec) as Dx. destruct fuel as [|f]; [lia|]. destruct Nx as (_ & Nx2 & Nx3 & _).
    assert (Where : forall P' m, walk fs0 cwd false (child p x) = Found P' m -> P' = P ++ [x] /\ m = c).
    { intros P' m Wm. pose proof (walk_found_get _ _ _ _ _ _ _ Wm) as Gm. unfold walk, child in Wm. cbn [pp_abs pp_parts] in Wm.
      apply walk_snoc_found in Wm as (Q & ys & fs' & WQ & ->); try assumption.
      unfold walk in Wf. rewrite Wf in WQ. injection WQ as <- _ _. split; [reflexivity|].
      pose proof (walk_found_get _ _ _ _ _ _ _ W) as Gd. rewrite get_snoc, Gd, Ec in Gm. congruence. }
    apply (IH f (Nat.lt_succ_diag_r f) _ _ _ _ _ Hv Ov).
    - intros P' m Wm. destruct (Where _ _ Wm) as [-> _]. apply (Zn_below P); [exact (U _ _ W)|apply below_app].
    - intros P' t Wm. destruct (Where _ _ Wm) as [_ K]. now apply (Lc t).
    - intros P' m Wm. destruct (Where _ _ Wm) as [_ ->]. lia. }
  apply bind_inv in H as [(d1 & w2 & H2 & H)|(e & H2 & ->)].
  - apply each_del_safe in H2 as [O2 _]; [now apply visit_safe in H|assumption|exact Each].
  - apply each_del_safe in H2 as [O2 K2]; [now split|assumption|exact Each].
Qed.
End Safe.

Lemma rmdirtree_safe fs cwd fault new p r w' : good_fs fs -> honest fault ->
  p_rmdirtree new p (start fs cwd fault) = (r, w') ->
  (forall s q, In s (states w') -> look s q = look fs q \/
     (look s q = None /\ (exists R, leads fs cwd p R /\ below R q) /\ dirs_only fs q)) /\
  match r with Ok _ => True | Err e => tame e end.
Proof.
  intros G Ho H. unfold p_rmdirtree in H.
  assert (Triv : forall w', same (start fs cwd fault) w' -> forall s q, In s (states w') -> look s q = look fs q).
  { intros v (A & _ & B & _) s q. unfold states. rewrite A, B. intros [<-|[<-|[]]]; reflexivity. }
  apply bind_inv in H as [(l & w1 & Hl & H)|(e & Hl & ->)]; apply test_honest in Hl as [S T]; try assumption.
  2:{ split; [|exact T]. intros s q Hs. left. now apply (Triv w'). }
  destruct l; [injection H as <- <-; split; [|right; now eexists]; intros s q Hs; left; now apply (Triv w1)|].
  assert (O : okd fs cwd fault (zone_of fs cwd p) w1).
  { destruct S as (A1 & A2 & A3 & A4). unfold okd. rewrite A1, A2, A3, A4. cbn [start w_fs w_cwd w_fault w_hist].
    assert (Kf : kept fs (zone_of fs cwd p) fs) by (intro; now left). repeat split; try assumption; try apply G. now constructor. }
  assert (X : forall r w', walk_up (depth fs) new p [] w1 = (r, w') -> okd fs cwd fault (zone_of fs cwd p) w' /\ match r with Ok _ => True | Err e => tame e end).
  { intros r1 w2 H1. apply (walk_up_safe fs cwd fault (zone_of fs cwd p)) in H1; try assumption.
    - intros q q' (R & L & B) B'. exists R. split; [assumption|now apply (below_trans _ q)].
    - intros P n W. exists P. split; [now exists n|apply below_refl].
    - intros P t W. specialize (T _ _ W). discriminate.
    - intros P n W. apply walk_found_get in W. now apply depth_get in W. }
  assert (Y : okd fs cwd fault (zone_of fs cwd p) w' /\ match r with Ok _ => True | Err e => tame e end).
  { apply bind_inv in H as [(d & w2 & H & K)|(e & H & ->)].
    - injection K as <- <-. apply X in H as [H _]. now split.
    - now apply X in H. }
  destruct Y as [(E & _ & _ & Hh & _) Y]. split; [|assumption]. intros s q [<-|Hs]; [apply E|]. rewrite Forall_forall in Hh. now apply (Hh s Hs).
Qed.

(** ** Exactly these, when no call fails *)
Fixpoint prune (n : node) : option node :=
  match n with
  | Dir xs es =>
      match (fix go (es : list (str * node)) : list (str * node) :=
               match es with
               | [] => []
               | (x, c) :: r => match prune c with None => go r | Some c' => (x, c') :: go r end
               end) es with
      | [] => None
      | es' => Some (Dir xs es')
      end
  | _ => Some n
  end.
Fixpoint prunes (es : list (str * node)) : list (str * node) :=
  match es with
  | [] => []
  | (x, c) :: r => match prune c with None => prunes r | Some c' => (x, c') :: prunes r end
  end.
Lemma prune_dir xs es : prune (Dir xs es) = match prunes es with [] => None | es' => Some (Dir xs es') end.
Proof. reflexivity. Qed.

Lemma del_as_put : forall P n x xs es, get n P = Some (Dir xs es) -> del n (P ++ [x]) = put n P (Dir xs (del_entry x es)).
Proof.
  induction P as [|y P IH]; intros n x xs es H; [injection H as ->; reflexivity|]. cbn [get] in H.
  destruct n as [d z|z fs|t]; try discriminate. destruct (entry y fs) as [c|] eqn:E; [|discriminate].
  cbn [app del put]. destruct P as [|u P].
  - injection H as ->. cbn [app]. rewrite E. reflexivity.
  - cbn [app]. rewrite E. f_equal. f_equal. exact (IH c x xs es H).
Qed.
Lemma put_as_put : forall P n x v xs es, get n P = Some (Dir xs es) -> put n (P ++ [x]) v = put n P (Dir xs (set_entry x v es)).
Proof.
  induction P as [|y P IH]; intros n x v xs es H; [injection H as ->; reflexivity|]. cbn [get] in H.
  destruct n as [d z|z fs|t]; try discriminate. destruct (entry y fs) as [c|] eqn:E; [|discriminate].
  cbn [app put]. destruct P as [|u P].
  - injection H as ->. cbn [app]. rewrite E. reflexivity.
  - cbn [app]. rewrite E. f_equal. f_equal. exact (IH c x v xs es H).
Qed.
Lemma put_put : forall P n u v, put (put n P u) P v = put n P v.
Proof.
  induction P as [|y P IH]; intros n u v; [reflexivity|]. cbn [put]. destruct n as [d z|z fs|t]; try reflexivity.
  destruct P as [|q P]; [cbn [put]; now rewrite set_set_entry|]. destruct (entry y fs) as [c|] eqn:E.
  - rewrite entry_set, str_eqb_refl. rewrite set_set_entry. f_equal. f_equal. apply IH.
  - now rewrite E.
Qed.
Lemma set_same x c es : entry x es = Some c -> set_entry x c es = es.
Proof.
  induction es as [|[y d] es IH]; [discriminate|]. rewrite entry_cons. cbn [set_entry]. destruct (str_eqb y x) eqn:E; intro H.
  - injection H as ->. apply str_eqb_eq in E. now subst.
  - f_equal. now apply IH.
Qed.
Lemma put_same : forall P n v, get n P = Some v -> put n P v = n.
Proof.
  induction P as [|y P IH]; intros n v H; [injection H as ->; reflexivity|]. cbn [get] in H.
  destruct n as [d z|z fs|t]; try discriminate. destruct (entry y fs) as [c|] eqn:E; [|discriminate]. cbn [put].
  destruct P as [|u P]; [injection H as ->; now rewrite set_same|]. rewrite E. rewrite (IH c v H). now rewrite set_same.
Qed.
Lemma del_put : forall P n u, P <> [] -> del (put n P u) P = del n P.
Proof.
  induction P as [|y P IH]; intros n u N; [congruence|]. cbn [put]. destruct n as [d z|z fs|t]; try reflexivity.
  destruct P as [|q P]; [cbn [del]; now rewrite del_set_entry|]. cbn [del]. destruct (entry y fs) as [c|] eqn:E.
  - rewrite entry_set, str_eqb_refl, set_set_entry. f_equal. f_equal. now apply IH.
  - now rewrite E.
Qed.
Lemma get_put_same P n u v : get n P = Some v -> get (put n P u) P = Some u.
Proof.
  intro H. replace P with (P ++ []) at 2 by apply app_nil_r. rewrite get_put_below; [reflexivity|].
  destruct P as [|x P]; [exact Logic.I|]. rewrite (app_removelast_last [] (l := x :: P)) in H by discriminate.
  apply get_above in H. exact H.
Qed.

Lemma entry_mid done x c rest : ~ In x (map fst done) -> entry x (done ++ (x, c) :: rest) = Some c.
Proof.
  induction done as [|[y d] done IH]; intro H; cbn [app]; rewrite entry_cons; [now rewrite str_eqb_refl|].
  destruct (str_eqb y x) eqn:E; [apply str_eqb_eq in E; exfalso; apply H; now left|]. apply IH. intro K. apply H. now right.
Qed.
Lemma set_mid done x c v rest : ~ In x (map fst done) -> set_entry x v (done ++ (x, c) :: rest) = done ++ (x, v) :: rest.
Proof.
  induction done as [|[y d] done IH]; intro H; cbn [app set_entry]; [now rewrite str_eqb_refl|].
  destruct (str_eqb y x) eqn:E; [apply str_eqb_eq in E; exfalso; apply H; now left|]. rewrite IH; [reflexivity|]. intro K. apply H. now right.
Qed.
Lemma del_none x es : ~ In x (map fst es) -> del_entry x es = es.
Proof.
  unfold del_entry. induction es as [|[y d] es IH]; intro H; [reflexivity|]. cbn [filter fst].
  destruct (str_eqb y x) eqn:E; [apply str_eqb_eq in E; exfalso; apply H; now left|]. cbn [negb]. rewrite IH; [reflexivity|]. intro K. apply H. now right.
Qed.
Lemma del_mid done x c rest : ~ In x (map fst done) -> ~ In x (map fst rest) -> del_entry x (done ++ (x, c) :: rest) = done ++ rest.
Proof.
  intros H1 H2. unfold del_entry. rewrite filter_app. cbn [filter fst]. rewrite str_eqb_refl. cbn [negb].
  pose proof (del_none x done H1) as A. pose proof (del_none x rest H2) as B. unfold del_entry in A, B. now rewrite A, B.
Qed.

Lemma in_set_In p l : in_set p l = true <-> In p l.
Proof.
  unfold in_set. rewrite existsb_exists. split.
  - intros (x & H & E). apply pp_eqb_eq in E. now subst.
  - intro H. exists p. split; [assumption|now apply pp_eqb_eq].
Qed.

Lemma check_subs_false p deleted : forall subs sps, (forall x, In x subs -> In (child p x) deleted) ->
  exists sps', check_subs p subs deleted sps = (false, sps') /\
    forall q, In q sps' -> In q sps \/ exists x, In x subs /\ q = child p x.
Proof.
  induction subs as [|x subs IH]; intros sps H; cbn [check_subs].
  - exists sps. split; [reflexivity|auto].
  - rewrite (proj2 (in_set_In _ _) (H x (or_introl eq_refl))).
    destruct (IH (child p x :: sps)) as (sps' & E & K); [intros y Hy; apply H; now right|].
    exists sps'. split; [exact E|]. intros q Hq. destruct (K q Hq) as [[<-|Hq']|(y & Hy & ->)].
    + right. exists x. split; [now left|reflexivity].
    + now left.
    + right. exists y. split; [now right|reflexivity].
Qed.
Lemma check_subs_true p deleted : forall subs sps x, In x subs -> ~ In (child p x) deleted -> fst (check_subs p subs deleted sps) = true.
Proof.
  induction subs as [|y subs IH]; intros sps x H N; [destruct H|]. cbn [check_subs].
  destruct (in_set (child p y) deleted) eqn:E; [|reflexivity]. apply in_set_In in E. destruct H as [->|H]; [contradiction|]. now apply (IH _ x).
Qed.

Lemma snoc_below_diff P (x y : str) Q : x <> y -> below (P ++ [x]) Q -> ~ below (P ++ [y]) Q.
Proof.
  intros N (r & ->) (s & E). rewrite <- !app_assoc in E. apply app_inv_head in E. cbn in E. injection E as E _. congruence.
Qed.
Lemma below_snoc_self P x : ~ below (P ++ [x]) P.
Proof. intro H. apply below_len in H. rewrite app_length in H. cbn in H. lia. Qed.

Lemma prunes_nil es : prunes es = [] <-> forall x c, In (x, c) es -> prune c = None.
Proof.
  induction es as [|[y d] es IH]; cbn [prunes].
  - split; [intros _ x c []|reflexivity].
  - split.
    + intros H x c [E|E].
      * injection E as <- <-. destruct (prune d); [discriminate|reflexivity].
      * destruct (prune d); [discriminate|]. exact (proj1 IH H x c E).
    + intro H. rewrite (H y d (or_introl eq_refl)). apply IH. intros x c Hx. apply (H x). now right.
Qed.
Lemma prunes_cons es : prunes es <> [] -> exists x c, In (x, c) es /\ prune c <> None.
Proof.
  induction es as [|[y d] es IH]; cbn [prunes]; intro H; [congruence|]. destruct (prune d) eqn:E.
  - exists y, d. split; [now left|congruence].
  - destruct (IH H) as (x & c & Hx & K). exists x, c. split; [now right|assumption].
Qed.

Section Exact.
Variable new : bool.

Definition done_with (P : place) (n : node) (d : list ppath) (w : world) (d' : list ppath) (w' : world) : Prop :=
  w_fs w' = match prune n with None => del (w_fs w) P | Some n' => put (w_fs w) P n' end /\
  w_cwd w' = w_cwd w /\ w_fault w' = w_fault w /\ good_fs (w_fs w') /\
  (forall Q, ~ below P Q -> (In (path_of Q) d' <-> In (path_of Q) d)) /\ (In (path_of P) d' <-> prune n = None).

Lemma loop_exact (f : str -> list ppath -> M (list ppath)) P xs : P <> [] -> forall rest done w d,
  (forall x c w d, In (x, c) rest -> (exists ys fs, c = Dir ys fs) -> no_fault w -> good_fs (w_fs w) -> get (w_fs w) (P ++ [x]) = Some c ->
     (forall Q, below (P ++ [x]) Q -> ~ In (path_of Q) d) -> exists w' d', f x d w = (Ok d', w') /\ done_with (P ++ [x]) c d w d' w') ->
  no_fault w -> good_fs (w_fs w) -> get (w_fs w) P = Some (Dir xs (done ++ rest)) ->
  (forall x Q, In x (map fst rest) -> below (P ++ [x]) Q -> ~ In (path_of Q) d) ->
  exists w' d', each_del f (into_of (entries rest)) d w = (Ok d', w') /\
    w_fs w' = put (w_fs w) P (Dir xs (done ++ prunes rest)) /\ w_cwd w' = w_cwd w /\ w_fault w' = w_fault w /\ good_fs (w_fs w') /\
    (forall Q, (forall x, In x (map fst rest) -> ~ below (P ++ [x]) Q) -> (In (path_of Q) d' <-> In (path_of Q) d)) /\
    (forall x c, In (x, c) rest -> (In (path_of (P ++ [x])) d' <-> prune c = None)).
Proof.
  intros NP rest. induction rest as [|[x c] rest IH]; intros done w d Hf N G Gd Fr.
  - exists w, d. cbn [prunes]. rewrite put_same by assumption. repeat split; auto; try apply G; intros; contradiction.
  - assert (ND : NoDup (map fst (done ++ (x, c) :: rest))).
    { pose proof (good_get _ _ _ (proj1 G) Gd) as GD. now inversion GD. }
    rewrite map_app in ND. cbn [map fst] in ND. apply NoDup_remove in ND as [ND Nx]. rewrite in_app_iff in Nx.
    assert (Nx1 : ~ In x (map fst done)) by tauto. assert (Nx2 : ~ In x (map fst rest)) by tauto. clear Nx.
    assert (Hf' : forall y c w d, In (y, c) rest -> (exists ys fs, c = Dir ys fs) -> no_fault w -> good_fs (w_fs w) -> get (w_fs w) (P ++ [y]) = Some c ->
     (forall Q, below (P ++ [y]) Q -> ~ In (path_of Q) d) -> exists w' d', f y d w = (Ok d', w') /\ done_with (P ++ [y]) c d w d' w').
    { intros y c' w' d' Hy. apply Hf. now right. }
    assert (Self : forall y, In y (map fst rest) -> ~ below (P ++ [y]) (P ++ [x])).
    { intros y Hy K. apply (snoc_below_diff P y x (P ++ [x])); [congruence|assumption|apply below_refl]. }
    assert (Kc : (exists ys fs, c = Dir ys fs) \/ (prune c = Some c /\ into_of (entries ((x, c) :: rest)) = into_of (entries rest))).
    { destruct c; [right|left; now eexists _, _|right]; now split. }
    destruct Kc as [(ys & fs & ->)|[Pc Ei]].
    + change (into_of (entries ((x, Dir ys fs) :: rest))) with (x :: into_of (entries rest)).
      set (c := Dir ys fs) in *. cbn [each_del]. unfold bind at 1.
      assert (Gx : get (w_fs w) (P ++ [x]) = Some c) by (rewrite get_snoc, Gd; now apply entry_mid).
      destruct (Hf x c w d (or_introl eq_refl)) as (w1 & d1 & E1 & D1); [now exists ys, fs|assumption|assumption|assumption|intros Q BQ; apply (Fr x); [now left|assumption]|].
      rewrite E1. destruct D1 as (F1 & C1 & T1 & G1 & U1 & V1).
      assert (N1 : no_fault w1) by (intro t; rewrite T1; apply N).
      assert (Fr1 : forall y Q, In y (map fst rest) -> below (P ++ [y]) Q -> ~ In (path_of Q) d1).
      { intros y Q Hy BQ K. apply U1 in K; [|apply (snoc_below_diff P y x); [congruence|assumption]].
        apply (Fr y Q); [now right|assumption|assumption]. }
      assert (Go : exists done', w_fs w1 = put (w_fs w) P (Dir xs (done' ++ rest)) /\ done' ++ prunes rest = done ++ prunes ((x, c) :: rest)).
      { cbn [prunes]. destruct (prune c) as [c'|].
        - exists (done ++ [(x, c')]). rewrite F1, (put_as_put _ _ _ _ _ _ Gd), set_mid by assumption. now rewrite <- !app_assoc.
        - exists done. rewrite F1, (del_as_put _ _ _ _ _ Gd), del_mid by assumption. now split. }
      destruct Go as (done' & F1' & Eq). rewrite <- Eq.
      destruct (IH done' w1 d1 Hf' N1 G1) as (w' & d' & E' & F' & C' & T' & G' & U' & V'); [rewrite F1'; now apply (get_put_same _ _ _ _ Gd)|assumption|].
      exists w', d'. split; [exact E'|]. rewrite F', F1', put_put, C', T', C1, T1. split; [reflexivity|]. split; [reflexivity|]. split; [reflexivity|].
      split; [rewrite <- put_put with (u := Dir xs (done' ++ rest)), <- F1', <- F'; assumption|]. split.
      * intros Q K. rewrite U' by (intros y Hy; apply K; now right). apply U1. apply K. now left.
      * intros y c' [E|Hy]; [injection E as <- <-|now apply V']. rewrite (U' (P ++ [x]) Self). exact V1.
    + rewrite Ei. cbn [prunes]. rewrite Pc. replace (done ++ (x, c) :: prunes rest) with ((done ++ [(x, c)]) ++ prunes rest) by (now rewrite <- app_assoc).
      destruct (IH (done ++ [(x, c)]) w d Hf' N G) as (w' & d' & E' & F' & C' & T' & G' & U' & V'); [now rewrite <- app_assoc|intros y Q Hy; apply Fr; now right|].
      exists w', d'. split; [exact E'|]. split; [exact F'|]. split; [exact C'|]. split; [exact T'|]. split; [exact G'|]. split.
      * intros Q K. apply U'. intros y Hy. apply K. now right.
      * intros y c' [E|Hy]; [injection E as <- <-|now apply V']. rewrite (U' (P ++ [x]) Self), Pc. split; [|discriminate].
        intro K. exfalso. apply (Fr x (P ++ [x])); [now left|apply below_refl|assumption].
Qed.

Lemma scan_of w P xs es : no_fault w -> good_fs (w_fs w) -> get (w_fs w) P = Some (Dir xs es) ->
  exists w' ds fs, scan new (path_of P) w = (Ok (Some (ds, fs, into_of (entries es))), w') /\ same w w' /\ splits (entries es) ds fs.
Proof.
  intros N G Gd. destruct (scan new (path_of P) w) as [r w'] eqn:E. pose proof (scan_inv _ _ _ _ _ E) as [S K].
  exists w'. destruct r as [[[[ds fs] into]|]|e].
  - destruct K as (P' & xs' & es' & W & -> & Sp). rewrite (walk_of _ _ _ _ _ G Gd) in W by discriminate. injection W as <- <- <-.
    exists ds, fs. now repeat split; try apply S; try apply Sp.
  - exfalso. unfold scan in E.
    destruct (ask_ok (fun fs cwd => do r <- lookup true (path_of P) fs cwd ; match snd r with
                     | Dir _ es => Ok (map (fun e => (fst e, dtype_of (snd e))) es) | _ => fail ENOTDIR end) w (Ok (entries es)) N) as (w1 & E1 & _).
    { unfold lookup. now rewrite (walk_of _ _ _ _ _ G Gd) by discriminate. }
    unfold or_else, catch, bind, sys_scandir in E. rewrite E1 in E. cbn in E. destruct (classify new (path_of P) (entries es) w1) as [[a|e] w2]; discriminate.
  - destruct K as (t & K). rewrite N in K. discriminate.
Qed.

Lemma walk_up_exact : forall fuel w P xs es d, no_fault w -> good_fs (w_fs w) -> P <> [] -> get (w_fs w) P = Some (Dir xs es) ->
  (depth (Dir xs es) <= fuel)%nat -> (forall Q, below P Q -> ~ In (path_of Q) d) ->
  exists w' d', walk_up fuel new (path_of P) d w = (Ok d', w') /\ done_with P (Dir xs es) d w d' w'.
Proof.
  induction fuel as [fuel IHf] using (well_founded_induction Wf_nat.lt_wf). intros w P xs es d N G NP Gd Dn Fr.
  assert (E : forall w, walk_up fuel new (path_of P) d w = bind (scan new (path_of P)) (fun s => match s with
    | None => ret d
    | Some (subs, files, into) =>
        let! d <- each_del (fun x d => match fuel with O => raise OutOfFuel | S f => walk_up f new (child (path_of P) x) d end) into d ;
        visit (path_of P) subs files d end) w) by (intro v; now destruct fuel).
  rewrite E. clear E. unfold bind at 1. destruct (scan_of w P xs es N G Gd) as (w1 & ds & fs & E1 & S1 & Sp). rewrite E1. clear E1.
  unfold bind at 1. pose proof (no_fault_same _ _ S1 N) as N1. destruct S1 as (F1 & C1 & _ & T1).
  assert (G1 : good_fs (w_fs w1)) by now rewrite F1. assert (Gd1 : get (w_fs w1) P = Some (Dir xs ([] ++ es))) by now rewrite F1.
  destruct (loop_exact (fun x d => match fuel with O => raise OutOfFuel | S f => walk_up f new (child (path_of P) x) d end) P xs NP es [] w1 d)
    as (w2 & d2 & E2 & F2 & C2 & T2 & G2 & U2 & V2); try assumption.
  { intros x c v dv Hx (ys & fs' & ->) Nv Gv Gx Frv. assert (Dx : (S (depth (Dir ys fs')) <= fuel)%nat).
    { assert (Ex : entry x es = Some (Dir ys fs')).
      { apply entry_In_nodup; [|assumption]. pose proof (good_get _ _ _ (proj1 G) Gd) as GD. now inversion GD. }
      pose proof (depth_entry xs es x _ Ex). lia. }
    destruct fuel as [|f]; [lia|]. change (child (path_of P) x) with (path_of (P ++ [x])).
    apply IHf; try assumption; try lia. now destruct P. }
  { intros x Q Hx BQ. apply Fr. apply (below_trans _ (P ++ [x])); [apply below_app|assumption]. }
  rewrite E2. clear E2. cbn [app] in F2. rewrite F1 in F2. rewrite C1 in C2. rewrite T1 in T2.
  assert (N2 : no_fault w2) by (intro t; rewrite T2; apply N).
  assert (Gd2 : get (w_fs w2) P = Some (Dir xs (prunes es))) by (rewrite F2; now apply (get_put_same _ _ _ _ Gd)).
  assert (U2' : forall Q, ~ below P Q -> (In (path_of Q) d2 <-> In (path_of Q) d)).
  { intros Q K. apply U2. intros x _ B. apply K. apply (below_trans _ (P ++ [x])); [apply below_app|assumption]. }
  assert (Pd2 : ~ In (path_of P) d2).
  { rewrite U2 by (intros x _; apply below_snoc_self). apply Fr. apply below_refl. }
  destruct Sp as (A1 & A2 & A3 & A4).
  assert (Ent : forall x k, In (x, k) (entries es) -> exists c, In (x, c) es /\ k = dtype_of c).
  { intros x k H. unfold entries in H. apply in_map_iff in H as ([y c] & E & H). cbn in E. injection E as -> <-. now exists c. }
  unfold visit. unfold done_with. rewrite prune_dir. destruct (prunes es) as [|e0 el] eqn:Ep.
  - pose proof (proj1 (prunes_nil es) Ep) as All.
    assert (Hds : forall x, In x ds -> In (child (path_of P) x) d2).
    { intros x Hx. apply A3 in Hx as (k & Hx). apply Ent in Hx as (c & Hx & _). change (child (path_of P) x) with (path_of (P ++ [x])).
      apply (V2 x c Hx). now apply (All x). }
    destruct (check_subs_false (path_of P) d2 ds [] Hds) as (sps & Ec & Hsps). rewrite Ec.
    assert (Hfs : fs = []).
    { destruct fs as [|x fs]; [reflexivity|]. exfalso. destruct (A4 x (or_introl eq_refl)) as (k & Hx & Nk).
      apply Ent in Hx as (c & Hx & ->). pose proof (All x c Hx) as Kc. destruct c; try discriminate. now apply Nk. }
    rewrite Hfs. destruct (rmdir_of w2 P xs N2 G2 NP Gd2) as (w3 & E3 & (Ch1 & Ch2 & Ch3 & Ch4)).
    unfold bind. rewrite E3. eexists w3, _. split; [reflexivity|]. rewrite Ch1, Ch2, Ch4, C2, T2, F2. rewrite del_put by assumption.
    split; [reflexivity|]. split; [reflexivity|]. split; [reflexivity|]. split; [now apply good_fs_del|].
    assert (Nsp : forall Q, (Q = P \/ ~ below P Q) -> in_set (path_of Q) sps = false).
    { intros Q HQ. destruct (in_set (path_of Q) sps) eqn:I; [|reflexivity]. exfalso. apply in_set_In in I. apply Hsps in I as [[]|(x & Hx & I)].
      change (child (path_of P) x) with (path_of (P ++ [x])) in I. injection I as ->. destruct HQ as [HQ|HQ].
      - apply (below_snoc_self P x). rewrite HQ. apply below_refl.
      - apply HQ. apply below_app. }
    split.
    + intros Q K. rewrite filter_In. rewrite (Nsp Q (or_intror K)). cbn [negb]. split.
      * intros [[I|I] _]; [|now apply U2']. unfold path_of in I. injection I as <-. exfalso. apply K. apply below_refl.
      * intro I. split; [|reflexivity]. right. now apply U2'.
    + split; [reflexivity|]. intros _. apply filter_In. split; [now left|]. now rewrite (Nsp P (or_introl eq_refl)).
  - assert (Ex : match check_subs (path_of P) ds d2 [] with (h, _) => fs = [] -> h = true end).
    { assert (K : prunes es <> []) by congruence. apply prunes_cons in K as (x & c & Hx & K).
      assert (Hk : In (x, dtype_of c) (entries es)) by (unfold entries; apply in_map_iff; now exists (x, c)).
      destruct (check_subs (path_of P) ds d2 []) as [h sps] eqn:Ec. intros ->.
      apply A2 in Hk as [Hk|[]]. change h with (fst (h, sps)). rewrite <- Ec. apply (check_subs_true _ _ _ _ x Hk).
      change (child (path_of P) x) with (path_of (P ++ [x])). now rewrite (V2 x c Hx). }
    destruct (check_subs (path_of P) ds d2 []) as [h sps].
    exists w2, d2. split; [destruct fs; [rewrite (Ex eq_refl)|]; reflexivity|].
    split; [exact F2|]. split; [exact C2|]. split; [exact T2|]. split; [exact G2|]. split; [exact U2'|]. split; [contradiction|discriminate].
Qed.
End Exact.

(** What pruning removes. *)
Definition all_dirs (n : node) : Prop := forall r m, get n r = Some m -> exists xs es, m = Dir xs es.
Lemma prune_all : forall k n, (depth n <= k)%nat -> good n -> all_dirs n -> prune n = None.
Proof.
  induction k as [k IH] using (well_founded_induction Wf_nat.lt_wf). intros n D G A.
  destruct (A [] n eq_refl) as (xs & es & ->). rewrite prune_dir. inversion G as [| |? ? ND _ GC]; subst.
  assert (Z : prunes es = []); [|now rewrite Z]. apply prunes_nil. intros x c Hx.
  assert (Ex : entry x es = Some c) by now apply entry_In_nodup. pose proof (depth_entry xs es x c Ex) as Dx.
  apply (IH (depth c)); [lia|lia|now apply (GC x)|]. intros r m Gm. apply (A (x :: r)). cbn [get]. now rewrite Ex.
Qed.
Lemma entry_prunes x es : NoDup (map fst es) -> entry x (prunes es) = match entry x es with Some c => prune c | None => None end.
Proof.
  induction es as [|[y d] es IH]; intro ND; [reflexivity|]. cbn [map fst] in ND. inversion ND as [|? ? N1 N2]; subst.
  cbn [prunes]. rewrite entry_cons. destruct (str_eqb y x) eqn:E.
  - apply str_eqb_eq in E. subst. destruct (prune d); [rewrite entry_cons, str_eqb_refl; reflexivity|]. rewrite IH by assumption.
    now rewrite (proj2 (entry_none x es)).
  - destruct (prune d); [rewrite entry_cons, E|]; now apply IH.
Qed.
Lemma prune_gone : forall r n m n', good n -> get n r = Some m -> prune m = None -> prune n = Some n' -> get n' r = None.
Proof.
  induction r as [|x r IH]; intros n m n' G Gm Pm Pn; [injection Gm as ->; congruence|].
  destruct n as [d z|xs es|t]; try discriminate. cbn [get] in Gm. destruct (entry x es) as [c|] eqn:E; [|discriminate].
  inversion G as [| |? ? ND _ GC]; subst. rewrite prune_dir in Pn.
  assert (n' = Dir xs (prunes es)) as -> by (destruct (prunes es); [discriminate|congruence]).
  cbn [get]. rewrite entry_prunes, E by assumption. destruct (prune c) as [c'|] eqn:Pc; [|reflexivity].
  apply entry_In in E. exact (IH c m c' (GC x c E) Gm Pm Pc).
Qed.

Lemma dirs_only_prune fs q n : good_fs fs -> dirs_only fs q -> get fs q = Some n -> prune n = None.
Proof.
  intros [G _] [_ A] Gn. apply (prune_all (depth n)); [lia|now apply (good_get q fs)|]. intros r m Gm.
  assert (Gq : get fs (q ++ r) = Some m) by now rewrite get_app, Gn.
  destruct (A (q ++ r) (below_app q r)) as [K|(xs & K)]; [apply look_none in K; congruence|].
  apply look_dir in K as (es & K). rewrite Gq in K. injection K as ->. now eexists _, _.
Qed.

Lemma rmdirtree_exact fs cwd fault new R : good_fs fs -> (forall t, fault t = None) -> R <> [] -> is_dir_at fs R ->
  exists w', p_rmdirtree new (path_of R) (start fs cwd fault) = (Ok tt, w') /\ forall q,
    (below R q /\ dirs_only fs q -> look (w_fs w') q = None) /\ (~ (below R q /\ dirs_only fs q) -> look (w_fs w') q = look fs q).
Proof.
  intros G N NR (xs & D). apply look_dir in D as (es & Gd).
  assert (Nw : no_fault (start fs cwd fault)) by exact N.
  unfold p_rmdirtree. unfold bind at 1. unfold p_is_symlink.
  destruct (test_run false (path_of R) (fun n => match n with Link _ => true | _ => false end) (start fs cwd fault) Nw) as (w1 & S1 & E1).
  change (w_fs (start fs cwd fault)) with fs in E1. rewrite (walk_of _ _ _ _ _ G Gd) in E1 by discriminate. rewrite E1.
  pose proof (no_fault_same _ _ S1 Nw) as N1. destruct S1 as (F1 & C1 & H1 & T1). change (w_fs (start fs cwd fault)) with fs in *.
  destruct (walk_up_exact new (depth fs) w1 R xs es []) as (w' & d' & E & (F & _)); try assumption; try (rewrite F1; assumption).
  { now apply depth_get in Gd. }
  { intros Q _ []. }
  unfold bind. rewrite E. exists w'. split; [reflexivity|]. rewrite F1 in F.
  assert (Run : p_rmdirtree new (path_of R) (start fs cwd fault) = (Ok tt, w')).
  { unfold p_rmdirtree, bind, p_is_symlink. change (w_fs (start fs cwd fault)) with fs. now rewrite E1, E. }
  assert (Ho : honest fault) by (intros t e K; rewrite N in K; discriminate).
  destruct (rmdirtree_safe _ _ _ _ _ _ _ G Ho Run) as [Safe _].
  assert (L : leads fs cwd (path_of R) R) by (eexists; apply walk_of; [assumption|exact Gd|discriminate]).
  intro q. split.
  - intros [(r & ->) DO]. assert (exists n, get fs (R ++ r) = Some n) as (n & Gn).
    { destruct DO as [(ys & K) _]. apply look_dir in K as (es' & K). eauto. }
    pose proof (dirs_only_prune _ _ _ G DO Gn) as Pn. rewrite F. apply look_none. destruct (prune (Dir xs es)) as [n'|] eqn:Pr.
    + rewrite get_put_below.
      * rewrite get_app, Gd in Gn. apply (prune_gone r (Dir xs es) n); try assumption. now apply (good_get R fs); [apply G|].
      * destruct R as [|x R]; [exact Logic.I|]. rewrite (app_removelast_last [] (l := x :: R)) in Gd by discriminate. now apply get_above in Gd.
    + now apply get_del_below.
  - intro K. destruct (Safe (w_fs w') q (or_introl eq_refl)) as [X|(_ & (R' & L' & B) & DO)]; [assumption|].
    exfalso. apply K. split; [|assumption]. now rewrite (leads_fun _ _ _ _ _ L L').
Qed.

Lemma rmdirtree_link fs cwd fault new p R t : (forall t, fault t = None) -> leads fs cwd p R -> look fs R = Some (ALink t) ->
  exists w', p_rmdirtree new p (start fs cwd fault) = (Err (OSErr ENOTDIR), w') /\ w_fs w' = fs.
Proof.
  intros N (n & W) L. apply look_link in L. pose proof (walk_found_get _ _ _ _ _ _ _ W) as Gn. rewrite L in Gn. injection Gn as <-.
  unfold p_rmdirtree. unfold bind at 1. unfold p_is_symlink.
  destruct (test_run false p (fun n => match n with Link _ => true | _ => false end) (start fs cwd fault) N) as (w1 & S1 & E1).
  change (w_fs (start fs cwd fault)) with fs in E1. change (w_cwd (start fs cwd fault)) with cwd in E1. rewrite W in E1. rewrite E1.
  exists w1. split; [reflexivity|]. now destruct S1.
Qed.

Lemma walk_fail root follow b : forall cur comps e, walk_from root follow b cur comps = Fail e -> ignored (OSErr e) = true.
Proof.
  induction b as [|b IHb]; intros cur comps; revert cur; induction comps as [|c rest IH]; intros cur e H; rewrite walk_eq in H;
    destruct (get root cur) as [m|] eqn:G; try discriminate; try (injection H as <-; reflexivity);
    destruct m as [d xs|xs es|t]; try discriminate; try (injection H as <-; reflexivity);
    destruct (str_eqb c $"."); try (now apply IH in H); destruct (str_eqb c $".."); try (now apply IH in H);
    destruct (entry c es) as [[d' xs'|xs' es'|t']|] eqn:E; try (now apply IH in H);
    try (destruct rest; [discriminate|injection H as <-; reflexivity]).
  - destruct (match rest with [] => negb follow | _ => false end); [discriminate|]. injection H as <-. reflexivity.
  - destruct (match rest with [] => negb follow | _ => false end); [discriminate|]. destruct t' as [|a t'].
    + injection H as <-. reflexivity.
    + now apply IHb in H.
Qed.

Lemma rmdirtree_other fs cwd fault new p : (forall t, fault t = None) ->
  (forall q t, leads fs cwd p q -> look fs q <> Some (ALink t)) -> (forall q, leads fs cwd p q -> ~ is_dir_at fs q) ->
  exists w', p_rmdirtree new p (start fs cwd fault) = (Ok tt, w') /\ w_fs w' = fs.
Proof.
  intros N NL ND. unfold p_rmdirtree. unfold bind at 1. unfold p_is_symlink.
  destruct (test_run false p (fun n => match n with Link _ => true | _ => false end) (start fs cwd fault) N) as (w1 & S1 & E1).
  assert (K : match walk fs cwd false p with Found _ (Link _) | Found _ (Dir _ _) => False | _ => True end).
  { destruct (walk fs cwd false p) as [q n|d x|e] eqn:W; try exact Logic.I. pose proof (walk_found_get _ _ _ _ _ _ _ W) as Gn.
    assert (L : leads fs cwd p q) by now exists n. destruct n as [d z|z es|t]; [exact Logic.I| |].
    - apply (ND q L). exists z. apply look_dir. now exists es.
    - apply (NL q t L). now apply look_link. }
  change (w_fs (start fs cwd fault)) with fs in E1. change (w_cwd (start fs cwd fault)) with cwd in E1.
  assert (W : forall q xs es, walk fs cwd true p <> Found q (Dir xs es)).
  { intros q xs es W. destruct (walk fs cwd false p) as [q' n|d x|e] eqn:W'.
    - destruct n as [d z|z es'|t]; try contradiction. unfold walk in W, W'.
      pose proof (walk_nofollow _ _ _ _ _ _ W') as X. rewrite X in W by discriminate. discriminate.
    - unfold walk in W, W'. destruct (walk_follow _ _ _ _ _ _ W) as (a & b & X). congruence.
    - unfold walk in W, W'. destruct (walk_follow _ _ _ _ _ _ W) as (a & b & X). congruence. }
  assert (E : test (sys_stat false p) (fun n => match n with Link _ => true | _ => false end) (start fs cwd fault) = (Ok false, w1)).
  { rewrite E1. destruct (walk fs cwd false p) as [q' n|d x|e] eqn:W'.
    - destruct n; try contradiction; reflexivity.
    - reflexivity.
    - unfold walk in W'. now rewrite (walk_fail _ _ _ _ _ _ W'). }
  rewrite E. clear E E1. pose proof (no_fault_same _ _ S1 N) as N1. destruct S1 as (F1 & C1 & _).
  change (w_fs (start fs cwd fault)) with fs in *. change (w_cwd (start fs cwd fault)) with cwd in *.
  destruct (scan new p w1) as [r2 w2] eqn:E2. pose proof (scan_inv _ _ _ _ _ E2) as [S2 X].
  assert (r2 = Ok None) as ->.
  { destruct r2 as [[[[ds fl] into]|]|e]; [|reflexivity|].
    - destruct X as (P & xs & es & X & _). rewrite F1, C1 in X. now apply W in X.
    - destruct X as (t & X). rewrite N1 in X. discriminate. }
  exists w2. split; [|destruct S2 as (F2 & _); now rewrite F2, F1].
  unfold bind at 1. destruct (depth fs); cbn [walk_up]; unfold bind at 1; now rewrite E2.
Qed.
