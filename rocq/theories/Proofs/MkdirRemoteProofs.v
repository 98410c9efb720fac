(** * Making a directory on both sides: what can happen *)
From Coq Require Import String Strings.Byte NArith ZArith Bool List Lia.
From Verif Require Import Model.Py Model.PurePath Model.RelPath Model.Meta Model.MetaXattr Model.MetaUpdate Model.Fs Model.PathOps Model.Sparse Model.Cache Model.DataDir Model.MkdirRemote
  Spec.FsSpec Spec.LoopSpec Spec.DataDirSpec Spec.RelPathSpec Spec.CacheSpec Spec.MkdirCacheSpec Spec.AnchorSpec Spec.MkdirRemoteSpec
  Proofs.PyLemmas Proofs.PathLemmas Proofs.FsLemmas Proofs.RunLemmas Proofs.RmtreeProofs Proofs.MoveLemmas Proofs.CopyProofs Proofs.LoopProofs Proofs.Hoare
  Proofs.SparseProofs Proofs.CacheLemmas Proofs.DataDirProofs Proofs.MkdirCacheProofs Proofs.AnchorProofs Proofs.RelPathProofs.
From Verif Require Proofs.RepoProofs.
Import ListNotations.

Lemma bbind_inv {A B} (m : both A) (f : A -> both B) l w r s : bbind m f l w = (r, s) ->
  (exists a l1 w1, m l w = (Ok a, (l1, w1)) /\ f a l1 w1 = (r, s)) \/ (exists e, m l w = (Err e, s) /\ r = Err e).
Proof.
  unfold bbind. destruct (m l w) as [[a|e] [l1 w1]]; intro H; [left; eauto 6|right]. injection H as <- <-. eauto.
Qed.
Lemma near_inv {A} (m : M A) l w r l1 w1 : near m l w = (r, (l1, w1)) -> l1 = l /\ m w = (r, w1).
Proof. unfold near. destruct (m w) as [r0 w0]. intro H. injection H as <- <- <-. auto. Qed.

Section Safe.
Variables (K : conf) (self : ppath) (cwd : place) (fs : node).
Notation OK new := (only_made K self new cwd fs).
Definition went (new : list made) (w w' : world) : Prop := OK new (w_fs w') /\ runs (OK new) w w'.
Lemma went_same new w w' : OK new (w_fs w) -> same w w' -> went new w w'.
Proof. intros H S. split; [now destruct S as (-> & _)|now apply runs_same]. Qed.
Lemma went_trans new a b c : went new a b -> went new b c -> went new a c.
Proof. intros [_ R1] [K2 R2]. split; [assumption|now apply (runs_trans _ _ b)]. Qed.
Lemma went_changed new s w w' : OK new s -> changed s w w' -> went new w w'.
Proof. intros H C. split; [now destruct C as (-> & _)|now apply (runs_changed _ _ _ _ C)]. Qed.
Lemma only_more new new' s : incl new new' -> OK new s -> OK new' s.
Proof.
  intros I H q. destruct (H q) as [E|(E1 & (b & Ib & Pb) & xs & E2 & E3)]; [now left|]. right. split; [assumption|]. split; [eauto|].
  exists xs. split; [assumption|]. intros kv J. destruct (E3 kv J) as [Z|(c & Ic & Pc & Sc)]; [now left|]. right. exists c. auto.
Qed.
Lemma went_more new new' w w' : incl new new' -> went new w w' -> went new' w w'.
Proof. intros I [H R]. split; [now apply (only_more new)|]. apply (runs_mono (OK new)); [|assumption]. intro s. now apply only_more. Qed.
Lemma place_grows s s' b q : grows s s' -> its_place self s cwd b q -> its_place self s' cwd b q.
Proof. intros G (p & W & N & L). exists p. split; [assumption|]. split; [assumption|]. now apply (leads_grows s). Qed.

(** what the paths of [p] lead to *)
Variable p : ppath.
Hypothesis Hp : on_way self p.

Lemma ok_new s q0 b new s' : OK new s -> plus q0 (ADir []) s s' -> In b new -> b_name b = pp_name p -> leads s' cwd p q0 -> OK new s'.
Proof.
  intros H P I N L q. pose proof (grows_plus _ _ _ _ P) as Gr. destruct P as (P1 & P2 & P3). destruct (place_dec q q0) as [->|Nq].
  - right. split; [left; destruct (H q0) as [E|(_ & _ & xs & E & _)]; congruence|]. split; [exists b; split; [assumption|]; now exists p|].
    exists []. split; [assumption|]. intros kv [].
  - rewrite (P3 q Nq). destruct (H q) as [E|(E1 & (c & Ic & Pc) & xs & E2 & E3)]; [now left|]. right. split; [assumption|].
    split; [exists c; split; [assumption|now apply (place_grows s)]|]. exists xs. split; [assumption|].
    intros kv J. destruct (E3 kv J) as [Z|(d & Id & Pd & Sd)]; [now left|]. right. exists d. split; [assumption|]. split; [now apply (place_grows s)|assumption].
Qed.
Lemma ok_attrs s q0 b new xs es ys : OK new s -> In b new -> b_name b = pp_name p -> leads s cwd p q0 -> get s q0 = Some (Dir xs es) ->
  (forall kv, In kv ys -> In kv xs \/ says K (Ok (Some (b_meta b))) kv) -> OK new (put s q0 (Dir ys es)).
Proof.
  intros H I N L G F q. pose proof (grows_attrs _ _ _ _ ys G) as Gr. destruct (place_dec q q0) as [->|Nq].
  - assert (Lk : look s q0 = Some (ADir xs)) by (apply look_dir; eauto).
    right. split.
    { destruct (H q0) as [E|(E & _)]; [|assumption]. right. exists xs. congruence. }
    split; [exists b; split; [assumption|]; exists p; split; [assumption|]; split; [now symmetry|now apply (leads_grows s)]|].
    exists ys. split; [apply look_dir; exists es; now apply (get_put_self _ _ (Dir xs es))|].
    intros kv J. destruct (F kv J) as [J'|Sa].
    + destruct (H q0) as [E|(_ & _ & zs & E2 & E3)]; [left; exists xs; split; [congruence|assumption]|].
      rewrite Lk in E2. injection E2 as <-. destruct (E3 kv J') as [Z|(d & Id & Pd & Sd)]; [now left|]. right. exists d. split; [assumption|]. split; [now apply (place_grows s)|assumption].
    + right. exists b. split; [assumption|]. split; [|assumption]. exists p. split; [assumption|]. split; [now symmetry|now apply (leads_grows s)].
  - change (Dir ys es) with (with_xattrs (Dir xs es) ys) in *. rewrite (look_put_xattrs _ _ _ _ _ G Nq).
    destruct (H q) as [E|(E1 & (c & Ic & Pc) & zs & E2 & E3)]; [now left|]. right. split; [assumption|].
    split; [exists c; split; [assumption|now apply (place_grows s)]|]. exists zs. split; [assumption|].
    intros kv J. destruct (E3 kv J) as [Z|(d & Id & Pd & Sd)]; [now left|]. right. exists d. split; [assumption|]. split; [now apply (place_grows s)|assumption].
Qed.

(** ** mkdir *)
Lemma mkdir_went new b w r w' : honest (w_fault w) -> w_cwd w = cwd -> OK new (w_fs w) -> In b new -> b_name b = pp_name p ->
  p_mkdir true p w = (r, w') -> went new w w' /\ (r = Ok tt -> exists q xs es, walk (w_fs w') cwd true p = Found q (Dir xs es)).
Proof.
  intros Ho Hc O I N H. pose proof H as H0. apply mkdir_inv in H as [S|(-> & d & x & W & C)].
  - split; [now apply went_same|]. intros ->. unfold p_mkdir in H0. cbn [mkdir_parents] in H0.
    apply catch_inv in H0 as [([] & H & _)|(e & w1 & H & H2)].
    + apply sys_inv in H as [(e & E & _)|(a & s & _ & E & C)]; [discriminate|].
      destruct (walk (w_fs w) (w_cwd w) false p) as [q n|d x|er] eqn:W; try discriminate. apply Ok_inj in E. injection E as _ <-.
      rewrite Hc in W. destruct C as (-> & _). exists (d ++ [x]), [], []. now apply walk_made_dir.
    + apply sys_inv in H as [(e' & E & S1 & _)|(a & s & E & _)]; [|discriminate].
      assert (Dr : forall e0, (let! d <- p_is_dir p ; (if d then ret tt else raise e0)) w1 = (Ok tt, w') -> exists q xs es, walk (w_fs w') cwd true p = Found q (Dir xs es)).
      { intros e0 Z. apply bind_inv in Z as [(dd & w2 & Z1 & Z2)|(e1 & _ & Z)]; [|discriminate]. destruct dd; [|discriminate]. injection Z2 as <-.
        apply test_honest in Z1 as [S2 (q & n & Wq & En)]; [|now destruct S1 as (_ & _ & _ & ->)]. destruct n as [|xs es|]; try discriminate.
        destruct S2 as (-> & _). exists q, xs, es. destruct S1 as (_ & E1 & _). congruence. }
      destruct e; try discriminate. match goal with er : errno |- _ => destruct er end; try discriminate; now apply (Dr _ H2).
  - rewrite Hc in W. pose proof (missing_none _ _ _ _ _ _ W) as (D & Gn).
    assert (P : plus (d ++ [x]) (ADir []) (w_fs w) (put (w_fs w) (d ++ [x]) (Dir [] []))) by (apply plus_put; auto).
    pose proof (walk_made_dir _ _ _ _ _ W) as W1.
    assert (W2 : walk (put (w_fs w) (d ++ [x]) (Dir [] [])) cwd false p = Found (d ++ [x]) (Dir [] [])).
    { unfold walk in *. destruct (walk_made _ _ _ _ Gn _ _ _ W false (or_introl eq_refl)) as [Q|Q]; [exact Q|congruence]. }
    assert (O2 : OK new (put (w_fs w) (d ++ [x]) (Dir [] []))) by (apply (ok_new (w_fs w) (d ++ [x]) b); auto; now exists (Dir [] [])).
    split; [now apply (went_changed new (put (w_fs w) (d ++ [x]) (Dir [] [])))|]. intros _. destruct C as (-> & _). exists (d ++ [x]), [], []. exact W1.
Qed.

(** ** Storing the metadata *)
Section Store.
Variables (new : list made) (b : made).
Hypothesis Hb : In b new.
Hypothesis Nb : b_name b = pp_name p.

Lemma sets_went q0 l : (forall k v, In (k, v) l -> says K (Ok (Some (b_meta b))) ($"user." ++ key_text k, v)) ->
  forall w r w' xs es, w_cwd w = cwd -> OK new (w_fs w) -> walk (w_fs w) cwd true p = Found q0 (Dir xs es) -> walk (w_fs w) cwd false p = Found q0 (Dir xs es) ->
  p_setxattrs p l w = (r, w') -> went new w w'.
Proof.
  intro Hl. induction l as [|[k v] l IH]; intros w r w' xs es Hc O W1 W2 H.
  - injection H as <- <-. apply went_same; [assumption|apply same_refl].
  - unfold p_setxattrs in H. cbn [each fst snd] in H.
    assert (Step : forall r1 w1, p_setxattr p (key_text k) v w = (r1, w1) -> went new w w1 /\ w_cwd w1 = cwd /\
       exists ys, walk (w_fs w1) cwd true p = Found q0 (Dir ys es) /\ walk (w_fs w1) cwd false p = Found q0 (Dir ys es)).
    { intros r1 w1 H1. apply sys_inv in H1 as [(e & -> & S & _)|(a & s & -> & E & C)].
      - split; [now apply went_same|]. destruct S as (-> & -> & _). split; [assumption|]. exists xs. split; assumption.
      - unfold lookup in E. rewrite Hc, W1 in E. cbn [rbind fst snd node_xattrs with_xattrs] in E. apply Ok_inj in E. injection E as _ <-.
        assert (G : get (w_fs w) q0 = Some (Dir xs es)) by (now apply walk_found_get in W1).
        assert (O' : OK new (put (w_fs w) q0 (Dir (xset (xkey (key_text k)) v xs) es))).
        { apply (ok_attrs _ _ b new xs); auto; [now exists (Dir xs es)|]. intros kv I. apply in_xset in I as [->|I]; [right; apply Hl; now left|now left]. }
        split; [now apply (went_changed new (put (w_fs w) q0 (Dir (xset (xkey (key_text k)) v xs) es)))|]. destruct C as (-> & -> & _). split; [assumption|].
        pose proof (grows_attrs _ _ _ _ (xset (xkey (key_text k)) v xs) G) as Gr.
        assert (G' : get (put (w_fs w) q0 (Dir (xset (xkey (key_text k)) v xs) es)) q0 = Some (Dir (xset (xkey (key_text k)) v xs) es)) by (now apply (get_put_self _ _ (Dir xs es))).
        exists (xset (xkey (key_text k)) v xs). split; [exact (walk_to _ _ _ _ _ _ _ _ Gr W1 G')|exact (walk_to _ _ _ _ _ _ _ _ Gr W2 G')]. }
    apply bind_inv in H as [([] & w1 & H1 & H)|(e & H1 & ->)]; [|now apply Step in H1].
    apply Step in H1 as (S1 & C1 & ys & T1 & T2). apply (went_trans _ _ w1); [assumption|].
    apply (IH (fun k v I => Hl k v (or_intror I)) w1 r w' ys es C1 (proj1 S1) T1 T2 H).
Qed.

Lemma parent_exists s q n : walk s cwd true p = Found q n -> exists q' n', walk s cwd true (pp_parent p) = Found q' n'.
Proof.
  intro W. destruct p as [a l] eqn:Ep. unfold walk, pp_parent in *. cbn [pp_abs pp_parts] in *. destruct l as [|x l _] using rev_ind; [cbn [removelast]; eauto|].
  rewrite removelast_last. now apply RepoProofs.walk_prefix in W.
Qed.

Lemma set_went w r w' q0 xs es : honest (w_fault w) -> w_cwd w = cwd -> OK new (w_fs w) -> walk (w_fs w) cwd true p = Found q0 (Dir xs es) ->
  cache_set K p (Some (b_meta b)) w = (r, w') -> went new w w'.
Proof.
  intros Ho Hc O W1 H.
  assert (Same : forall w1, same w w1 -> went new w w1) by (intros w1 S; now apply went_same).
  cbn [cache_set] in H. destruct (meta_bool (b_meta b)); [|injection H as <- <-; apply Same, same_refl].
  assert (Hon : forall v, same w v -> honest (w_fault v)) by (intros v (_ & _ & _ & ->); assumption).
  assert (Ex : forall v r1 v', same w v -> p_exists p v = (r1, v') -> same w v' /\ r1 <> Ok false).
  { intros v r1 v' Sv Hx. apply (test_honest _ _ _ _ _ _ (Hon v Sv)) in Hx as [Sx Kx]. split; [now apply (same_trans _ v)|]. intros ->.
    destruct Sv as (Fv & Cv & _). rewrite Fv, Cv, Hc in Kx. specialize (Kx _ _ W1). discriminate. }
  assert (Pe : forall v r1 v', same w v -> p_exists (pp_parent p) v = (r1, v') -> same w v' /\ r1 <> Ok false).
  { intros v r1 v' Sv Hx. apply (test_honest _ _ _ _ _ _ (Hon v Sv)) in Hx as [Sx Kx]. split; [now apply (same_trans _ v)|]. intros ->.
    destruct (parent_exists _ _ _ W1) as (q' & n' & W'). destruct Sv as (Fv & Cv & _). rewrite Fv, Cv, Hc in Kx. specialize (Kx _ _ W'). discriminate. }
  destruct (walk_follow _ _ _ _ _ _ W1) as (q1 & n1 & W2). change (walk (w_fs w) cwd false p = Found q1 n1) in W2.
  assert (Sy : forall v r1 v', same w v -> p_is_symlink p v = (r1, v') -> same w v' /\ forall l, r1 = Ok l -> l = match n1 with Link _ => true | _ => false end).
  { intros v r1 v' Sv Hx. apply (test_honest _ _ _ _ _ _ (Hon v Sv)) in Hx as [Sx Kx]. split; [now apply (same_trans _ v)|]. intros l ->.
    destruct Sv as (Fv & Cv & _). rewrite Fv, Cv, Hc in Kx. destruct l.
    - destruct Kx as (q & n & Wq & En). rewrite W2 in Wq. injection Wq as <- <-. now rewrite En.
    - symmetry. now apply (Kx _ _ W2). }
  assert (Eat : forall v r1 v', same w v -> eat_set K p (b_meta b) v = (r1, v') -> went new w v').
  { intros v r1 v' Sv Z. unfold eat_set in Z.
    apply bind_inv in Z as [(e1 & w2 & H2 & Z)|(e1 & H2 & _)]; apply (Ex v) in H2 as [S2 N2]; auto. destruct e1; [|congruence].
    apply bind_inv in Z as [(e2 & w3 & H3 & Z)|(e2 & H3 & _)]; apply (Sy w2) in H3 as [S3 N3]; auto.
    specialize (N3 e2 eq_refl). destruct n1 as [d1 ys1|ys1 es1|t1]; subst e2; try (injection Z as _ <-; now apply Same).
    all: match type of W2 with _ = Found _ ?n => assert (W3 : walk (w_fs w) cwd true p = Found q1 n) by (apply (walk_nofollow _ _ _ _ _ _ W2); discriminate) end; rewrite W1 in W3; try discriminate W3.
    injection W3 as <- <- <-. apply bind_inv in Z as [(l & w4 & H4 & Z)|(e4 & H4 & _)]; [|injection H4 as _ <-; now apply Same].
    injection H4 as El <-. apply (went_trans _ _ w3); [now apply Same|]. destruct S3 as (F3 & C3 & _ & _).
    apply (sets_went q0 l) with (xs := xs) (es := es) in Z; [assumption| |now rewrite C3|now rewrite F3|now rewrite F3|now rewrite F3].
    intros k v0 I. exists (b_meta b), l, k. auto. }
  assert (Ens : forall r1 w1, p_exists_not_symlink p w = (r1, w1) -> same w w1).
  { intros r1 w1 Z. unfold p_exists_not_symlink in Z. apply bind_inv in Z as [(e1 & w2 & H1 & H2)|(e1 & H1 & _)]; apply (Ex w) in H1 as [S1 N1]; auto; try apply same_refl.
    destruct e1; [|congruence]. apply bind_inv in H2 as [(e2 & w3 & H2 & H3)|(e2 & H2 & _)]; apply (Sy w2) in H2 as [S2 _]; auto. now injection H3 as _ <-. }
  apply bind_inv in H as [(e & w1 & H1 & H)|(e & H1 & _)]; apply Ens in H1; [|now apply Same].
  destruct e; [now apply (Eat w1) in H|].
  assert (Prep : forall r1 w2, prepare K p w1 = (r1, w2) -> same w w2).
  { intros r1 w2 Z. unfold prepare in Z. apply bind_inv in Z as [(dd & w3 & Z1 & Z)|(e1 & Z1 & _)]; apply quiet_ask in Z1; pose proof (same_trans _ _ _ H1 Z1) as S3; [|assumption].
    destruct dd.
    - apply bind_inv in Z as [(e1 & w4 & Z2 & Z)|(e1 & Z2 & _)]; apply (Ex w3) in Z2 as [S4 N4]; auto. destruct e1; [|congruence]. now injection Z as _ <-.
    - apply bind_inv in Z as [(ff & w4 & Z2 & Z)|(e1 & Z2 & _)]; apply quiet_ask in Z2; pose proof (same_trans _ _ _ S3 Z2) as S4; [|assumption].
      destruct ff; [|now injection Z as _ <-].
      apply bind_inv in Z as [(e1 & w5 & Z3 & Z)|(e1 & Z3 & _)]; apply (Pe w4) in Z3 as [S5 N5]; auto. destruct e1; [|congruence]. now injection Z as _ <-. }
  apply bind_inv in H as [([] & w2 & H2 & H)|(e & H2 & _)]; apply Prep in H2; [|now apply Same].
  apply bind_inv in H as [(e & w3 & H3 & H)|(e & H3 & _)]; apply (Ex w2) in H3 as [S3 N3]; auto. destruct e; [|congruence]. now apply (Eat w3) in H.
Qed.

Lemma init_went w r w' q0 xs es : honest (w_fault w) -> w_cwd w = cwd -> OK new (w_fs w) -> walk (w_fs w) cwd true p = Found q0 (Dir xs es) ->
  cache_init_meta K p (b_meta b) w = (r, w') -> went new w w'.
Proof.
  intros Ho Hc O W1 H.
  assert (Same : forall w1, same w w1 -> went new w w1) by (intros w1 S; now apply went_same).
  unfold cache_init_meta in H. apply bind_inv in H as [(m & w1 & H1 & H)|(e & H1 & _)]; [|apply quiet_cache_meta in H1; now apply Same].
  pose proof (quiet_cache_meta K p _ _ _ H1) as S1. destruct (meta_true m) eqn:Tm; [injection H as _ <-; now apply Same|].
  apply bind_inv in H as [(e & w2 & H2 & H)|(e & H2 & _)]; apply quiet_exists in H2; pose proof (same_trans _ _ _ S1 H2) as S2; [|now apply Same].
  destruct e; cbn [negb] in H; [|injection H as _ <-; now apply Same].
  destruct (meta_bool (b_meta b)) eqn:Bm; [|destruct m; injection H as _ <-; now apply Same].
  assert (Up : forall r3 w3, meta_updater K p (Some (b_meta b)) true w2 = (r3, w3) -> went new w w3).
  { clear H. intros r3 w3 H. unfold meta_updater in H. apply bind_inv in H as [(m2 & w4 & H3 & H)|(e3 & H3 & _)]; pose proof (quiet_cache_meta K p _ _ _ H3) as S3;
      pose proof (same_trans _ _ _ S2 S3) as S4; [|now apply Same].
    assert (Em : m2 = m).
    { apply firm_meta in H1 as [(t & e1 & _ & Z)|H1]; [discriminate| |assumption].
      apply firm_meta in H3 as [(t & e1 & _ & Z)|H3]; [discriminate| |now destruct S2 as (_ & _ & _ & ->)].
      destruct S2 as (F2 & C2 & _). rewrite F2, C2 in H3.
      destruct (H1 (calm w)) as (v1 & E1 & _); [intro; reflexivity|reflexivity|reflexivity|].
      destruct (H3 (calm w)) as (v2 & E2 & _); [intro; reflexivity|reflexivity|reflexivity|]. congruence. }
    subst m2. assert (Eu : update_meta (c_dateparse K) m (Some (b_meta b)) = Ok (false, Some (b_meta b))).
    { unfold update_meta. destruct m as [m|]; [cbn [meta_true] in Tm; now rewrite Tm|reflexivity]. }
    rewrite Eu in H. cbn [lift] in H. unfold bind at 1, lift at 1 in H. cbv beta iota zeta in H. unfold bind at 1, ret at 1 in H. cbv beta iota in H. unfold bind at 1, ret at 1 in H. cbv beta iota in H.
    assert (Set_ : forall r5 w5, (let! _ <- cache_set K p (Some (b_meta b)) ; when false (fetch K p None)) w4 = (r5, w5) -> went new w w5).
    { intros r5 w5 Z. destruct S4 as (F4 & C4 & H4 & T4).
      assert (Q : forall r6 w6, cache_set K p (Some (b_meta b)) w4 = (r6, w6) -> went new w w6).
      { intros r6 w6 Z6. apply (went_trans _ _ w4); [apply Same; repeat split; assumption|]. apply (set_went w4 r6 w6 q0 xs es); [now rewrite T4|congruence|now rewrite F4|now rewrite F4|assumption]. }
      apply bind_inv in Z as [([] & w6 & Z6 & Z)|(e6 & Z6 & _)]; [|now apply Q in Z6]. injection Z as _ <-. now apply Q in Z6. }
    assert (Ca : forall r5 w5, catch (let! _ <- cache_set K p (Some (b_meta b)) ; when false (fetch K p None)) (fun e => let! _ <- ret tt ; raise e) w4 = (r5, w5) -> went new w w5).
    { intros r5 w5 Z. apply catch_inv in Z as [(a & Z & _)|(e6 & w6 & Z & Z2)]; [now apply Set_ in Z|]. injection Z2 as _ <-. now apply Set_ in Z. }
    apply bind_inv in H as [([] & w5 & H5 & H)|(e5 & H5 & _)]; [|now apply Ca in H5]. injection H as _ <-. now apply Ca in H5. }
  apply bind_inv in H as [(dd & w3 & H3 & H)|(e3 & H3 & _)]; [|now apply Up in H3]. injection H as _ <-. now apply Up in H3.
Qed.
End Store.
End Safe.

(** ** Reading *)
Lemma remote_read K configured p w r w' : honest (w_fault w) -> remote_of K configured p w = (r, w') ->
  same w w' /\ forall i, r = Ok (Some i) -> id_at K (w_fs w) (w_cwd w) p i.
Proof.
  intros Ho H. unfold remote_of in H. apply bind_inv in H as [(i & w1 & H1 & H)|(e & H1 & ->)]; pose proof (quiet_cache_id K p _ _ _ H1) as S1; [|split; [assumption|discriminate]].
  injection H as <- <-. split; [assumption|]. intros j E. apply firm_id in H1 as [(t & e & _ & Z)|H1]; [discriminate| |assumption].
  destruct (H1 (calm w)) as (v & Ev & _); [intro; reflexivity|reflexivity|reflexivity|]. exists v. destruct (is_none i); [discriminate|]. destruct configured; [|discriminate].
  injection E as <-. exact Ev.
Qed.
Lemma none_read K p w w' : honest (w_fault w) -> cache_meta K p w = (Ok None, w') -> none_at K (w_fs w) (w_cwd w) p.
Proof.
  intros Ho H. apply firm_meta in H as [(t & e & _ & Z)|H]; [discriminate| |assumption].
  destruct (H (calm w)) as (v & Ev & _); [intro; reflexivity|reflexivity|reflexivity|]. now exists v.
Qed.

Section Whole.
Variables (K : conf) (configured anchored : bool) (exists_far : list made -> pyval -> res bool) (child_far : list made -> pyval -> str -> res pathmeta).
Variables (self : ppath) (cwd : place) (fs : node).
Notation OK new := (only_made K self new cwd fs).
Notation went := (went K self cwd fs).

Lemma make_inv i x l w r l' w' : make_far child_far i x l w = (r, (l', w')) ->
  w' = w /\ ((exists j m, i = Some j /\ r = Ok m /\ l' = l ++ [mkMade j x m]) \/ (l' = l /\ exists e, r = Err e)).
Proof.
  destruct i as [j|]; cbn [make_far]; [destruct (child_far l j x) as [m|e]|]; intro H; injection H as <- <- <-; split; auto; [left|right|right]; eauto 6.
Qed.
Lemma same_honest w w' : same w w' -> honest (w_fault w) -> honest (w_fault w'). Proof. intros (_ & _ & _ & ->). auto. Qed.

Lemma downward_safe parts_ : forall p last new0 l w r l' w', honest (w_fault w) -> w_cwd w = cwd -> OK new0 (w_fs w) ->
  pp_abs p = pp_abs self -> pp_parts self = pp_parts p ++ parts_ ->
  downward K configured child_far p parts_ last l w = (r, (l', w')) ->
  exists new, l' = l ++ new /\ map b_name new = firstn (length new) parts_ /\ went (new0 ++ new) w w' /\
    (forall b rest, new = b :: rest -> id_at K (w_fs w) cwd p (b_in b)) /\
    forall o, r = Ok o -> length new = length parts_ /\ ((new = [] /\ o = last) \/ exists pre b q, new = pre ++ [b] /\ o = Some (q, b_meta b)).
Proof.
  induction parts_ as [|x parts_ IH]; intros p last new0 l w r l' w' Ho Hc O Ha He H; cbn [downward] in H.
  - injection H as <- <- <-. exists []. rewrite !app_nil_r. split; [reflexivity|]. split; [reflexivity|]. split; [apply went_same; [assumption|apply same_refl]|].
    split; [discriminate|]. intros o Eo. injection Eo as <-. auto.
  - assert (Stop : forall e w1, went new0 w w1 -> exists new, l = l ++ new /\ map b_name new = firstn (length new) (x :: parts_) /\ went (new0 ++ new) w w1 /\
      (forall b rest, new = b :: rest -> id_at K (w_fs w) cwd p (b_in b)) /\
      forall o : option (ppath * pathmeta), Err e = Ok o -> length new = length (x :: parts_) /\ ((new = [] /\ o = last) \/ exists pre b q, new = pre ++ [b] /\ o = Some (q, b_meta b))).
    { intros e w1 Z. exists []. rewrite !app_nil_r. split; [reflexivity|]. split; [reflexivity|]. split; [assumption|]. split; discriminate. }
    apply bbind_inv in H as [(c & l1 & w1 & H1 & H)|(e & H1 & ->)]; apply near_inv in H1 as [-> H1]; pose proof (quiet_cache_meta K p _ _ _ H1) as S1; [|now apply Stop, went_same].
    destruct c as [cm|]; [|injection H as <- <- <-; now apply Stop, went_same].
    apply bbind_inv in H as [(i & l2 & w2 & H2 & H)|(e & H2 & ->)]; apply near_inv in H2 as [-> H2]; apply remote_read in H2 as [S2 Ri]; try (now apply (same_honest w));
      pose proof (same_trans _ _ _ S1 S2) as S12; [|now apply Stop, went_same].
    apply bbind_inv in H as [(m & l3 & w3 & H3 & H)|(e & H3 & ->)]; apply make_inv in H3 as [-> H3].
    2:{ destruct H3 as [(j & m & _ & Z & _)|(-> & _)]; [discriminate|]. now apply Stop, went_same. }
    destruct H3 as [(j & m' & -> & Em & ->)|(_ & e & Z)]; [|discriminate]. injection Em as <-. specialize (Ri j eq_refl).
    destruct S12 as (F2 & C2 & Hh2 & T2). assert (S12 : same w w2) by (repeat split; assumption). destruct S1 as (F1 & C1 & _). rewrite F1, C1, Hc in Ri.
    set (b := mkMade j x m) in *. set (q := child p x) in *.
    assert (Wq : on_way self q) by (split; [exact Ha|]; exists parts_; unfold q, child; cbn [pp_parts]; now rewrite <- app_assoc).
    assert (Nq : b_name b = pp_name q) by (unfold q, child, pp_name; cbn [pp_parts b_name b]; now rewrite last_last).
    assert (Ib : In b (new0 ++ [b])) by (apply in_or_app; right; now left).
    assert (Ic : incl new0 (new0 ++ [b])) by (now apply incl_appl, incl_refl).
    assert (O2 : OK (new0 ++ [b]) (w_fs w2)) by (rewrite F2; now apply (only_more K self cwd fs new0)).
    assert (W02 : went (new0 ++ [b]) w w2) by (apply went_same; [now rewrite <- F2|assumption]).
    assert (Ho2 : honest (w_fault w2)) by (now rewrite T2). assert (Hc2 : w_cwd w2 = cwd) by congruence.
    assert (Fail_ : forall e w1, went (new0 ++ [b]) w w1 -> exists new, l ++ [b] = l ++ new /\ map b_name new = firstn (length new) (x :: parts_) /\ went (new0 ++ new) w w1 /\
      (forall b0 rest, new = b0 :: rest -> id_at K (w_fs w) cwd p (b_in b0)) /\
      forall o : option (ppath * pathmeta), Err e = Ok o -> length new = length (x :: parts_) /\ ((new = [] /\ o = last) \/ exists pre b q, new = pre ++ [b] /\ o = Some (q, b_meta b))).
    { intros e w4 Z. exists [b]. split; [reflexivity|]. split; [reflexivity|]. split; [assumption|]. split; [|discriminate]. intros b0 rest E. injection E as <- <-. exact Ri. }
    apply bbind_inv in H as [(u & l4 & w4 & H4 & H)|(e & H4 & ->)]; apply near_inv in H4 as [-> H4];
      apply (mkdir_went K self cwd fs q Wq (new0 ++ [b]) b w2 _ _ Ho2 Hc2 O2 Ib Nq) in H4 as [G4 D4]; pose proof (went_trans _ _ _ _ _ _ _ _ W02 G4) as W4; [|now apply Fail_].
    destruct u. destruct (D4 eq_refl) as (q0 & xs & es & Wk). pose proof G4 as [O4 (F4 & C4 & _)].
    assert (Ho4 : honest (w_fault w4)) by (now rewrite F4). assert (Hc4 : w_cwd w4 = cwd) by congruence.
    apply bbind_inv in H as [(u & l5 & w5 & H5 & H)|(e & H5 & ->)]; apply near_inv in H5 as [-> H5];
      apply (init_went K self cwd fs q Wq (new0 ++ [b]) b Ib Nq w4 _ _ q0 xs es Ho4 Hc4 O4 Wk) in H5;
      pose proof (went_trans _ _ _ _ _ _ _ _ W4 H5) as W5; [|now apply Fail_].
    pose proof H5 as [O5 (F5 & C5 & _)].
    assert (Ho5 : honest (w_fault w5)) by (now rewrite F5).
    destruct (IH q (Some (q, m)) (new0 ++ [b]) (l ++ [b]) w5 r l' w' Ho5 ltac:(congruence) O5 Ha) as (new & El & En & Ew & _ & Eo).
    { unfold q, child. cbn [pp_parts]. now rewrite <- app_assoc. }
    { exact H. }
    exists (b :: new). split; [rewrite El; now rewrite <- app_assoc|]. split; [cbn [map length firstn]; now rewrite En|].
    assert (Ecat : (new0 ++ [b]) ++ new = new0 ++ b :: new) by (now rewrite <- app_assoc). rewrite Ecat in Ew. split.
    { apply (went_trans _ _ _ _ _ _ w5); [|assumption]. apply (went_more _ _ _ _ (new0 ++ [b])); [|assumption]. rewrite <- Ecat. apply incl_appl, incl_refl. }
    split; [intros b0 rest E; injection E as <- <-; exact Ri|]. intros o E. destruct (Eo o E) as [Ln [(-> & ->)|(pre & b1 & q1 & -> & ->)]].
    + split; [cbn [length]; now f_equal|]. right. exists [], b, q. auto.
    + split; [cbn [length]; now f_equal|]. right. exists (b :: pre), b1, q1. auto.
Qed.

Hypothesis Hpath : is_path self.
Notation cut k := (mkPP (pp_abs self) (firstn k (pp_parts self))).

Lemma cut_relative k : relative_path_from self (cut k) = Ok (mkPP false (skipn k (pp_parts self))).
Proof.
  assert (W : within self (cut k)) by (exists (skipn k (pp_parts self)); cbn [pp_parts]; now rewrite firstn_skipn).
  rewrite (relative_path_eq self (cut k) (firstn k (pp_parts self)) (skipn k (pp_parts self)) []); [reflexivity| | |reflexivity| | |].
  - now apply is_path_norm.
  - apply is_path_norm. intros c I. apply Hpath. cbn [pp_parts] in I. rewrite <- (firstn_skipn k). apply in_or_app. now left.
  - symmetry. now apply (cp_within _ _ W).
  - cbn [pp_parts]. now rewrite firstn_skipn.
  - cbn [pp_parts]. now rewrite app_nil_r.
Qed.

Lemma attach_quiet p w r w' : attach K p w = (r, w') -> same w w'.
Proof.
  unfold attach. intro H. apply bind_inv in H as [(a & w1 & H1 & H)|(e & H1 & _)]; apply quiet_cache_meta in H1; [|assumption]. destruct a; now injection H as _ <-.
Qed.

Lemma upward_safe n : forall l w r l' w', (n <= length (pp_parts self))%nat -> honest (w_fault w) -> w_cwd w = cwd -> w_fs w = fs ->
  (forall k, (n <= k < length (pp_parts self))%nat -> none_at K fs cwd (cut k)) ->
  upward K configured child_far self (map (fun k => cut k) (rev (seq 0 n))) l w = (r, (l', w')) ->
  exists new, l' = l ++ new /\ went new w w' /\ in_order K self fs cwd true new /\
    (r = Ok None -> new = []) /\ forall m, r = Ok (Some m) -> exists pre b, new = pre ++ [b] /\ b_meta b = m /\ b_name b = pp_name self.
Proof.
  assert (O0 : forall w, w_fs w = fs -> OK [] (w_fs w)) by (intros w -> q; now left).
  induction n as [|n IH]; intros l w r l' w' Hn Ho Hc Hf Hk H.
  - injection H as <- <- <-. exists []. rewrite app_nil_r. split; [reflexivity|]. split; [apply went_same; [auto|apply same_refl]|]. split; [discriminate|]. split; [reflexivity|discriminate].
  - rewrite seq_S, rev_app_distr in H. cbn [rev app map upward] in H. change (0 + n)%nat with n in H.
    assert (Stop : forall e w1, same w w1 -> exists new, l = l ++ new /\ went new w w1 /\ in_order K self fs cwd true new /\
      (@Err (option pathmeta) e = Ok None -> new = []) /\ forall m : pathmeta, Err e = Ok (Some m) -> exists pre b, new = pre ++ [b] /\ b_meta b = m /\ b_name b = pp_name self).
    { intros e w1 Z. exists []. rewrite app_nil_r. split; [reflexivity|]. split; [apply went_same; auto|]. split; [discriminate|]. split; discriminate. }
    apply bbind_inv in H as [(c & l1 & w1 & H1 & H)|(e & H1 & ->)]; apply near_inv in H1 as [-> H1]; pose proof (quiet_cache_meta K _ _ _ _ H1) as S1; [|now apply Stop].
    destruct S1 as (F1 & C1 & Hh1 & T1). assert (S1 : same w w1) by (repeat split; assumption).
    destruct c as [cm|].
    + apply bbind_inv in H as [(rp & l2 & w2 & H2 & H)|(e & H2 & ->)]; apply near_inv in H2 as [-> H2]; injection H2 as Er <-; [|now apply Stop].
      rewrite cut_relative in Er. apply Ok_inj in Er. subst rp. change (parts (mkPP false (skipn n (pp_parts self)))) with (skipn n (pp_parts self)) in H.
      assert (Dn : forall r2 l2 w2, downward K configured child_far (cut n) (skipn n (pp_parts self)) None l w1 = (r2, (l2, w2)) ->
        exists new, l2 = l ++ new /\ went new w w2 /\ in_order K self fs cwd true new /\
          forall o, r2 = Ok o -> o = None /\ new = [] \/ exists pre b q, new = pre ++ [b] /\ o = Some (q, b_meta b) /\ b_name b = pp_name self).
      { intros r2 l2 w2 Z. destruct (downward_safe (skipn n (pp_parts self)) (cut n) None [] l w1 r2 l2 w2) as (new & El & En & Ew & Ei & Eo); [now rewrite T1|congruence|apply O0; congruence|reflexivity| |exact Z|].
        { cbn [pp_parts]. now rewrite firstn_skipn. }
        exists new. split; [assumption|]. split; [apply (went_trans _ _ _ _ _ _ w1); [apply went_same; [|assumption]|exact Ew]; rewrite Hf; intro q; now left|]. split.
        - intros b rest ->. cbn [map length] in En. destruct (skipn n (pp_parts self)) as [|x rr] eqn:Sk; [discriminate|]. cbn [firstn] in En. injection En as Ex En.
          exists (firstn n (pp_parts self)), rr. split; [now rewrite Ex, <- Sk, firstn_skipn|]. split; [discriminate|]. split; [assumption|]. split.
          { specialize (Ei b rest eq_refl). rewrite F1, Hf in Ei. exact Ei. }
          intros l0 c El0 Nc. rewrite Ex. assert (Lf : length (firstn n (pp_parts self)) = n) by (rewrite firstn_length; lia).
          assert (Ls : length (pp_parts self) = (n + S (length l0 + length c))%nat).
          { rewrite <- (firstn_skipn n (pp_parts self)), app_length, Lf, Sk. cbn [length]. rewrite El0, app_length. lia. }
          replace (firstn n (pp_parts self) ++ x :: l0) with (firstn (n + S (length l0)) (pp_parts self)).
          2:{ rewrite <- (firstn_skipn n (pp_parts self)) at 1. rewrite Sk, El0. rewrite firstn_app, Lf, firstn_firstn.
              replace (Nat.min (n + S (length l0)) n) with n by lia. f_equal. replace (n + S (length l0) - n)%nat with (S (length l0)) by lia.
              cbn [firstn]. f_equal. rewrite firstn_app, firstn_all. replace (length l0 - length l0)%nat with O by lia. cbn [firstn]. now rewrite app_nil_r. }
          apply Hk. destruct c; [contradiction|]. cbn [length] in Ls. lia.
        - intros o E. destruct (Eo o E) as [Ln [(-> & ->)|(pre & b & q & -> & ->)]]; [now left|]. right. exists pre, b, q. split; [reflexivity|]. split; [reflexivity|].
          rewrite Ln, firstn_all in En. unfold pp_name. rewrite map_app in En. cbn [map] in En.
          rewrite <- (firstn_skipn n (pp_parts self)), <- En, app_assoc. now rewrite last_last. }
      apply bbind_inv in H as [(o & l3 & w3 & H3 & H)|(e & H3 & ->)]; apply Dn in H3 as (new & -> & W3 & Or & Eo).
      2:{ exists new. split; [reflexivity|]. split; [assumption|]. split; [assumption|]. split; discriminate. }
      destruct (Eo o eq_refl) as [(-> & ->)|(pre & b & q & -> & -> & Nb)].
      { injection H as <- <- <-. exists []. split; [reflexivity|]. split; [assumption|]. split; [assumption|]. split; discriminate. }
      apply bbind_inv in H as [(u & l4 & w4 & H4 & H)|(e & H4 & ->)]; apply near_inv in H4 as [-> H4];
        apply attach_quiet in H4.
      * injection H as <- <- <-. exists (pre ++ [b]). split; [reflexivity|].
        split; [apply (went_trans _ _ _ _ _ _ w3); [assumption|]; apply went_same; [apply W3|assumption]|]. split; [assumption|]. split; [discriminate|].
        intros m E. injection E as <-. exists pre, b. auto.
      * exists (pre ++ [b]). split; [reflexivity|].
        split; [apply (went_trans _ _ _ _ _ _ w3); [assumption|]; apply went_same; [apply W3|assumption]|]. split; [assumption|]. split; discriminate.
    + destruct (IH l w1 r l' w') as (new & El & Ew & Rest); [lia|now rewrite T1|congruence|congruence| |exact H|].
      * intros k Hk'. destruct (Nat.eq_dec k n) as [->|Nk]; [|apply Hk; lia]. rewrite <- Hf, <- Hc. now apply (none_read K (cut n) w w1 Ho).
      * exists new. split; [assumption|]. split; [|assumption]. apply (went_trans _ _ _ _ _ _ w1); [|assumption]. apply went_same; [|assumption]. rewrite Hf. intro q. now left.
Qed.

Lemma mkdir_remote_went up l w r l' w' : pp_parts self <> [] -> honest (w_fault w) -> w_cwd w = cwd -> w_fs w = fs ->
  mkdir_remote K configured anchored exists_far child_far self up l w = (r, (l', w')) ->
  exists new, l' = l ++ new /\ went new w w' /\ in_order K self fs cwd up new /\
    (r = Ok None -> new = []) /\ forall m, r = Ok (Some m) -> exists pre b, new = pre ++ [b] /\ b_meta b = m /\ b_name b = pp_name self.
Proof.
  intros Ne Ho Hc Hf H.
  assert (Stop : forall e w1, same w w1 -> exists new, l = l ++ new /\ went new w w1 /\ in_order K self fs cwd up new /\
    (@Err (option pathmeta) e = Ok None -> new = []) /\ forall m : pathmeta, Err e = Ok (Some m) -> exists pre b, new = pre ++ [b] /\ b_meta b = m /\ b_name b = pp_name self).
  { intros e w1 Z. exists []. rewrite app_nil_r. split; [reflexivity|]. split; [apply went_same; [rewrite Hf; intro q; now left|assumption]|]. split; [discriminate|]. split; discriminate. }
  unfold mkdir_remote in H.
  apply bbind_inv in H as [(c & l1 & w1 & H1 & H)|(e & H1 & ->)]; apply near_inv in H1 as [-> H1]; apply quiet_cache_meta in H1; [|now apply Stop].
  assert (Th : forall r2 l2 w2, match c with
                | None => bret false
                | Some _ => let+ i <- near (remote_of K configured self) ;
                            match i with None => bret false | Some i => fun l w => (exists_far l i, (l, w)) end
                end l w1 = (r2, (l2, w2)) -> l2 = l /\ same w w2).
  { intros r2 l2 w2 Z. destruct c as [cm|]; [|injection Z as _ <- <-; auto].
    apply bbind_inv in Z as [(i & l3 & w3 & Z1 & Z)|(e & Z1 & _)]; apply near_inv in Z1 as [-> Z1]; apply remote_read in Z1 as [S3 _]; try (now apply (same_honest w));
      pose proof (same_trans _ _ _ H1 S3) as S13; [|auto]. destruct i; injection Z as _ <- <-; auto. }
  apply bbind_inv in H as [(there & l2 & w2 & H2 & H)|(e & H2 & ->)]; apply Th in H2 as [-> S2]; [|now apply Stop]. clear Th H1 w1.
  destruct there; [injection H as <- <- <-; now apply Stop|].
  apply bbind_inv in H as [(pc & l3 & w3 & H3 & H)|(e & H3 & ->)]; apply near_inv in H3 as [-> H3]; pose proof (quiet_cache_meta K _ _ _ _ H3) as S3;
    pose proof (same_trans _ _ _ S2 S3) as S13; [|now apply Stop]. clear H3 S2 S3 w2.
  destruct S13 as (F3 & C3 & Hh3 & T3). assert (S3 : same w w3) by (repeat split; assumption). assert (Ho3 : honest (w_fault w3)) by (now rewrite T3).
  destruct pc as [pm|].
  - apply bbind_inv in H as [(i & l4 & w4 & H4 & H)|(e & H4 & ->)]; apply near_inv in H4 as [-> H4]; apply remote_read in H4 as [S4 Ri]; auto;
      pose proof (same_trans _ _ _ S3 S4) as S14; [|now apply Stop].
    apply bbind_inv in H as [(m & l5 & w5 & H5 & H)|(e & H5 & ->)]; apply make_inv in H5 as [-> H5].
    2:{ destruct H5 as [(j & m & _ & Z & _)|(-> & _)]; [discriminate|]. now apply Stop. }
    destruct H5 as [(j & m' & -> & Em & ->)|(_ & e & Z)]; [|discriminate]. injection Em as <-. specialize (Ri j eq_refl). rewrite F3, C3, Hc, Hf in Ri.
    set (b := mkMade j (pp_name self) m) in *. assert (Ib : In b [b]) by now left.
    assert (Ws : on_way self self) by (split; [reflexivity|]; exists []; now rewrite app_nil_r).
    destruct S14 as (F4 & C4 & Hh4 & T4). assert (S14 : same w w4) by (repeat split; assumption).
    assert (O4 : OK [b] (w_fs w4)) by (rewrite F4, Hf; intro q; now left).
    assert (W4 : went [b] w w4) by (apply went_same; [now rewrite <- F4|assumption]).
    assert (Or : in_order K self fs cwd up [b]).
    { intros b0 rest E. injection E as <- <-. exists (removelast (pp_parts self)), []. unfold pp_name. split; [now apply app_removelast_last|]. split; [reflexivity|]. split; [reflexivity|].
      split; [exact Ri|]. intros l0 c0 E Nc. destruct l0, c0; try discriminate. contradiction. }
    assert (Fin : forall r1 w1, went [b] w w1 -> (forall m0, r1 = Ok (Some m0) -> m0 = m) -> (r1 <> Ok None) ->
      exists new, l ++ [b] = l ++ new /\ went new w w1 /\ in_order K self fs cwd up new /\
      (r1 = Ok None -> new = []) /\ forall m : pathmeta, r1 = Ok (Some m) -> exists pre b, new = pre ++ [b] /\ b_meta b = m /\ b_name b = pp_name self).
    { intros r1 w1 Z Em Nn. exists [b]. split; [reflexivity|]. split; [assumption|]. split; [assumption|]. split; [intro; contradiction|].
      intros m0 E. exists [], b. split; [reflexivity|]. split; [now rewrite (Em _ E)|reflexivity]. }
    assert (Ho4 : honest (w_fault w4)) by (now rewrite T4). assert (Hc4 : w_cwd w4 = cwd) by congruence.
    apply bbind_inv in H as [(u & l6 & w6 & H6 & H)|(e & H6 & ->)]; apply near_inv in H6 as [-> H6];
      apply (mkdir_went K self cwd fs self Ws [b] b w4 _ _ Ho4 Hc4 O4 Ib eq_refl) in H6 as [G6 D6]; pose proof (went_trans _ _ _ _ _ _ _ _ W4 G6) as W6; [|apply Fin; [assumption|discriminate|discriminate]].
    destruct u. destruct (D6 eq_refl) as (q0 & xs & es & Wk). pose proof G6 as [O6 (F6 & C6 & _)].
    assert (Ho6 : honest (w_fault w6)) by (now rewrite F6). assert (Hc6 : w_cwd w6 = cwd) by congruence.
    assert (In_ : forall r7 l7 w7, (if anchored then let+ _ <- near (cache_init_meta K self m) ; near (attach K self) else bret tt) (l ++ [b]) w6 = (r7, (l7, w7)) ->
      l7 = l ++ [b] /\ went [b] w w7).
    { intros r7 l7 w7 Z. destruct anchored; [|injection Z as _ <- <-; auto].
      apply bbind_inv in Z as [(u & l8 & w8 & Z1 & Z)|(e & Z1 & _)]; apply near_inv in Z1 as [-> Z1];
        apply (init_went K self cwd fs self Ws [b] b Ib eq_refl w6 _ _ q0 xs es Ho6 Hc6 O6 Wk) in Z1; pose proof (went_trans _ _ _ _ _ _ _ _ W6 Z1) as W8; [|auto].
      apply near_inv in Z as [-> Z]. apply attach_quiet in Z. split; [reflexivity|]. apply (went_trans _ _ _ _ _ _ w8); [assumption|]. apply went_same; [apply W8|assumption]. }
    apply bbind_inv in H as [(u & l7 & w7 & H7 & H)|(e & H7 & ->)]; apply In_ in H7 as [-> W7]; [|apply Fin; [assumption|discriminate|discriminate]].
    injection H as <- <- <-. apply Fin; [assumption| |discriminate]. intros m0 E. now injection E.
  - destruct up; [|injection H as <- <- <-; now apply Stop].
    destruct (upward_safe (length (pp_parts self)) l w3 r l' w') as (new & El & Ew & Rest); [lia|assumption|congruence|congruence|intros k Hk; lia|exact H|].
    exists new. split; [assumption|]. split; [|assumption]. apply (went_trans _ _ _ _ _ _ w3); [|assumption]. apply went_same; [|assumption]. rewrite Hf. intro q. now left.
Qed.
End Whole.

Lemma mkdir_remote_safe K configured anchored exists_far child_far self up l fs cwd fault r l' w' : is_path self -> pp_parts self <> [] -> honest fault ->
  mkdir_remote K configured anchored exists_far child_far self up l (start fs cwd fault) = (r, (l', w')) ->
  exists new, l' = l ++ new /\ (forall s, In s (states w') -> only_made K self new cwd fs s) /\ in_order K self fs cwd up new /\
    (r = Ok None -> new = []) /\ forall m, r = Ok (Some m) -> exists pre b, new = pre ++ [b] /\ b_meta b = m /\ b_name b = pp_name self.
Proof.
  intros Hp Ne Ho H.
  destruct (mkdir_remote_went K configured anchored exists_far child_far self cwd fs Hp up l (start fs cwd fault) r l' w' Ne Ho eq_refl eq_refl H) as (new & El & [O (_ & _ & h & Eh & F)] & Rest).
  exists new. split; [assumption|]. split; [|assumption]. apply Forall_forall. unfold states. rewrite Eh. constructor; [exact O|]. apply Forall_app. split; [exact F|]. constructor; [intro q; now left|constructor].
Qed.
