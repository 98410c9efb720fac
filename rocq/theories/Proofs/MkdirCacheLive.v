(** * The directories above a remote are made *)
From Coq Require Import String Strings.Byte NArith ZArith Bool List Lia Permutation.
From Verif Require Import Model.Py Model.PurePath Model.Meta Model.MetaXattr Model.Fs Model.PathOps Model.Sparse Model.Cache Model.DataDir Model.MkdirCache
  Spec.FsSpec Spec.LoopSpec Spec.DataDirSpec Spec.MetaSpec Spec.XattrSpec Spec.CacheSpec Spec.MkdirCacheSpec
  Proofs.PyLemmas Proofs.PathLemmas Proofs.FsLemmas Proofs.RunLemmas Proofs.RmtreeProofs Proofs.MoveLemmas Proofs.CopyProofs Proofs.LoopProofs
  Proofs.MetaSymlinkProofs Proofs.MetaXattrProofs Proofs.SparseProofs Proofs.CacheLemmas Proofs.AttrLemmas Proofs.DataDirProofs Proofs.MkdirCacheProofs.
Import ListNotations.

(** ** Attributes set on something that has none *)
Lemma xset_fresh k v xs : ~ In k (map fst xs) -> xset k v xs = xs ++ [(k, v)].
Proof.
  induction xs as [|[k' v'] xs IH]; intro N; [reflexivity|]. cbn [xset map fst In app] in *. destruct (str_eqb k' k) eqn:E.
  - apply str_eqb_eq in E. subst. exfalso. auto.
  - rewrite IH; [reflexivity|auto].
Qed.
Definition raw (l : MetaXattr.xattrs) : Fs.xattrs := map (fun kv => (xkey (key_text (fst kv)), snd kv)) l.
Lemma setall_raw l : NoDup (map fst l) -> forall xs, (forall k, In k (map fst l) -> ~ In (xkey (key_text k)) (map fst xs)) -> setall l xs = xs ++ raw l.
Proof.
  induction l as [|[k v] l IH]; intros N xs H; [cbn; now rewrite app_nil_r|]. rewrite setall_cons. cbn [fst snd map raw] in *. inversion N as [|? ? N1 N2]; subst.
  rewrite xset_fresh by (apply H; now left). rewrite IH; [now rewrite <- app_assoc|assumption|].
  intros k' I. rewrite map_app, in_app_iff. intros [J|[J|[]]]; [apply (H k'); [now right|assumption]|]. cbn [fst] in J.
  apply xkey_inj, key_text_inj in J. now subst.
Qed.
Lemma user_raw l : user_attrs (raw l) = l.
Proof.
  induction l as [|[k v] l IH]; [reflexivity|]. unfold user_attrs in *. cbn [raw map flat_map fst snd]. fold (raw l). rewrite IH.
  unfold xkey. rewrite startswith_app. change (skipn 5 ($"user." ++ key_text k)) with (key_text k). now rewrite text_key_text.
Qed.

Lemma id_bool m : m_id m <> PNone -> meta_bool m = true.
Proof.
  intro H. unfold meta_bool. apply existsb_exists. exists (A Fid, DV (m_id m)). split.
  - unfold dict. rewrite !in_app_iff. right. right. left. cbn [In]. repeat first [left; reflexivity | right].
  - destruct (m_id m); try contradiction; reflexivity.
Qed.
Lemma blank_none v : blank v = false -> v <> PNone. Proof. now intros H ->. Qed.

Section Live.
Variable K : conf.
Hypothesis Pf : prefix_ok (c_prefix K).

(** What the metadata becomes *)
Lemma tells_xattrs u a name : tells u a -> exists m l m', u_meta u = Ok (Some m) /\ meta_bool m = true /\ as_xattrs (c_dateparse K) m (c_prefix K) = Ok l /\
  recorded K name (Some (ADir (setall l []))) = Ok (Some m') /\ carries m' (shown a).
Proof.
  intros (m & Um & I & T & S & B).
  destruct (xattr_round_trip (c_dateparse K) (c_legacy K) a m (c_prefix K) T I Pf S) as (l & m' & El & Cm & R).
  exists m, l, m'. split; [assumption|]. split; [apply id_bool; rewrite (init_id _ _ I); now apply blank_none|]. split; [assumption|]. split; [|assumption].
  cbn [recorded]. rewrite setall_raw; [|exact (write_nodup (c_dateparse K) _ _ _ _ x_fields_nodup El)|intros k _ []].
  cbn [app]. rewrite user_raw. rewrite (R [] l); [|intros k b []|rewrite app_nil_r; apply Permutation_refl]. cbn [rbind].
  rewrite id_bool; [reflexivity|]. destruct Cm as (Cm & _). specialize (Cm (c_dateparse K) Fid eq_refl). cbn [getf] in Cm. apply Ok_inj in Cm.
  rewrite Cm. unfold shown. rewrite B. destruct (a Fid); discriminate.
Qed.

Lemma sets_run Q l : forall w xs es, no_fault w -> good_fs (w_fs w) -> get (w_fs w) Q = Some (Dir xs es) ->
  exists w', p_setxattrs (path_of Q) l w = (Ok tt, w') /\ w_cwd w' = w_cwd w /\ w_fault w' = w_fault w /\ good_fs (w_fs w') /\
    get (w_fs w') Q = Some (Dir (setall l xs) es) /\ forall q, q <> Q -> look (w_fs w') q = look (w_fs w) q.
Proof.
  induction l as [|[k v] l IH]; intros w xs es N G H.
  - exists w. auto 6.
  - destruct (setxattr_of w Q (Dir xs es) xs (key_text k) v N G H eq_refl) as (w1 & E1 & C1). cbn [with_xattrs] in C1. pose proof C1 as (F1 & W1 & _ & T1).
    destruct (IH w1 (xset (xkey (key_text k)) v xs) es) as (w' & E & C & T & G' & L & O).
    + now unfold no_fault; rewrite T1.
    + rewrite F1. now apply (good_fs_xattrs _ _ (Dir xs es)).
    + rewrite F1. now apply (get_put_self _ _ (Dir xs es)).
    + exists w'. unfold p_setxattrs in *. cbn [each fst snd]. unfold bind. rewrite E1. split; [exact E|]. split; [congruence|]. split; [congruence|]. split; [assumption|].
      split; [exact L|]. intros q Nq. rewrite (O q Nq), F1. now apply (look_put_xattrs _ _ (Dir xs es)).
Qed.

Lemma exists_found w Q n : no_fault w -> good_fs (w_fs w) -> get (w_fs w) Q = Some n -> (forall t, n <> Link t) ->
  exists w', p_exists (path_of Q) w = (Ok true, w') /\ same w w'.
Proof.
  intros N G H L. destruct (test_run true (path_of Q) (fun _ => true) w N) as (w' & S & E). exists w'. split; [|assumption].
  unfold p_exists. rewrite E, (walk_of _ _ _ _ _ G H); [reflexivity|auto].
Qed.
Lemma not_link w Q xs es : no_fault w -> good_fs (w_fs w) -> get (w_fs w) Q = Some (Dir xs es) ->
  exists w', p_is_symlink (path_of Q) w = (Ok false, w') /\ same w w'.
Proof.
  intros N G H. destruct (test_run false (path_of Q) (fun n => match n with Link _ => true | _ => false end) w N) as (w' & S & E). exists w'. split; [|assumption].
  unfold p_is_symlink. rewrite E, (walk_of _ _ _ _ _ G H); [reflexivity|discriminate].
Qed.
Lemma same_facts w w' Q n : same w w' -> no_fault w -> good_fs (w_fs w) -> get (w_fs w) Q = Some n ->
  no_fault w' /\ good_fs (w_fs w') /\ get (w_fs w') Q = Some n.
Proof. intros (-> & _ & _ & T). unfold no_fault. rewrite T. auto. Qed.

Lemma set_run u a Q es w : tells u a -> no_fault w -> good_fs (w_fs w) -> get (w_fs w) Q = Some (Dir [] es) ->
  forall name, exists m m' xs w', u_meta u = Ok (Some m) /\ cache_set K (path_of Q) (Some m) w = (Ok tt, w') /\ w_cwd w' = w_cwd w /\ w_fault w' = w_fault w /\ good_fs (w_fs w') /\
    get (w_fs w') Q = Some (Dir xs es) /\ recorded K name (Some (ADir xs)) = Ok (Some m') /\ carries m' (shown a) /\
    forall q, q <> Q -> look (w_fs w') q = look (w_fs w) q.
Proof.
  intros T N G H name. destruct (tells_xattrs u a name T) as (m & l & m' & Um & Bm & El & R & C).
  assert (ND : forall t, Dir [] es <> Link t) by discriminate.
  destruct (exists_found w Q _ N G H ND) as (w1 & E1 & S1). destruct (same_facts _ _ _ _ S1 N G H) as (N1 & G1 & H1).
  destruct (not_link w1 Q _ _ N1 G1 H1) as (w2 & E2 & S2). destruct (same_facts _ _ _ _ S2 N1 G1 H1) as (N2 & G2 & H2).
  destruct (exists_found w2 Q _ N2 G2 H2 ND) as (w3 & E3 & S3). destruct (same_facts _ _ _ _ S3 N2 G2 H2) as (N3 & G3 & H3).
  destruct (not_link w3 Q _ _ N3 G3 H3) as (w4 & E4 & S4). destruct (same_facts _ _ _ _ S4 N3 G3 H3) as (N4 & G4 & H4).
  pose proof (same_trans _ _ _ (same_trans _ _ _ S1 S2) (same_trans _ _ _ S3 S4)) as (F & Cw & _ & Tf).
  destruct (sets_run Q l w4 [] es N4 G4 H4) as (w' & E & C' & T' & G' & L & O).
  exists m, m', (setall l []), w'. split; [assumption|]. split.
  { cbn [cache_set]. rewrite Bm. unfold p_exists_not_symlink, eat_set, bind, lift, ret. rewrite E1, E2. cbn [negb]. rewrite E3, E4, El. exact E. }
  split; [congruence|]. split; [congruence|]. split; [assumption|]. split; [assumption|]. split; [assumption|]. split; [assumption|].
  intros q Nq. now rewrite (O q Nq), F.
Qed.

Variable A : place.
Notation at_ u := (A ++ u_parts u).

Lemma up_local_of u : up_local (path_of A) u = path_of (at_ u). Proof. reflexivity. Qed.

Lemma up_there u w : no_fault w -> good_fs (w_fs w) -> is_dir_at (w_fs w) (at_ u) ->
  exists w', mkdir_up K (path_of A) u w = (Ok tt, w') /\ same w w'.
Proof.
  intros N G (xs & L). apply look_dir in L as (es & L). destruct (exists_found w _ _ N G L) as (w' & E & S); [discriminate|].
  exists w'. split; [|assumption]. unfold mkdir_up, bind. rewrite up_local_of, E. reflexivity.
Qed.

Lemma up_made_one u d x w a : tells u a -> at_ u = d ++ [x] -> good_name x -> no_fault w -> good_fs (w_fs w) -> is_dir_at (w_fs w) d -> look (w_fs w) (d ++ [x]) = None ->
  exists w', mkdir_up K (path_of A) u w = (Ok tt, w') /\ w_fault w' = w_fault w /\ good_fs (w_fs w') /\ is_dir_at (w_fs w') (at_ u) /\
    (forall q, q <> at_ u -> look (w_fs w') q = look (w_fs w) q) /\
    forall name, exists m', recorded K name (look (w_fs w') (at_ u)) = Ok (Some m') /\ carries m' (shown a).
Proof.
  intros T Eq X N G D L.
  destruct (test_run true (path_of (d ++ [x])) (fun _ => true) w N) as (w1 & S1 & E1). rewrite (walk_of_missing _ _ _ _ _ G D X L) in E1.
  pose proof S1 as (F1 & _ & _ & T1). assert (N1 : no_fault w1) by (unfold no_fault; now rewrite T1). rewrite <- F1 in G, D, L.
  destruct (sys_ok (fun fs cwd => match walk fs cwd false (path_of (d ++ [x])) with
     | Found _ _ => fail EEXIST | Missing d0 x0 => Ok (tt, put fs (d0 ++ [x0]) (Dir [] [])) | Fail e => fail e end) w1 tt (put (w_fs w1) (d ++ [x]) (Dir [] [])) N1) as (w2 & E2 & C2).
  { now rewrite (walk_of_missing _ _ _ _ _ G D X L). }
  pose proof C2 as (F2 & W2 & _ & T2). assert (N2 : no_fault w2) by (unfold no_fault; now rewrite T2).
  pose proof (dir_plus _ _ _ D L) as (_ & P2 & P3). apply look_dir in P2 as (es & P2). rewrite <- F2 in P2.
  assert (G2 : good_fs (w_fs w2)) by (rewrite F2; apply good_put_new; auto; apply good_dir; [exact (NoDup_nil _)|intros ? []|intros ? ? []]).
  destruct (set_run u a (d ++ [x]) es w2 T N2 G2 P2 []) as (m & m' & xs & w' & Um & E & C' & T' & G' & L' & R & Cm & O).
  exists w'. rewrite Eq. split.
  { unfold mkdir_up. rewrite up_local_of, Eq. unfold bind at 1. unfold p_exists. rewrite E1. unfold p_mkdir. cbn [mkdir_parents]. unfold bind at 1, catch, sys_mkdir. rewrite E2.
    rewrite Um. exact E. }
  split; [congruence|]. split; [assumption|]. split; [exists xs; apply look_dir; eauto|]. split.
  { intros q Nq. rewrite (O q Nq), F2, (P3 q Nq). now rewrite F1. }
  intro name. exists m'. split; [|assumption].
  replace (look (w_fs w') (d ++ [x])) with (Some (ADir xs)) by (symmetry; apply look_dir; eauto). exact R.
Qed.

Lemma up_made u d x w : (exists a, tells u a) -> at_ u = d ++ [x] -> good_name x -> no_fault w -> good_fs (w_fs w) -> is_dir_at (w_fs w) d -> look (w_fs w) (d ++ [x]) = None ->
  exists w', mkdir_up K (path_of A) u w = (Ok tt, w') /\ w_fault w' = w_fault w /\ good_fs (w_fs w') /\ is_dir_at (w_fs w') (at_ u) /\
    (forall q, q <> at_ u -> look (w_fs w') q = look (w_fs w) q) /\
    forall a name, tells u a -> exists m', recorded K name (look (w_fs w') (at_ u)) = Ok (Some m') /\ carries m' (shown a).
Proof.
  intros (a & T) Eq X N G D L. destruct (up_made_one u d x w a T Eq X N G D L) as (w' & E & B1 & B2 & B3 & B4 & _).
  exists w'. split; [assumption|]. split; [assumption|]. split; [assumption|]. split; [assumption|]. split; [assumption|].
  intros b name Tb. destruct (up_made_one u d x w b Tb Eq X N G D L) as (w2 & E2 & _ & _ & _ & _ & Q). rewrite E in E2. injection E2 as <-. apply Q.
Qed.

Lemma tops_long l : forall done p, In p (tops done l) -> (length done <= length p)%nat.
Proof.
  induction l as [|x l IH]; intros done p; cbn [tops In]; [intros [<-|[]]; lia|]. intros [<-|I]; [lia|]. apply IH in I. rewrite app_length in I. lia.
Qed.

Lemma ups_live names : Forall good_name names -> forall l done w, map u_parts l = tops done names -> no_fault w -> good_fs (w_fs w) ->
  (is_dir_at (w_fs w) (A ++ done) \/ exists d x, done = d ++ [x] /\ good_name x /\ is_dir_at (w_fs w) (A ++ d)) ->
  (forall u, In u l -> free_or_dir (w_fs w) (at_ u)) -> (forall u, In u l -> exists a, tells u a) ->
  exists w', each (mkdir_up K (path_of A)) l w = (Ok tt, w') /\ (forall u, In u l -> is_dir_at (w_fs w') (at_ u)) /\
    (forall q, look (w_fs w') q = look (w_fs w) q \/ look (w_fs w) q = None /\ exists u, In u l /\ q = at_ u) /\
    forall u a name, In u l -> look (w_fs w) (at_ u) = None -> tells u a -> exists m', recorded K name (look (w_fs w') (at_ u)) = Ok (Some m') /\ carries m' (shown a).
Proof.
  intro Hn. induction Hn as [|x names X Hn IH]; intros l done w El N G Hd Hf Ht.
  all: destruct l as [|u l]; [discriminate|]; cbn [map tops] in El; injection El as Eu El.
  all: assert (Step : exists w1, mkdir_up K (path_of A) u w = (Ok tt, w1) /\ no_fault w1 /\ good_fs (w_fs w1) /\ is_dir_at (w_fs w1) (at_ u) /\
    (forall q, q <> at_ u -> look (w_fs w1) q = look (w_fs w) q) /\
    (look (w_fs w) (at_ u) <> None -> look (w_fs w1) (at_ u) = look (w_fs w) (at_ u)) /\
    (look (w_fs w) (at_ u) = None -> forall a name, tells u a -> exists m', recorded K name (look (w_fs w1) (at_ u)) = Ok (Some m') /\ carries m' (shown a))).
  1,3: destruct (Hf u (or_introl eq_refl)) as [Fr|Di].
  1,3: destruct Hd as [(xs & Hd)|(d & y & -> & Y & Hd)]; [rewrite Eu in Fr; congruence|];
    (destruct (up_made u (A ++ d) y w) as (w1 & E1 & T1 & G1 & D1 & O1 & R1); [apply Ht; now left|rewrite Eu; now rewrite app_assoc|assumption..|now rewrite <- app_assoc, <- Eu|]);
    exists w1; split; [assumption|]; split; [unfold no_fault; now rewrite T1|]; split; [assumption|]; split; [assumption|]; split; [assumption|];
    split; [intro Z; contradiction|intros _; exact R1].
  1,2: destruct (up_there u w N G Di) as (w1 & E1 & S1); exists w1; split; [assumption|]; destruct S1 as (-> & _ & _ & T1);
    split; [unfold no_fault; now rewrite T1|]; split; [assumption|]; split; [assumption|]; split; [reflexivity|]; split; [reflexivity|];
    destruct Di as (xs & Di); rewrite Di; discriminate.
  - destruct Step as (w1 & E1 & N1 & G1 & D1 & O1 & P1 & R1). destruct l; [|discriminate]. exists w1. cbn [each]. unfold bind, ret. rewrite E1. split; [reflexivity|].
    split; [intros u' [<-|[]]; assumption|]. split.
    + intro q. destruct (place_dec q (at_ u)) as [->|Nq]; [|left; now apply O1]. destruct (look (w_fs w) (at_ u)) eqn:Lk; [left; rewrite P1; [now rewrite ?Lk|congruence]|].
      right. split; [reflexivity|]. exists u. split; [now left|reflexivity].
    + intros u' a name [<-|[]] Lk T. now apply R1.
  - destruct Step as (w1 & E1 & N1 & G1 & D1 & O1 & P1 & R1).
    assert (Far : forall u', In u' l -> at_ u' <> at_ u).
    { intros u' I E. apply app_inv_head in E. apply (in_map u_parts) in I. rewrite El in I. apply tops_long in I. rewrite E, Eu, app_length in I. cbn [length] in I. lia. }
    destruct (IH l (done ++ [x]) w1 El N1 G1) as (w' & E & Q1 & Q2 & Q3).
    + right. exists done, x. split; [reflexivity|]. split; [assumption|]. now rewrite <- Eu.
    + intros u' I. unfold free_or_dir, is_dir_at. rewrite (O1 _ (Far u' I)). apply (Hf u'). now right.
    + intros u' I. apply Ht. now right.
    + exists w'. cbn [each]. unfold bind at 1. rewrite E1. split; [exact E|].
      assert (Keep : look (w_fs w') (at_ u) = look (w_fs w1) (at_ u)).
      { destruct (Q2 (at_ u)) as [Z|(Z & _)]; [assumption|]. destruct D1 as (xs & D1). congruence. }
      split; [intros u' [<-|I]; [unfold is_dir_at; rewrite Keep; exact D1|now apply Q1]|]. split.
      * intro q. destruct (place_dec q (at_ u)) as [->|Nq].
        -- rewrite Keep. destruct (look (w_fs w) (at_ u)) eqn:Lk; [left; apply P1; congruence|]. right. split; [reflexivity|]. exists u. split; [now left|reflexivity].
        -- rewrite <- (O1 q Nq). destruct (Q2 q) as [Z|(Z & u' & I & Z')]; [now left|]. right. split; [assumption|]. exists u'. split; [now right|assumption].
      * intros u' a name [<-|I] Lk T; [rewrite Keep; now apply R1|]. apply (Q3 u' a name I); [|assumption]. now rewrite (O1 _ (Far u' I)).
Qed.

Lemma mkdir_cache_live names parents fs cwd fault : good_fs fs -> (forall t, fault t = None) -> is_dir_at fs A -> Forall good_name names ->
  map u_parts (rev parents) = tops [] names -> (forall u, In u parents -> free_or_dir fs (at_ u)) -> (forall u, In u parents -> exists a, tells u a) ->
  exists w', mkdir_cache K (path_of A) parents (start fs cwd fault) = (Ok tt, w') /\ (forall u, In u parents -> is_dir_at (w_fs w') (at_ u)) /\
    (forall q, look (w_fs w') q = look fs q \/ look fs q = None /\ exists u, In u parents /\ q = at_ u) /\
    forall u a name, In u parents -> look fs (at_ u) = None -> tells u a -> exists m', recorded K name (look (w_fs w') (at_ u)) = Ok (Some m') /\ carries m' (shown a).
Proof.
  intros G N D Hn El Hf Ht. destruct (ups_live names Hn (rev parents) [] (start fs cwd fault) El N G) as (w' & E & Q1 & Q2 & Q3).
  - left. now rewrite app_nil_r.
  - intros u I. apply Hf. now apply in_rev.
  - intros u I. apply Ht. now apply in_rev.
  - exists w'. split; [exact E|]. split; [intros u I; apply Q1; now apply in_rev in I|]. split.
    + intro q. destruct (Q2 q) as [Z|(Z & u & I & Z')]; [now left|]. right. split; [assumption|]. exists u. split; [now apply in_rev|assumption].
    + intros u a name I. apply Q3. now apply in_rev in I.
Qed.
End Live.
