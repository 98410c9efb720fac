From Coq Require Import String Strings.Byte NArith ZArith Bool List Lia.
From Verif Require Import Model.Py Model.PurePath Model.Meta Model.MetaXattr Model.Fs Model.PathOps Model.Sparse Model.Cache Model.DataDir Model.MkdirCache
  Spec.FsSpec Spec.LoopSpec Spec.DataDirSpec Spec.CacheSpec Spec.MkdirCacheSpec
  Proofs.PyLemmas Proofs.PathLemmas Proofs.FsLemmas Proofs.RunLemmas Proofs.RmtreeProofs Proofs.MoveLemmas Proofs.CopyProofs Proofs.LoopProofs Proofs.Hoare
  Proofs.SparseProofs Proofs.DataDirProofs.
Import ListNotations.

(** ** Paths lead where they led when things are added *)
Definition alike (v v' : thing) : Prop :=
  match v, v' with ADir _, ADir _ => True | _, _ => v = v' end.
Definition grows (s s' : node) : Prop := forall q v, look s q = Some v -> exists v', look s' q = Some v' /\ alike v v'.
Lemma alike_refl v : alike v v. Proof. now destruct v. Qed.
Lemma alike_trans a b c : alike a b -> alike b c -> alike a c.
Proof. destruct a, b, c; cbn; try congruence; auto. Qed.
Lemma grows_refl s : grows s s. Proof. intros q v E. exists v. split; [assumption|apply alike_refl]. Qed.
Lemma grows_trans a b c : grows a b -> grows b c -> grows a c.
Proof. intros A B q v E. destruct (A q v E) as (v1 & E1 & L1). destruct (B q v1 E1) as (v2 & E2 & L2). exists v2. split; [assumption|now apply (alike_trans _ v1)]. Qed.

Lemma walk_grows s s' : grows s s' -> forall follow b cur comps q n,
  walk_from s follow b cur comps = Found q n -> exists n', walk_from s' follow b cur comps = Found q n'.
Proof.
  intros P follow.
  assert (PG : forall q n, get s q = Some n -> exists n', get s' q = Some n' /\
    match n with Dir _ _ => exists xs es, n' = Dir xs es | File _ _ => exists d xs, n' = File d xs | Link t => n' = Link t end).
  { intros q n G. destruct n as [d xs|xs es|t].
    - destruct (P q (AFile d xs)) as (v & E & A); [now apply look_file|]. destruct v; try discriminate. apply look_file in E. eauto.
    - destruct (P q (ADir xs)) as (v & E & A); [apply look_dir; eauto|]. destruct v; try contradiction; try discriminate A. apply look_dir in E as (es' & E). eauto.
    - destruct (P q (ALink t)) as (v & E & A); [now apply look_link|]. destruct v; try discriminate. injection A as <-. apply look_link in E. eauto. }
  induction b as [|b IHb]; intros cur comps; revert cur; induction comps as [|c rest IH]; intros cur q n H; rewrite walk_eq in H; rewrite walk_eq;
    destruct (get s cur) as [m|] eqn:G; try discriminate; destruct (PG _ _ G) as (m' & G' & Km); rewrite G'.
  1,3: injection H as <- _; eauto.
  all: destruct m as [d xs|xs es|t]; try discriminate; destruct Km as (xs' & es' & ->);
    destruct (str_eqb c $"."); [now apply IH in H|]; destruct (str_eqb c $".."); [now apply IH in H|];
    destruct (entry c es) as [n1|] eqn:E; [|destruct rest; discriminate];
    assert (K1 : get s (cur ++ [c]) = Some n1) by (now rewrite get_snoc, G);
    destruct (PG _ _ K1) as (n2 & K2 & Kn); rewrite get_snoc, G' in K2; rewrite K2;
    destruct n1 as [d1 x1|x1 e1|t1]; [destruct Kn as (d2 & x2 & ->); now apply IH in H|destruct Kn as (x2 & e2 & ->); now apply IH in H|subst n2].
  - destruct (match rest with [] => negb follow | _ => false end); [|discriminate]. injection H as <- _. eauto.
  - destruct (match rest with [] => negb follow | _ => false end); [injection H as <- _; eauto|]. destruct t1; [discriminate|]. now apply IHb in H.
Qed.
Lemma leads_grows s s' cwd p q : grows s s' -> leads s cwd p q -> leads s' cwd p q.
Proof. intros G (n & W). unfold leads, walk in *. now apply (walk_grows _ _ G) in W. Qed.
Lemma walk_to s s' cwd f p q n n' : grows s s' -> walk s cwd f p = Found q n -> get s' q = Some n' -> walk s' cwd f p = Found q n'.
Proof.
  intros G W E. unfold walk in *. destruct (walk_grows _ _ G _ _ _ _ _ _ W) as (n2 & W2). rewrite W2. apply walk_found_get in W2. congruence.
Qed.
Lemma grows_plus s s' q v : plus q v s s' -> grows s s'.
Proof. intros (P1 & P2 & P3) q' v' E. destruct (place_dec q' q) as [->|N]; [congruence|]. exists v'. rewrite (P3 _ N). split; [assumption|apply alike_refl]. Qed.
Lemma grows_attrs s q xs es ys : get s q = Some (Dir xs es) -> grows s (put s q (Dir ys es)).
Proof.
  intros G q' v E. destruct (place_dec q' q) as [->|N].
  - exists (ADir ys). split; [|rewrite (proj2 (look_dir s q xs)) in E by eauto; injection E as <-; exact I].
    unfold look. change (Dir ys es) with (with_xattrs (Dir xs es) ys). now rewrite (get_put_self _ _ _ _ G).
  - exists v. change (Dir ys es) with (with_xattrs (Dir xs es) ys). rewrite (look_put_xattrs _ _ _ _ _ G N). split; [assumption|apply alike_refl].
Qed.

Lemma in_xset k v xs kv : In kv (xset k v xs) -> kv = (k, v) \/ In kv xs.
Proof.
  induction xs as [|[k' v'] xs IH]; cbn [xset]; [intros [<-|[]]; now left|]. destruct (str_eqb k' k).
  - intros [<-|I]; [now left|]. right. now right.
  - intros [<-|I]; [right; now left|]. destruct (IH I) as [->|I']; [now left|]. right. now right.
Qed.

Lemma mkdir_ok p w w' : p_mkdir false p w = (Ok tt, w') ->
  exists d x, walk (w_fs w) (w_cwd w) false p = Missing d x /\ changed (put (w_fs w) (d ++ [x]) (Dir [] [])) w w'.
Proof.
  intro H. pose proof (mkdir_inv _ _ _ _ _ H) as [S|(_ & Q)]; [|exact Q]. exfalso. unfold p_mkdir in H. cbn [mkdir_parents] in H.
  apply catch_inv in H as [([] & H & _)|(e & w1 & H & H2)].
  - apply sys_inv in H as [(e & E & _)|(a & s & _ & E & C)]; [discriminate|].
    destruct (walk (w_fs w) (w_cwd w) false p) as [q n|d x|er] eqn:W; try discriminate. apply Ok_inj in E. injection E as <-.
    apply (missing_none _ _ _ _ _ _) in W as (D & G).
    destruct C as (F & _), S as (F0 & _). rewrite F0 in F. rewrite F in G at 1. subst s.
    destruct D as (xs & es & D). rewrite get_put_new in G; [discriminate|]. exists xs. apply look_dir. eauto.
  - destruct e; try discriminate. match goal with er : errno |- _ => destruct er end; discriminate.
Qed.

(** ** Only additions *)
Section Safe.
Variables (K : conf) (anchor : ppath) (parents : list above) (cwd : place) (fs : node).
Notation OK := (only_parents K anchor parents cwd fs).
Definition stepped (w w' : world) : Prop := OK (w_fs w') /\ runs OK w w'.
Lemma stepped_same w w' : OK (w_fs w) -> same w w' -> stepped w w'.
Proof. intros H S. split; [now destruct S as (-> & _)|now apply runs_same]. Qed.
Lemma stepped_trans a b c : stepped a b -> stepped b c -> stepped a c.
Proof. intros [_ R1] [K2 R2]. split; [assumption|now apply (runs_trans _ _ b)]. Qed.
Lemma stepped_changed s w w' : OK s -> changed s w w' -> stepped w w'.
Proof. intros H C. split; [now destruct C as (-> & _)|now apply (runs_changed _ _ _ _ C)]. Qed.

Lemma ok_new s s' q0 u : OK s -> plus q0 (ADir []) s s' -> In u parents -> leads s' cwd (up_local anchor u) q0 -> OK s'.
Proof.
  intros H P I L q. pose proof (grows_plus _ _ _ _ P) as Gr. destruct P as (P1 & P2 & P3). destruct (place_dec q q0) as [->|N].
  - right. split; [|exists [], u; auto]. destruct (H q0) as [E|(E & _)]; congruence.
  - rewrite (P3 q N). destruct (H q) as [E|(E & xs & u' & E' & I' & L' & F')]; [now left|]. right. split; [assumption|].
    exists xs, u'. split; [assumption|]. split; [assumption|]. split; [now apply (leads_grows s)|assumption].
Qed.
Lemma ok_attrs s q0 u xs es ys : OK s -> look fs q0 = None -> In u parents -> leads s cwd (up_local anchor u) q0 -> get s q0 = Some (Dir xs es) ->
  Forall (says K (u_meta u)) ys -> OK (put s q0 (Dir ys es)).
Proof.
  intros H N I L G F q. pose proof (grows_attrs _ _ _ _ ys G) as Gr. destruct (place_dec q q0) as [->|Nq].
  - right. split; [assumption|]. exists ys, u. split; [apply look_dir; exists es; now apply (get_put_self _ _ (Dir xs es))|]. split; [assumption|].
    split; [now apply (leads_grows s)|assumption].
  - change (Dir ys es) with (with_xattrs (Dir xs es) ys) in *. rewrite (look_put_xattrs _ _ _ _ _ G Nq).
    destruct (H q) as [E|(E & zs & u' & E' & I' & L' & F')]; [now left|]. right. split; [assumption|].
    exists zs, u'. split; [assumption|]. split; [assumption|]. split; [now apply (leads_grows s)|assumption].
Qed.

(** The directory of [u] is made and has some of the attributes. *)
Definition there (u : above) (q0 : place) (s : node) : Prop :=
  OK s /\ look fs q0 = None /\ In u parents /\
  exists xs es, Forall (says K (u_meta u)) xs /\
    walk s cwd true (up_local anchor u) = Found q0 (Dir xs es) /\ walk s cwd false (up_local anchor u) = Found q0 (Dir xs es).

Lemma sets_step u q0 l : (forall b v, In (b, v) l -> says K (u_meta u) ($"user." ++ key_text b, v)) ->
  forall w r w', w_cwd w = cwd -> there u q0 (w_fs w) -> p_setxattrs (up_local anchor u) l w = (r, w') -> stepped w w'.
Proof.
  intro Hl. induction l as [|[b v] l IH]; intros w r w' Hc T H.
  - injection H as <- <-. apply stepped_same; [apply T|apply same_refl].
  - unfold p_setxattrs in H. cbn [each fst snd] in H.
    assert (Step : forall r1 w1, p_setxattr (up_local anchor u) (key_text b) v w = (r1, w1) -> stepped w w1 /\ there u q0 (w_fs w1) /\ w_cwd w1 = cwd).
    { intros r1 w1 H1. destruct T as (T1 & T2 & T3 & xs & es & T4 & T5 & T6). apply sys_inv in H1 as [(e & -> & S & _)|(a & s & -> & E & C)].
      - split; [now apply stepped_same|]. destruct S as (-> & -> & _). split; [|assumption]. split; [assumption|]. split; [assumption|]. split; [assumption|]. exists xs, es. auto.
      - unfold lookup in E. rewrite Hc, T5 in E. cbn [rbind fst snd node_xattrs with_xattrs] in E. apply Ok_inj in E. injection E as _ <-.
        assert (G : get (w_fs w) q0 = Some (Dir xs es)) by (now apply walk_found_get in T5).
        assert (F : Forall (says K (u_meta u)) (xset (xkey (key_text b)) v xs)).
        { apply Forall_forall. intros kv I. apply in_xset in I as [->|I]; [apply Hl; now left|]. rewrite Forall_forall in T4. auto. }
        assert (O : OK (put (w_fs w) q0 (Dir (xset (xkey (key_text b)) v xs) es))) by (apply (ok_attrs _ _ u xs); auto; now exists (Dir xs es)).
        split; [now apply (stepped_changed (put (w_fs w) q0 (Dir (xset (xkey (key_text b)) v xs) es)))|]. destruct C as (-> & -> & _). split; [|assumption].
        pose proof (grows_attrs _ _ _ _ (xset (xkey (key_text b)) v xs) G) as Gr.
        assert (G' : get (put (w_fs w) q0 (Dir (xset (xkey (key_text b)) v xs) es)) q0 = Some (Dir (xset (xkey (key_text b)) v xs) es)) by (now apply (get_put_self _ _ (Dir xs es))).
        split; [assumption|]. split; [assumption|]. split; [assumption|]. eexists _, es. split; [exact F|]. split; now apply (walk_to (w_fs w) _ _ _ _ _ (Dir xs es)). }
    apply bind_inv in H as [([] & w1 & H1 & H)|(e & H1 & ->)]; [|now apply Step in H1].
    apply Step in H1 as (S1 & T1 & C1). apply (stepped_trans _ w1); [assumption|].
    apply (IH (fun b v I => Hl b v (or_intror I)) w1 r w' C1 T1 H).
Qed.

Lemma there_same u q0 w w' : there u q0 (w_fs w) -> same w w' -> there u q0 (w_fs w').
Proof. intros T (-> & _). exact T. Qed.

Lemma set_step u q0 m w r w' : honest (w_fault w) -> w_cwd w = cwd -> there u q0 (w_fs w) -> u_meta u = Ok m ->
  cache_set K (up_local anchor u) m w = (r, w') -> stepped w w'.
Proof.
  intros Ho Hc T Hm H. pose proof T as (T1 & T2 & T3 & xs & es & T4 & T5 & T6).
  assert (Same : forall w1, same w w1 -> stepped w w1) by (intros w1 S; now apply stepped_same).
  destruct m as [x|]; [|injection H as <- <-; apply Same, same_refl]. cbn [cache_set] in H. destruct (meta_bool x); [|injection H as <- <-; apply Same, same_refl].
  set (p := up_local anchor u) in *.
  assert (Ex : forall v r1 v', honest (w_fault v) -> same w v -> p_exists p v = (r1, v') -> same w v' /\ r1 <> Ok false).
  { intros v r1 v' Hv Sv Hx. apply (test_honest _ _ _ _ _ _ Hv) in Hx as [Sx Kx]. split; [now apply (same_trans _ v)|]. intros ->.
    destruct Sv as (Fv & Cv & _). rewrite Fv, Cv, Hc in Kx. specialize (Kx _ _ T5). discriminate. }
  assert (Sy : forall v r1 v', honest (w_fault v) -> same w v -> p_is_symlink p v = (r1, v') -> same w v' /\ r1 <> Ok true).
  { intros v r1 v' Hv Sv Hx. apply (test_honest _ _ _ _ _ _ Hv) in Hx as [Sx Kx]. split; [now apply (same_trans _ v)|]. intros ->.
    destruct Kx as (q & n & Wq & En). destruct Sv as (Fv & Cv & _). rewrite Fv, Cv, Hc, T6 in Wq. injection Wq as <- <-. discriminate. }
  assert (Hon : forall v, same w v -> honest (w_fault v)) by (intros v (_ & _ & _ & ->); assumption).
  apply bind_inv in H as [(e & w1 & H1 & H)|(e & H1 & ->)].
  2:{ apply Same. unfold p_exists_not_symlink in H1. apply bind_inv in H1 as [(e1 & w2 & H1 & H2)|(e1 & H1 & _)]; [|now apply (Ex w) in H1; [destruct H1| |apply same_refl]].
      apply (Ex w) in H1 as [S1 N1]; [|assumption|apply same_refl]. destruct e1; [|congruence].
      apply bind_inv in H2 as [(e2 & w3 & H2 & H3)|(e2 & H2 & _)]; [|now apply (Sy w2) in H2 as [S2 _]; [|apply Hon|]].
      discriminate. }
  assert (Q1 : same w w1 /\ e = true).
  { unfold p_exists_not_symlink in H1. apply bind_inv in H1 as [(e1 & w2 & H1 & H2)|(e1 & _ & H1)]; [|discriminate].
    apply (Ex w) in H1 as [S1 N1]; [|assumption|apply same_refl]. destruct e1; [|congruence].
    apply bind_inv in H2 as [(e2 & w3 & H2 & H3)|(e2 & _ & H2)]; [|discriminate].
    apply (Sy w2) in H2 as [S2 N2]; [|now apply Hon|assumption]. injection H3 as <- <-. split; [assumption|]. now destruct e2. }
  destruct Q1 as [S1 ->]. unfold eat_set in H.
  apply bind_inv in H as [(e1 & w2 & H2 & H)|(e1 & H2 & ->)]; [|apply (Ex w1) in H2 as [S2 _]; [now apply Same|now apply Hon|assumption]].
  apply (Ex w1) in H2 as [S2 N2]; [|now apply Hon|assumption]. destruct e1; [|congruence].
  apply bind_inv in H as [(e2 & w3 & H3 & H)|(e2 & H3 & ->)]; [|apply (Sy w2) in H3 as [S3 _]; [now apply Same|now apply Hon|assumption]].
  apply (Sy w2) in H3 as [S3 N3]; [|now apply Hon|assumption]. destruct e2; [congruence|].
  apply bind_inv in H as [(l & w4 & H4 & H)|(e4 & H4 & ->)]; [|injection H4 as _ <-; now apply Same].
  injection H4 as El <-. apply (stepped_trans _ w3); [now apply Same|].
  apply (sets_step u q0 l) in H; [assumption| |destruct S3 as (_ & -> & _); assumption|now apply (there_same _ _ w)].
  intros b v I. exists x, l, b. auto.
Qed.

Lemma up_step u w r w' : In u parents -> honest (w_fault w) -> w_cwd w = cwd -> OK (w_fs w) ->
  mkdir_up K anchor u w = (r, w') -> stepped w w'.
Proof.
  intros I Ho Hc O H. unfold mkdir_up in H.
  apply bind_inv in H as [(e & w1 & H1 & H)|(e & H1 & ->)]; [|apply quiet_exists in H1; now apply stepped_same].
  apply quiet_exists in H1. destruct e; [injection H as <- <-; now apply stepped_same|].
  assert (O1 : OK (w_fs w1)) by (now destruct H1 as (-> & _)). apply (stepped_trans _ w1); [now apply stepped_same|].
  assert (C1 : w_cwd w1 = cwd) by (now destruct H1 as (_ & -> & _)). assert (Ho1 : honest (w_fault w1)) by (now destruct H1 as (_ & _ & _ & ->)).
  clear H1 O Hc Ho w.
  apply bind_inv in H as [([] & w2 & H2 & H)|(e & H2 & ->)].
  2:{ apply mkdir_inv in H2 as [S|(E & _)]; [now apply stepped_same|discriminate]. }
  apply mkdir_ok in H2 as (d & x & W & C). rewrite C1 in W.
  pose proof (missing_none _ _ _ _ _ _ W) as (D & Gn).
  assert (P : plus (d ++ [x]) (ADir []) (w_fs w1) (put (w_fs w1) (d ++ [x]) (Dir [] []))) by (apply plus_put; auto).
  pose proof (walk_made_dir _ _ _ _ _ W) as W1.
  assert (W2 : walk (put (w_fs w1) (d ++ [x]) (Dir [] [])) cwd false (up_local anchor u) = Found (d ++ [x]) (Dir [] [])).
  { unfold walk in *. destruct (walk_made _ _ _ _ Gn _ _ _ W false (or_introl eq_refl)) as [Q|Q]; [exact Q|congruence]. }
  assert (O2 : OK (put (w_fs w1) (d ++ [x]) (Dir [] []))) by (apply (ok_new (w_fs w1) _ (d ++ [x]) u); auto; now exists (Dir [] [])).
  apply (stepped_trans _ w2); [now apply (stepped_changed (put (w_fs w1) (d ++ [x]) (Dir [] [])))|].
  assert (T : there u (d ++ [x]) (w_fs w2)).
  { destruct C as (-> & _). split; [assumption|]. split; [destruct (O1 (d ++ [x])) as [E|(E & _)]; [|assumption]; apply look_none in Gn; congruence|]. split; [assumption|].
    exists [], []. split; [constructor|]. now split. }
  assert (C2 : w_cwd w2 = cwd) by (now destruct C as (_ & -> & _)). assert (Ho2 : honest (w_fault w2)) by (now destruct C as (_ & _ & _ & ->)).
  apply bind_inv in H as [(m & w3 & H3 & H)|(e & H3 & ->)]; injection H3 as Em <-; [|apply stepped_same; [apply T|apply same_refl]].
  apply bind_inv in H as [(m' & w3 & H3 & H)|(e & H3 & ->)]; injection H3 as Em' <-; [|apply stepped_same; [apply T|apply same_refl]].
  apply (set_step u (d ++ [x]) m' w2 r w'); auto.
Qed.

Lemma ups_step l : (forall u, In u l -> In u parents) -> forall w r w', honest (w_fault w) -> w_cwd w = cwd -> OK (w_fs w) ->
  each (mkdir_up K anchor) l w = (r, w') -> stepped w w'.
Proof.
  intro Hl. induction l as [|u l IH]; intros w r w' Ho Hc O H.
  - injection H as <- <-. apply stepped_same; [assumption|apply same_refl].
  - cbn [each] in H. apply bind_inv in H as [([] & w1 & H1 & H)|(e & H1 & ->)]; apply up_step in H1; auto; try (apply Hl; now left).
    apply (stepped_trans _ w1); [assumption|]. destruct H1 as [O1 R1]. pose proof R1 as (F1 & C1 & _).
    apply IH in H; auto; [intros u' I; apply Hl; now right|now rewrite F1|congruence].
Qed.
End Safe.

Lemma mkdir_cache_safe K anchor parents fs cwd fault r w' : honest fault ->
  mkdir_cache K anchor parents (start fs cwd fault) = (r, w') -> Forall (only_parents K anchor parents cwd fs) (states w').
Proof.
  intros Ho H. apply (ups_step K anchor parents cwd fs) in H as [O (_ & _ & l & El & F)].
  - unfold states. rewrite El. constructor; [exact O|]. apply Forall_app. split; [exact F|]. constructor; [intro q; now left|constructor].
  - intros u I. now apply in_rev.
  - assumption.
  - reflexivity.
  - intro q. now left.
Qed.
