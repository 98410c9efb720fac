From Coq Require Import String NArith ZArith Bool List Lia.
From Verif Require Import Model.Py Model.PurePath Model.Fs Model.PathOps Model.Cache Model.DataDir Spec.FsSpec Spec.LoopSpec Spec.DataDirSpec
  Proofs.PyLemmas Proofs.PathLemmas Proofs.FsLemmas Proofs.RunLemmas Proofs.RmtreeProofs Proofs.MoveLemmas Proofs.CopyProofs Proofs.LoopProofs Proofs.Hoare.
Import ListNotations.

(** ** One more thing *)
Definition plus (q0 : place) (v : thing) (s s' : node) : Prop :=
  look s q0 = None /\ look s' q0 = Some v /\ forall q, q <> q0 -> look s' q = look s q.

Lemma plus_put s d x n v : (exists xs es, get s d = Some (Dir xs es)) -> get s (d ++ [x]) = None ->
  (forall y r, get n (y :: r) = None) -> (match n with File a b => v = AFile a b | Dir a _ => v = ADir a | Link t => v = ALink t end) ->
  plus (d ++ [x]) v s (put s (d ++ [x]) n).
Proof.
  intros D G En Ev.
  assert (Z : forall r, get (put s (d ++ [x]) n) ((d ++ [x]) ++ r) = get n r).
  { intro r. apply get_put_below. destruct (d ++ [x]) eqn:E; [destruct d; discriminate|]. rewrite <- E, removelast_last. exact D. }
  split; [now apply look_none|]. split.
  - pose proof (Z []) as Z0. rewrite app_nil_r in Z0. unfold look. rewrite Z0. destruct n; cbn [get]; now subst v.
  - intros q Nq. destruct (below_dec (d ++ [x]) q) as [(r & ->)|Nb]; [|now apply look_put_other].
    destruct r as [|y r]; [now rewrite app_nil_r in Nq|].
    transitivity (@None thing); [apply look_none; rewrite Z; apply En|].
    symmetry. apply (look_below_none s (d ++ [x])); [now apply look_none|now exists (y :: r)].
Qed.
Lemma missing_none s cwd f p d x : walk s cwd f p = Missing d x -> (exists xs es, get s d = Some (Dir xs es)) /\ get s (d ++ [x]) = None.
Proof. intros H. apply walk_missing_inv in H as (xs & es & G & E). split; [eauto|]. now rewrite get_snoc, G. Qed.

(** A path that led to nothing leads to the directory made there. *)
Lemma walk_made root d x b : get root (d ++ [x]) = None -> forall follow cur comps,
  walk_from root follow b cur comps = Missing d x ->
  forall f', f' = follow \/ f' = true -> walk_from (put root (d ++ [x]) (Dir [] [])) f' b cur comps = Found (d ++ [x]) (Dir [] []) \/ f' <> follow.
Proof.
  intros Gn follow cur comps H f' Hf. destruct (Bool.bool_dec f' follow) as [->|]; [left|now right]. clear Hf.
  assert (D : exists xs es, get root d = Some (Dir xs es)) by (apply walk_missing_inv in H as (xs & es & G & _); eauto).
  assert (PL : plus (d ++ [x]) (ADir []) root (put root (d ++ [x]) (Dir [] []))) by (apply plus_put; auto; intros; destruct y; reflexivity).
  set (root' := put root (d ++ [x]) (Dir [] [])) in *.
  assert (Gx : get root' (d ++ [x]) = Some (Dir [] [])).
  { unfold root'. apply get_put_new. destruct D as (xs & es & D). exists xs. apply look_dir. eauto. }
  destruct PL as (_ & _ & PL).
  assert (PS : forall q n, get root q = Some n -> look root' q = look root q) by (intros q n G; apply PL; congruence).
  assert (PD : forall q xs es, get root q = Some (Dir xs es) -> exists es', get root' q = Some (Dir xs es')).
  { intros q xs es G. apply look_dir. rewrite (PS _ _ G). apply look_dir. eauto. }
  revert cur comps H.
  induction b as [|b IHb]; intros cur comps; revert cur; induction comps as [|c rest IH]; intros cur H; rewrite walk_eq in H; rewrite walk_eq;
    destruct (get root cur) as [m|] eqn:G; try discriminate;
    destruct m as [d0 xs|xs es|t]; try discriminate;
    destruct (PD _ _ _ G) as (es' & G'); rewrite G';
    destruct (str_eqb c $"."); try (now apply IH); destruct (str_eqb c $".."); try (now apply IH);
    (destruct (entry c es) as [n|] eqn:E;
     [assert (K1 : get root (cur ++ [c]) = Some n) by (now rewrite get_snoc, G);
      assert (K2 : get root' (cur ++ [c]) = entry c es') by (now rewrite get_snoc, G');
      pose proof (PS _ _ K1) as K3; unfold look in K3; rewrite K1, K2 in K3;
      destruct n as [d1 x1|x1 e1|t1]; destruct (entry c es') as [[d2 x2|x2 e2|t2]|] eqn:E'; try discriminate; try (now apply IH)
     |destruct rest as [|]; [|discriminate]; injection H as -> ->;
      assert (K2 : get root' (d ++ [x]) = entry x es') by (now rewrite get_snoc, G');
      rewrite <- K2, Gx; rewrite walk_eq, Gx; reflexivity]).
  - injection K3 as ->. destruct (match rest with [] => negb follow | _ => false end); discriminate.
  - injection K3 as ->. destruct (match rest with [] => negb follow | _ => false end); [discriminate|]. destruct t1; [discriminate|]. now apply IHb.
Qed.
Lemma walk_made_dir fs cwd p d x : walk fs cwd false p = Missing d x ->
  walk (put fs (d ++ [x]) (Dir [] [])) cwd true p = Found (d ++ [x]) (Dir [] []).
Proof.
  intro H. pose proof (missing_none _ _ _ _ _ _ H) as [_ Gn]. unfold walk in *. apply walk_nofollow; [|discriminate].
  destruct (walk_made _ _ _ _ Gn _ _ _ H false (or_introl eq_refl)) as [K|K]; [exact K|congruence].
Qed.

(** ** mkdir *)
Lemma mkdir_inv b p w r w' : p_mkdir b p w = (r, w') ->
  same w w' \/ (r = Ok tt /\ exists d x, walk (w_fs w) (w_cwd w) false p = Missing d x /\ changed (put (w_fs w) (d ++ [x]) (Dir [] [])) w w').
Proof.
  unfold p_mkdir. cbn [mkdir_parents]. intro H. apply catch_inv in H as [([] & H & ->)|(e & w1 & H & K)].
  - apply sys_inv in H as [(e & E & _)|(a & fs & _ & E & C)]; [discriminate|]. right. split; [reflexivity|].
    destruct (walk (w_fs w) (w_cwd w) false p) as [q n|d x|er]; try discriminate. injection E as _ <-. eauto.
  - apply sys_inv in H as [(e' & E & S & _)|(a & fs & E & _)]; [|discriminate]. left.
    assert (Q : same w1 w'); [|now apply (same_trans _ w1)].
    assert (Qt : quiet (if b then let! d <- p_is_dir p ; (if d then ret tt else raise e) else raise e)) by (quiet_tac).
    assert (Qr : quiet (@raise unit e)) by quiet_tac.
    destruct e; try (now apply Qr in K). match goal with er : errno |- _ => destruct er end; first [now apply Qt in K|now apply Qr in K].
Qed.

(** ** Only additions *)
Section Safe.
Variables (objects : place -> Prop) (target : option str) (fs : node).
Notation ok := (only_adds objects target fs).
Lemma adds_refl : ok fs. Proof. intro q. now left. Qed.
Lemma adds_plus s s' q0 v : ok s -> plus q0 v s s' -> v = ADir [] \/ (exists t, target = Some t /\ v = ALink t) -> ok s'.
Proof.
  intros K (P1 & P2 & P3) V q. destruct (place_dec q q0) as [->|N].
  - specialize (K q0). rewrite P1 in K. rewrite P2.
    assert (V' : Some v = Some (ADir []) \/ exists t, target = Some t /\ Some v = Some (ALink t)) by (destruct V as [->|(t & -> & ->)]; eauto).
    destruct K as [K|[(K & [E|(t & _ & E)])|(t & T & O & Em & _)]]; try discriminate.
    + right. left. split; [now symmetry|exact V'].
    + right. right. exists t. repeat (split; [assumption|]). right. destruct V' as [V'|(t' & T' & V')]; [now left|].
      right. rewrite V'. congruence.
  - rewrite (P3 q N). apply K.
Qed.
Lemma adds_mkdir b p w r w' : p_mkdir b p w = (r, w') -> ok (w_fs w) -> ok (w_fs w') /\ runs ok w w'.
Proof.
  intros H K. apply mkdir_inv in H as [S|(-> & d & x & W & C)].
  - split; [|now apply runs_same]. destruct S as (-> & _). exact K.
  - assert (K' : ok (put (w_fs w) (d ++ [x]) (Dir [] []))).
    { apply missing_none in W as (D & Gn). eapply adds_plus; [exact K| |now left].
      apply plus_put; auto. }
    split; [|now apply (runs_changed _ _ _ _ C)]. destruct C as (-> & _). exact K'.
Qed.
Lemma adds_symlink t p w r w' : target = Some t -> sys_symlink t p w = (r, w') -> ok (w_fs w) -> ok (w_fs w') /\ runs ok w w'.
Proof.
  intros Et H K. apply sys_inv in H as [(e & -> & S & _)|(a & f & -> & E & C)].
  - split; [|now apply runs_same]. destruct S as (-> & _). exact K.
  - destruct t as [|c t]; [discriminate|]. destruct (walk (w_fs w) (w_cwd w) false p) as [q n|d x|er] eqn:W; try discriminate.
    injection E as _ <-. assert (K' : ok (put (w_fs w) (d ++ [x]) (Link (c :: t)))).
    { apply missing_none in W as (D & Gn). eapply adds_plus; [exact K| |right; exists (c :: t); split; [exact Et|reflexivity]].
      apply plus_put; auto. }
    split; [|now apply (runs_changed _ _ _ _ C)]. destruct C as (-> & _). exact K'.
Qed.
End Safe.

Lemma rmdir_inv p w r w' : sys_rmdir p w = (r, w') -> same w w' \/
  exists q xs, q <> [] /\ walk (w_fs w) (w_cwd w) false p = Found q (Dir xs []) /\ changed (del (w_fs w) q) w w'.
Proof.
  intro H. apply sys_inv in H as [(e & -> & S & _)|(a & f & -> & E & C)]; [now left|right].
  destruct (pp_parts p) as [|y l]; [destruct (pp_abs p); discriminate|]. destruct (str_eqb _ _); [discriminate|].
  unfold lookup in E. destruct (walk (w_fs w) (w_cwd w) false p) as [q n|d x|er]; try discriminate. cbn [rbind fst snd] in E.
  destruct n as [|xs [|]|]; try discriminate. destruct q as [|z q]; [discriminate|]. apply Ok_inj in E. injection E as _ <-.
  exists (z :: q), xs. split; [discriminate|]. now split.
Qed.

Lemma adds_del (objects : place -> Prop) t fs q xs : q <> [] -> objects q -> get fs q = Some (Dir xs []) -> only_adds objects (Some t) fs (del fs q).
Proof.
  intros Nq O G q'. destruct (below_dec q q') as [B|NB]; [|left; now apply look_del_other].
  rewrite (look_del_below _ _ _ Nq B).
  assert (Em : forall x r, look fs (q ++ x :: r) = None) by (intros x r; apply look_none; now rewrite get_app, G).
  destruct B as ([|x r] & ->).
  - rewrite app_nil_r. right. right. exists t. repeat (split; [auto; fail|]). split; [|now left]. split; [|exact Em].
    exists xs. apply look_dir. eauto.
  - left. symmetry. apply Em.
Qed.

Lemma child_name_ok (x : str) : x = $"objects" -> x <> $"." /\ x <> $"..". Proof. intros ->. split; discriminate. Qed.

Section Init.
Variable far : node -> place -> ppath -> res ppath.
Lemma quiet_resolve p : quiet (p_resolve far p). Proof. apply quiet_ask. Qed.
Hint Resolve quiet_resolve : quiet.

Lemma init_safe anchor trash exist_ok target fs cwd fault r w' :
  local_data_dir_init far anchor trash exist_ok target (start fs cwd fault) = (r, w') ->
  Forall (only_adds (leads fs cwd (local_objects_dir anchor)) (option_map pp_str target) fs) (states w').
Proof.
  set (OK := only_adds _ _ fs). intro H.
  assert (R0 : OK fs) by apply adds_refl.
  assert (Fin : forall w', OK (w_fs w') -> runs OK (start fs cwd fault) w' -> Forall OK (states w')).
  { intros w1 K (_ & _ & l & El & F). unfold states. rewrite El. constructor; [exact K|]. apply Forall_app. split; [exact F|]. now repeat constructor. }
  enough (E : OK (w_fs w') /\ runs OK (start fs cwd fault) w') by (now apply Fin). clear Fin.
  unfold local_data_dir_init in H. apply bind_inv in H as [([] & w1 & H1 & H)|(e & H1 & ->)].
  2:{ now apply (adds_mkdir _ _ _ _ _ _ _ _ H1). }
  pose proof (adds_mkdir _ _ _ _ _ _ _ _ H1 R0 : OK (w_fs w1) /\ runs OK _ w1) as [K1 R1].
  assert (Ftrash : forall w2 r w', OK (w_fs w2) -> runs OK (start fs cwd fault) w2 ->
    (match trash with Some t => p_mkdir exist_ok t | None => ret tt end) w2 = (r, w') -> OK (w_fs w') /\ runs OK (start fs cwd fault) w').
  { intros w2 r2 w2' K2 R2 T. destruct trash as [t|].
    - destruct (adds_mkdir _ _ _ _ _ _ _ _ T K2) as [K3 R3]. split; [exact K3|]. now apply (runs_trans _ _ w2).
    - injection T as <- <-. now split. }
  destruct target as [target|]; cbn [option_map] in *.
  2:{ apply bind_inv in H as [([] & w2 & H2 & H)|(e & H2 & ->)].
      - pose proof (adds_mkdir _ _ _ _ _ _ _ _ H2 K1 : OK (w_fs w2) /\ runs OK _ w2) as [K2 R2]. apply (Ftrash w2 r w'); auto. now apply (runs_trans _ _ w1).
      - pose proof (adds_mkdir _ _ _ _ _ _ _ _ H2 K1 : OK (w_fs w') /\ runs OK _ w') as [K2 R2]. split; [exact K2|]. now apply (runs_trans _ _ w1). }
  apply bind_inv in H as [(l & w2 & H2 & H)|(e & H2 & ->)].
  2:{ apply quiet_is_symlink in H2. split; [now destruct H2 as (-> & _)|]. apply (runs_trans _ _ w1); [exact R1|now apply runs_same]. }
  apply quiet_is_symlink in H2.
  assert (K2 : OK (w_fs w2)) by (now destruct H2 as (-> & _)).
  assert (R2 : runs OK (start fs cwd fault) w2) by (apply (runs_trans _ _ w1); [exact R1|now apply runs_same]).
  destruct l.
  { assert (Q : quiet (let! _ <- sys_readlink (local_objects_dir anchor) ;
        let! a <- p_resolve far (local_objects_dir anchor) ;
        let! b <- p_resolve far target ;
        if pp_eqb a b then ret tt else raise (OSErr ENOTDIR))) by quiet_tac.
    apply Q in H. split; [now destruct H as (-> & _)|]. apply (runs_trans _ _ w2); [exact R2|now apply runs_same]. }
  apply bind_inv in H as [(l & w3 & H3 & H)|(e & H3 & ->)].
  2:{ apply quiet_exists in H3. split; [now destruct H3 as (-> & _)|]. apply (runs_trans _ _ w2); [exact R2|now apply runs_same]. }
  apply quiet_exists in H3.
  assert (K3 : OK (w_fs w3)) by (now destruct H3 as (-> & _)).
  assert (R3 : runs OK (start fs cwd fault) w3) by (apply (runs_trans _ _ w2); [exact R2|now apply runs_same]).
  assert (Rm : forall r4 w4, when l (sys_rmdir (local_objects_dir anchor)) w3 = (r4, w4) -> OK (w_fs w4) /\ runs OK (start fs cwd fault) w4).
  { intros r4 w4 H4. destruct l; [|injection H4 as <- <-; now split]. cbn [when] in H4.
    apply rmdir_inv in H4 as [S|(q & xs & Nq & W & C)].
    - split; [now destruct S as (-> & _)|]. apply (runs_trans _ _ w3); [exact R3|now apply runs_same].
    - assert (S13 : w_fs w3 = w_fs w1 /\ w_cwd w3 = w_cwd w1) by (destruct H2 as (A & B & _), H3 as (C' & D & _); split; congruence).
      destruct S13 as [F3 C3].
      assert (E : w_fs w1 = fs /\ w_cwd w1 = cwd).
      { apply mkdir_inv in H1 as [S|(_ & d & x & Wm & Cm)]; [now destruct S as (-> & -> & _)|]. exfalso. cbn [start w_fs w_cwd] in Wm, Cm.
        pose proof (missing_none _ _ _ _ _ _ Wm) as [_ Gm]. apply walk_made_dir in Wm.
        rewrite F3, C3 in W. destruct Cm as (F1 & C1 & _). rewrite F1, C1 in W. cbn [start w_cwd] in W.
        unfold walk, local_objects_dir, child in W. cbn [pp_abs pp_parts] in W.
        destruct (child_name_ok $"objects" eq_refl) as [N1 N2].
        destruct (walk_snoc_found _ _ _ _ _ _ _ N1 N2 W) as (q' & xs' & es' & W' & Eq). unfold walk in Wm. rewrite Wm in W'.
        injection W' as <- <- <-. apply walk_found_get in W. subst q. rewrite get_snoc in W.
        apply walk_found_get in Wm. rewrite Wm in W. discriminate. }
      destruct E as [F1 C1]. rewrite F3, F1, C3, C1 in W. rewrite F3, F1 in C.
      assert (K4 : OK (del fs q)).
      { apply (adds_del _ _ _ _ xs Nq); [exists (Dir xs []); exact W|]. now apply walk_found_get in W. }
      split; [now destruct C as (-> & _)|]. apply (runs_trans _ _ w3); [exact R3|]. now apply (runs_changed _ _ _ _ C). }
  apply bind_inv in H as [([] & w4 & H4 & H)|(e & H4 & ->)]; [|now apply Rm in H4].
  apply Rm in H4 as [K4 R4].
  apply bind_inv in H as [([] & w5 & H5 & H)|(e & H5 & ->)].
  - destruct (adds_symlink _ (Some (pp_str target)) _ _ _ _ _ _ eq_refl H5 K4) as [K5 R5].
    apply (Ftrash w5 r w'); auto. now apply (runs_trans _ _ w4).
  - destruct (adds_symlink _ (Some (pp_str target)) _ _ _ _ _ _ eq_refl H5 K4) as [K5 R5]. split; [exact K5|]. now apply (runs_trans _ _ w4).
Qed.

(** ** Without faults *)
Lemma mkdir_dir w d x : no_fault w -> good_fs (w_fs w) -> good_name x -> is_dir_at (w_fs w) (d ++ [x]) ->
  exists w', p_mkdir true (path_of (d ++ [x])) w = (Ok tt, w') /\ same w w'.
Proof.
  intros N G X (xs & L). apply look_dir in L as (es & L).
  destruct (sys_err (fun fs cwd => match walk fs cwd false (path_of (d ++ [x])) with
     | Found _ _ => fail EEXIST | Missing d0 x0 => Ok (tt, put fs (d0 ++ [x0]) (Dir [] [])) | Fail e => fail e end) w (OSErr EEXIST) N) as (w1 & E1 & S1).
  { now rewrite (walk_of _ _ _ _ _ G L) by discriminate. }
  destruct (test_run true (path_of (d ++ [x])) (fun n => match n with Dir _ _ => true | _ => false end) w1 (no_fault_same _ _ S1 N)) as (w2 & S2 & E2).
  assert (L1 : get (w_fs w1) (d ++ [x]) = Some (Dir xs es)) by (now destruct S1 as (-> & _)).
  assert (G1 : good_fs (w_fs w1)) by (now destruct S1 as (-> & _)).
  rewrite (walk_of _ _ _ _ _ G1 L1) in E2 by (intros _; discriminate).
  exists w2. split; [|now apply (same_trans _ w1)]. unfold p_mkdir. cbn [mkdir_parents]. unfold catch, sys_mkdir. rewrite E1.
  unfold bind, p_is_dir. rewrite E2. reflexivity.
Qed.
Lemma mkdir_new w d x : no_fault w -> good_fs (w_fs w) -> good_name x -> is_dir_at (w_fs w) d -> look (w_fs w) (d ++ [x]) = None ->
  exists w', p_mkdir true (path_of (d ++ [x])) w = (Ok tt, w') /\ changed (put (w_fs w) (d ++ [x]) (Dir [] [])) w w'.
Proof.
  intros N G X D L.
  destruct (sys_ok (fun fs cwd => match walk fs cwd false (path_of (d ++ [x])) with
     | Found _ _ => fail EEXIST | Missing d0 x0 => Ok (tt, put fs (d0 ++ [x0]) (Dir [] [])) | Fail e => fail e end) w tt (put (w_fs w) (d ++ [x]) (Dir [] [])) N) as (w1 & E1 & S1).
  { now rewrite (walk_of_missing _ _ _ _ _ G D X L). }
  exists w1. split; [|exact S1]. unfold p_mkdir. cbn [mkdir_parents]. unfold catch, sys_mkdir. now rewrite E1.
Qed.
(** From [w] to [w'] things came to be at [qs] only. *)
Definition grew (qs : list place) (w w' : world) : Prop :=
  no_fault w' /\ good_fs (w_fs w') /\ w_cwd w' = w_cwd w /\
  same_but qs (w_fs w) (w_fs w') /\ (forall q, look (w_fs w) q <> None -> look (w_fs w') q = look (w_fs w) q).
Lemma grew_trans qs ps a b c : grew qs a b -> grew ps b c -> grew (qs ++ ps) a c.
Proof.
  intros (_ & _ & A1 & A2 & A3) (B1 & B2 & B3 & B4 & B5). split; [assumption|]. split; [assumption|]. split; [congruence|]. split.
  - intros q Nq. rewrite in_app_iff in Nq. rewrite B4 by tauto. apply A2. tauto.
  - intros q L. rewrite B5; [now apply A3|]. now rewrite A3.
Qed.
Lemma dir_plus s d x : is_dir_at s d -> look s (d ++ [x]) = None -> plus (d ++ [x]) (ADir []) s (put s (d ++ [x]) (Dir [] [])).
Proof.
  intros (xs & D) L. apply look_dir in D as (es & D). apply plus_put; [eauto|now apply look_none|now intros|reflexivity].
Qed.
Lemma mkdir_run w d x : no_fault w -> good_fs (w_fs w) -> good_name x -> is_dir_at (w_fs w) d -> free_or_dir (w_fs w) (d ++ [x]) ->
  exists w', p_mkdir true (path_of (d ++ [x])) w = (Ok tt, w') /\ grew [d ++ [x]] w w' /\ is_dir_at (w_fs w') (d ++ [x]).
Proof.
  intros N G X D [L|L].
  - destruct (mkdir_new w d x N G X D L) as (w1 & E & C). exists w1. split; [exact E|].
    destruct (dir_plus _ _ _ D L) as (P1 & P2 & P3). pose proof C as (F & Cw & _). split.
    + split; [now apply (no_fault_changed _ _ _ C)|]. rewrite F. split; [apply good_put_new; try assumption; constructor; [constructor|now intros|now intros]|].
      split; [exact Cw|]. split; [intros q Nq; apply P3; intros ->; apply Nq; now left|]. intros q Lq. apply P3. intros ->. congruence.
    + rewrite F. now exists [].
  - destruct (mkdir_dir w d x N G X L) as (w1 & E & C). exists w1. split; [exact E|]. pose proof C as (F & Cw & _). split.
    + split; [now apply (no_fault_same _ _ C)|]. rewrite F. split; [exact G|]. split; [exact Cw|]. split; [intros q _; reflexivity|reflexivity].
    + now rewrite F.
Qed.

Lemma good_ops : good_name $".operations". Proof. repeat split; try discriminate. cbn. intuition discriminate. Qed.
Lemma good_objects : good_name $"objects". Proof. repeat split; try discriminate. cbn. intuition discriminate. Qed.
Lemma good_trash : good_name $"trash". Proof. repeat split; try discriminate. cbn. intuition discriminate. Qed.


Lemma free_kept qs w w' q : grew qs w w' -> ~ In q qs -> free_or_dir (w_fs w) q -> free_or_dir (w_fs w') q.
Proof. intros (_ & _ & _ & B & _) Nq [L|(xs & L)]; [left|right; exists xs]; now rewrite B. Qed.
Lemma dir_kept qs w w' q : grew qs w w' -> is_dir_at (w_fs w) q -> is_dir_at (w_fs w') q.
Proof. intros (_ & _ & _ & _ & B) (xs & L). exists xs. rewrite B; [exact L|congruence]. Qed.

Lemma distinct A : ops A <> objs A /\ ops A <> bin A /\ objs A <> bin A.
Proof.
  unfold objs, bin. repeat split; intro E.
  - apply (f_equal (@length _)) in E. rewrite app_length in E. cbn in E. lia.
  - apply (f_equal (@length _)) in E. rewrite app_length in E. cbn in E. lia.
  - apply app_inj_tail in E as [_ E]. discriminate.
Qed.

Lemma init_plain A fs cwd : good_fs fs -> is_dir_at fs A -> free_or_dir fs (ops A) -> free_or_dir fs (objs A) -> free_or_dir fs (bin A) ->
  exists w', local_data_dir_init far (path_of A) (Some (path_of (bin A))) true None (start fs cwd (fun _ => None)) = (Ok tt, w') /\
    is_dir_at (w_fs w') (ops A) /\ is_dir_at (w_fs w') (objs A) /\ is_dir_at (w_fs w') (bin A) /\
    same_but [ops A; objs A; bin A] fs (w_fs w') /\ forall q, look fs q <> None -> look (w_fs w') q = look fs q.
Proof.
  intros G DA F1 F2 F3. destruct (distinct A) as (N1 & N2 & N3).
  set (w := start fs cwd (fun _ => None)). assert (Nf : no_fault w) by (intro; reflexivity).
  destruct (mkdir_run w A _ Nf G good_ops DA F1) as (w1 & E1 & G1 & D1). fold (ops A) in *.
  destruct (mkdir_run w1 (ops A) $"objects") as (w2 & E2 & G2 & D2);
    [apply G1|apply G1|apply good_objects|exact D1|apply (free_kept _ _ _ _ G1); [cbn; intuition congruence|exact F2]|]. fold (objs A) in *.
  destruct (mkdir_run w2 (ops A) $"trash") as (w3 & E3 & G3 & D3);
    [apply G2|apply G2|apply good_trash|apply (dir_kept _ _ _ _ G2 D1)|
     apply (free_kept _ _ _ _ G2); [cbn; intuition congruence|apply (free_kept _ _ _ _ G1); [cbn; intuition congruence|exact F3]]|]. fold (bin A) in *.
  exists w3. split.
  - unfold local_data_dir_init, bind. change (local_data_dir (path_of A)) with (path_of (ops A)).
    change (local_objects_dir (path_of A)) with (path_of (objs A)). rewrite E1, E2. exact E3.
  - split; [apply (dir_kept _ _ _ _ G3), (dir_kept _ _ _ _ G2 D1)|]. split; [apply (dir_kept _ _ _ _ G3 D2)|]. split; [exact D3|].
    destruct (grew_trans _ _ _ _ _ (grew_trans _ _ _ _ _ G1 G2) G3) as (_ & _ & _ & B & K). split; [exact B|exact K].
Qed.

(** Once more. *)
Lemma init_plain_again A fs cwd : good_fs fs -> is_dir_at fs (ops A) -> is_dir_at fs (objs A) -> is_dir_at fs (bin A) ->
  exists w', local_data_dir_init far (path_of A) (Some (path_of (bin A))) true None (start fs cwd (fun _ => None)) = (Ok tt, w') /\
    Forall (eq fs) (states w').
Proof.
  intros G D1 D2 D3. set (w := start fs cwd (fun _ => None)). assert (Nf : no_fault w) by (intro; reflexivity).
  destruct (mkdir_dir w A _ Nf G good_ops D1) as (w1 & E1 & S1). fold (ops A) in *.
  assert (F1 : w_fs w1 = fs) by (now destruct S1 as (-> & _)).
  destruct (mkdir_dir w1 (ops A) $"objects") as (w2 & E2 & S2); rewrite ?F1; [now apply (no_fault_same _ _ S1)|exact G|apply good_objects|exact D2|]. fold (objs A) in *.
  assert (F2 : w_fs w2 = fs) by (destruct S2 as (-> & _); exact F1).
  destruct (mkdir_dir w2 (ops A) $"trash") as (w3 & E3 & S3); rewrite ?F2; [apply (no_fault_same _ _ S2), (no_fault_same _ _ S1), Nf|exact G|apply good_trash|exact D3|]. fold (bin A) in *.
  exists w3. split.
  - unfold local_data_dir_init, bind. change (local_data_dir (path_of A)) with (path_of (ops A)).
    change (local_objects_dir (path_of A)) with (path_of (objs A)). rewrite E1, E2. exact E3.
  - destruct (same_trans _ _ _ (same_trans _ _ _ S1 S2) S3) as (F & _ & H & _). unfold states. rewrite F, H. now repeat constructor.
Qed.

Lemma bool_test w p f b : no_fault w ->
  (match walk (w_fs w) (w_cwd w) f p with Found _ n => true | Missing _ _ => true | Fail e => ignored (OSErr e) end) = true ->
  forall g, (match walk (w_fs w) (w_cwd w) f p with Found _ n => g n | _ => false end) = b ->
  exists w', test (sys_stat f p) g w = (Ok b, w') /\ same w w'.
Proof.
  intros N I g E. destruct (test_run f p g w N) as (w' & S & T). exists w'. split; [|exact S]. rewrite T.
  destruct (walk (w_fs w) (w_cwd w) f p) as [q n|d x|e]; [now subst|now subst|]. rewrite I. now subst.
Qed.

Lemma init_link A t fs cwd : good_fs fs -> is_dir_at fs A -> free_or_dir fs (ops A) -> look fs (objs A) = None \/ empty_at fs (objs A) ->
  free_or_dir fs (bin A) -> pp_str t <> [] ->
  exists w', local_data_dir_init far (path_of A) (Some (path_of (bin A))) true (Some t) (start fs cwd (fun _ => None)) = (Ok tt, w') /\
    is_dir_at (w_fs w') (ops A) /\ look (w_fs w') (objs A) = Some (ALink (pp_str t)) /\ is_dir_at (w_fs w') (bin A) /\
    same_but [ops A; objs A; bin A] fs (w_fs w') /\ forall q, q <> objs A -> look fs q <> None -> look (w_fs w') q = look fs q.
Proof.
  intros G DA F1 F2 F3 Nt. destruct (distinct A) as (N1 & N2 & N3).
  set (w := start fs cwd (fun _ => None)). assert (Nf : no_fault w) by (intro; reflexivity).
  destruct (mkdir_run w A _ Nf G good_ops DA F1) as (w1 & E1 & G1 & D1). fold (ops A) in *.
  assert (L1 : look (w_fs w1) (objs A) = None \/ empty_at (w_fs w1) (objs A)).
  { destruct G1 as (_ & _ & _ & B & _). destruct F2 as [L|((xs & L) & Em)]; [left; rewrite B; [exact L|cbn; intuition congruence]|right].
    split; [exists xs; rewrite B; [exact L|cbn; intuition congruence]|]. intros x r. rewrite B; [apply Em|].
    intros [E|[]]. unfold objs in E. apply (f_equal (@length _)) in E. rewrite !app_length in E. cbn in E. lia. }
  assert (Nf1 : no_fault w1) by apply G1. assert (Gd1 : good_fs (w_fs w1)) by apply G1.
  assert (RM : exists w4, (let! l <- p_is_symlink (path_of (objs A)) ;
      if l then raise TypeError else
        let! e <- p_exists (path_of (objs A)) ;
        when e (sys_rmdir (path_of (objs A)))) w1 = (Ok tt, w4) /\
      no_fault w4 /\ good_fs (w_fs w4) /\ look (w_fs w4) (objs A) = None /\ (forall q, q <> objs A -> look (w_fs w4) q = look (w_fs w1) q) /\
      forall T (k : M T) w5 (m1 : M T), (let! l <- p_is_symlink (path_of (objs A)) ;
        if l then m1 else let! e <- p_exists (path_of (objs A)) ; let! _ <- when e (sys_rmdir (path_of (objs A))) ; k) w1 = w5 <-> k w4 = w5).
  { destruct L1 as [L|((xs & L) & Em)].
    - assert (W : forall f w, w_fs w = w_fs w1 -> walk (w_fs w) (w_cwd w) f (path_of (objs A)) = Missing (ops A) $"objects").
      { intros f v ->. apply walk_of_missing; [exact Gd1|exact D1|apply good_objects|exact L]. }
      destruct (bool_test w1 (path_of (objs A)) false false Nf1) with (g := fun n => match n with Link _ => true | _ => false end) as (w2 & T2 & S2);
        [now rewrite W|now rewrite W|].
      assert (Fs2 : w_fs w2 = w_fs w1) by (now destruct S2 as (-> & _)).
      destruct (bool_test w2 (path_of (objs A)) true false (no_fault_same _ _ S2 Nf1)) with (g := fun _ : node => true) as (w3 & T3 & S3);
        [now rewrite W|now rewrite W|].
      assert (Fs3 : w_fs w3 = w_fs w1) by (destruct S3 as (-> & _); exact Fs2).
      exists w3. unfold bind, p_is_symlink, p_exists. rewrite T2, T3. cbn [when].
      refine (conj eq_refl (conj _ (conj _ (conj _ (conj _ _))))); [apply (no_fault_same _ _ S3), (no_fault_same _ _ S2), Nf1|now rewrite Fs3|now rewrite Fs3|intros; now rewrite Fs3|].
      intros. rewrite ?T2, ?T3. cbn [when]. split; intro Z; exact Z.
    - assert (Gx : get (w_fs w1) (objs A) = Some (Dir xs [])) by (apply (empty_dir _ _ _ Gd1 L); intros x _; apply Em).
      assert (W : forall f w, w_fs w = w_fs w1 -> walk (w_fs w) (w_cwd w) f (path_of (objs A)) = Found (objs A) (Dir xs [])).
      { intros f v ->. apply walk_of; [exact Gd1|exact Gx|intros _; discriminate]. }
      destruct (bool_test w1 (path_of (objs A)) false false Nf1) with (g := fun n => match n with Link _ => true | _ => false end) as (w2 & T2 & S2);
        [now rewrite W|now rewrite W|].
      assert (Fs2 : w_fs w2 = w_fs w1) by (now destruct S2 as (-> & _)).
      destruct (bool_test w2 (path_of (objs A)) true true (no_fault_same _ _ S2 Nf1)) with (g := fun _ : node => true) as (w3 & T3 & S3);
        [now rewrite W|now rewrite W|].
      assert (Fs3 : w_fs w3 = w_fs w1) by (destruct S3 as (-> & _); exact Fs2).
      assert (No : objs A <> []) by (unfold objs; now destruct (ops A)).
      assert (Nf3 : no_fault w3) by (apply (no_fault_same _ _ S3), (no_fault_same _ _ S2), Nf1).
      destruct (rmdir_of w3 (objs A) xs) as (w4 & T4 & C4); [exact Nf3|now rewrite Fs3|exact No|now rewrite Fs3|].
      rewrite Fs3 in C4. pose proof C4 as (Fs4 & _).
      exists w4. unfold bind, p_is_symlink, p_exists. rewrite T2, T3. cbn [when]. rewrite T4.
      refine (conj eq_refl (conj _ (conj _ (conj _ (conj _ _))))).
      + now apply (no_fault_changed _ _ _ C4).
      + rewrite Fs4. now apply good_fs_del.
      + rewrite Fs4. apply look_del_below; [exact No|apply below_refl].
      + intros q Nq. rewrite Fs4. destruct (below_dec (objs A) q) as [B|NB]; [|now apply look_del_other].
        rewrite (look_del_below _ _ _ No B). destruct B as ([|y r] & ->); [now rewrite app_nil_r in Nq|]. symmetry. apply Em.
      + intros. rewrite ?T2, ?T3. cbn [when]. rewrite ?T4. split; intro Z; exact Z. }
  destruct RM as (w4 & _ & Nf4 & Gd4 & L4 & K4 & Cont).
  assert (D4 : is_dir_at (w_fs w4) (ops A)) by (destruct D1 as (xs & D1); exists xs; rewrite K4; [exact D1|congruence]).
  destruct (sys_ok (fun fs cwd => match pp_str t with [] => fail ENOENT | _ => match walk fs cwd false (path_of (objs A)) with
      | Found _ _ => fail EEXIST | Missing d x => Ok (tt, put fs (d ++ [x]) (Link (pp_str t))) | Fail e => fail e end end)
      w4 tt (put (w_fs w4) (objs A) (Link (pp_str t))) Nf4) as (w5 & E5 & C5).
  { destruct (pp_str t) as [|c l]; [congruence|]. unfold objs at 1. now rewrite (walk_of_missing _ _ _ _ _ Gd4 D4 good_objects L4). }
  assert (PL : plus (objs A) (ALink (pp_str t)) (w_fs w4) (put (w_fs w4) (objs A) (Link (pp_str t)))).
  { destruct D4 as (ys & D4). apply look_dir in D4 as (es & D4). unfold objs. apply plus_put; [eauto|now apply look_none|now intros|reflexivity]. }
  destruct PL as (_ & P2 & P3). pose proof C5 as (Fs5 & _).
  assert (D5 : is_dir_at (w_fs w5) (ops A)) by (destruct D4 as (xs & D4); exists xs; rewrite Fs5, P3; [exact D4|congruence]).
  destruct (mkdir_run w5 (ops A) $"trash") as (w6 & E6 & G6 & D6).
  { now apply (no_fault_changed _ _ _ C5). }
  { rewrite Fs5. unfold objs. apply good_put_new; [exact Gd4|exact D4|apply good_objects|constructor]. }
  { apply good_trash. }
  { exact D5. }
  { fold (bin A). assert (Eb : look (w_fs w5) (bin A) = look fs (bin A)).
    { rewrite Fs5, P3, K4 by congruence. destruct G1 as (_ & _ & _ & B1 & _). apply B1. cbn. intuition congruence. }
    destruct F3 as [L|(xs & L)]; [left; congruence|right; exists xs; congruence]. }
  fold (bin A) in *.
  exists w6. split.
  - unfold local_data_dir_init. unfold bind at 1. change (local_data_dir (path_of A)) with (path_of (ops A)).
    change (local_objects_dir (path_of A)) with (path_of (objs A)). rewrite E1. apply Cont. unfold bind. unfold sys_symlink. rewrite E5. exact E6.
  - destruct G6 as (_ & _ & _ & B & K). pose proof (G1) as (_ & _ & _ & B1 & K1).
    split; [|split; [|split; [|split]]].
    + destruct D5 as (xs & D5). exists xs. rewrite K; [exact D5|congruence].
    + rewrite K; rewrite Fs5, P2; congruence.
    + exact D6.
    + intros q Nq. cbn [In] in Nq. rewrite B by (cbn; intuition congruence). rewrite Fs5, P3, K4 by intuition congruence. apply B1. cbn. intuition congruence.
    + intros q No Lq. assert (E : look (w_fs w5) q = look fs q) by (rewrite Fs5, P3, K4 by congruence; now apply K1).
      rewrite K; congruence.
Qed.

(** ** Through the link *)
Lemma walk_through root x t b : forall l cur xs es, Forall good_name l -> good_name x -> t <> [] ->
  get root (cur ++ l) = Some (Dir xs es) -> entry x es = Some (Link t) ->
  walk_from root true (S b) cur (l ++ [x]) = walk_from root true b (if startswith t $"/" then [] else cur ++ l) (kcomps t).
Proof.
  induction l as [|y l IH]; intros cur xs es N (X1 & X2 & X3 & X4) Nt G E.
  - apply str_eqb_neq in X2, X3. rewrite app_nil_r in *. cbn [app]. rewrite walk_eq, G, X2, X3, E. cbn [negb].
    destruct t as [|c t]; [congruence|]. now rewrite app_nil_r.
  - inversion N as [|? ? (N1 & N2 & N3 & N4) N5]; subst. apply str_eqb_neq in N2, N3.
    pose proof G as G'. change (y :: l) with ([y] ++ l) in G'. rewrite app_assoc in G'.
    pose proof (IH (cur ++ [y]) xs es N5 (conj X1 (conj X2 (conj X3 X4))) Nt G' E) as K. rewrite <- app_assoc in K.
    rewrite walk_eq. cbn [app] in *. rewrite get_app, get_snoc in G'.
    destruct (get root cur) as [[d xs0|xs0 es0|t0]|]; try discriminate. rewrite N2, N3.
    destruct (entry y es0) as [[d' xs'|xs' es'|t']|]; try discriminate; try exact K.
    destruct l; discriminate.
Qed.
Lemma walk_no_dots root b : forall l cur Q xs es, Forall good_name Q -> filter (fun c => negb (str_eqb c $".")) l = Q ->
  get root (cur ++ Q) = Some (Dir xs es) -> walk_from root true b cur l = Found (cur ++ Q) (Dir xs es).
Proof.
  induction l as [|c l IH]; intros cur Q xs es N F G; cbn [filter] in F.
  - subst Q. rewrite app_nil_r in *. now rewrite walk_eq, G.
  - destruct (str_eqb c $".") eqn:Ec; cbn [negb] in F.
    + assert (D : exists ys ds, get root cur = Some (Dir ys ds)).
      { destruct Q as [|q Q]; [rewrite app_nil_r in G; eauto|]. now apply get_above in G. }
      destruct D as (ys & ds & D). rewrite walk_eq, D, Ec. now apply IH.
    + subst Q. inversion N as [|? ? (N1 & N2 & N3 & N4) N5]; subst. apply str_eqb_neq in N3.
      pose proof G as G'. change (c :: filter (fun c => negb (str_eqb c $".")) l) with ([c] ++ filter (fun c => negb (str_eqb c $".")) l) in G'.
      rewrite app_assoc in G'. pose proof (IH _ _ _ _ N5 eq_refl G') as K. rewrite <- app_assoc in K.
      rewrite get_app, get_snoc in G'. rewrite walk_eq.
      destruct (get root cur) as [[d xs0|xs0 es0|t0]|]; try discriminate. rewrite Ec, N3.
      destruct (entry c es0) as [[d' xs'|xs' es'|t']|]; try discriminate; try exact K.
      destruct (filter _ l); discriminate.
Qed.
Lemma good_norm x : good_name x -> norm_part x.
Proof.
  intros (A & B & C & D). split; [|exact D]. unfold real_part. apply str_eqb_neq in A, B. now rewrite A, B.
Qed.
Lemma kcomps_path Q : Forall good_name Q -> startswith (pp_str (path_of Q)) $"/" = true /\
  filter (fun c => negb (str_eqb c $".")) (kcomps (pp_str (path_of Q))) = Q.
Proof.
  intro N. assert (Np : norm_path (path_of Q)) by (apply (Forall_impl _ good_norm N)).
  pose proof (pp_parse_str _ Np) as E. unfold pp_parse in E. pose proof (f_equal pp_parts E) as E2. cbn [pp_parts path_of] in E2. split; [reflexivity|].
  unfold kcomps. rewrite filter_app, filter_filter.
  assert (Z : forall u, filter (fun c => negb (str_eqb c $".")) (if (u : bool) then [$"."] else []) = []) by (intros []; reflexivity).
  rewrite Z, app_nil_r. rewrite <- E2 at 2. apply filter_ext. intro c. unfold real_part. now rewrite negb_orb.
Qed.

Lemma link_resolves fs cwd d x Q ys : good_fs fs -> look fs (d ++ [x]) = Some (ALink (pp_str (path_of Q))) -> look fs Q = Some (ADir ys) ->
  exists es, walk fs cwd true (path_of (d ++ [x])) = Found Q (Dir ys es).
Proof.
  intros G L D. apply look_link in L. apply look_dir in D as (es & D). exists es.
  pose proof (good_names _ _ _ (proj1 G) L) as N. apply Forall_app in N as [Nd Nx]. inversion Nx; subst.
  pose proof (good_names _ _ _ (proj1 G) D) as NQ. destruct (kcomps_path Q NQ) as [K1 K2].
  rewrite get_snoc in L. destruct (get fs d) as [[a b|a b|a]|] eqn:Gd; try discriminate.
  unfold walk, path_of. cbn [pp_abs pp_parts]. change max_links with (S 39).
  rewrite (walk_through _ _ (pp_str (path_of Q)) 39 d [] a b Nd); [|assumption|discriminate|exact Gd|exact L].
  rewrite K1. exact (walk_no_dots fs 39 _ [] Q ys es NQ K2 D).
Qed.

Lemma init_link_again A Q fs cwd trash : good_fs fs -> is_dir_at fs (ops A) -> look fs (objs A) = Some (ALink (pp_str (path_of Q))) -> is_dir_at fs Q ->
  exists w', local_data_dir_init far (path_of A) trash true (Some (path_of Q)) (start fs cwd (fun _ => None)) = (Ok tt, w') /\
    Forall (eq fs) (states w').
Proof.
  intros G D1 L (ys & DQ). set (w := start fs cwd (fun _ => None)). assert (Nf : no_fault w) by (intro; reflexivity).
  destruct (mkdir_dir w A _ Nf G good_ops D1) as (w1 & E1 & S1). fold (ops A) in *.
  assert (F1 : w_fs w1 = fs) by (now destruct S1 as (-> & _)).
  pose proof L as L'. apply look_link in L'. pose proof DQ as DQ'. apply look_dir in DQ' as (es & DQ').
  assert (Nf1 : no_fault w1) by (now apply (no_fault_same _ _ S1)).
  destruct (bool_test w1 (path_of (objs A)) false true Nf1) with (g := fun n => match n with Link _ => true | _ => false end) as (w2 & T2 & S2);
    [rewrite F1, (walk_of _ _ _ _ _ G L') by discriminate; reflexivity|rewrite F1, (walk_of _ _ _ _ _ G L') by discriminate; reflexivity|].
  assert (F2 : w_fs w2 = fs) by (destruct S2 as (-> & _); exact F1).
  destruct (ask_ok (fun fs cwd => do r <- lookup false (path_of (objs A)) fs cwd ;
                     match snd r with Link t => Ok t | _ => fail EINVAL end) w2 _ (no_fault_same _ _ S2 Nf1) eq_refl) as (w3 & T3 & S3).
  rewrite F2 in T3. unfold lookup in T3 at 2. rewrite (walk_of _ _ _ _ _ G L') in T3 by discriminate. cbn [rbind snd] in T3.
  assert (Nf3 : no_fault w3) by (apply (no_fault_same _ _ S3), (no_fault_same _ _ S2), Nf1).
  assert (F3 : w_fs w3 = fs) by (destruct S3 as (-> & _); exact F2).
  destruct (link_resolves fs (w_cwd w3) (ops A) $"objects" Q ys G L DQ) as (es1 & W1). fold (objs A) in W1.
  destruct (ask_ok (fun fs cwd => match walk fs cwd true (path_of (objs A)) with
                     | Found q _ => Ok (mkPP true q) | Missing d x => Ok (mkPP true (d ++ [x]))
                     | Fail ELOOP => Err RuntimeErr | Fail _ => far fs cwd (path_of (objs A)) end) w3 _ Nf3 eq_refl) as (w4 & T4 & S4).
  rewrite F3, W1 in T4.
  assert (Nf4 : no_fault w4) by (now apply (no_fault_same _ _ S4)).
  assert (F4 : w_fs w4 = fs) by (destruct S4 as (-> & _); exact F3).
  destruct (ask_ok (fun fs cwd => match walk fs cwd true (path_of Q) with
                     | Found q _ => Ok (mkPP true q) | Missing d x => Ok (mkPP true (d ++ [x]))
                     | Fail ELOOP => Err RuntimeErr | Fail _ => far fs cwd (path_of Q) end) w4 _ Nf4 eq_refl) as (w5 & T5 & S5).
  rewrite F4, (walk_of _ _ _ _ _ G DQ') in T5 by (intros _; discriminate).
  exists w5. split.
  - unfold local_data_dir_init, bind. change (local_data_dir (path_of A)) with (path_of (ops A)).
    change (local_objects_dir (path_of A)) with (path_of (objs A)). rewrite E1. unfold p_is_symlink. rewrite T2. unfold sys_readlink. rewrite T3.
    unfold p_resolve. rewrite T4, T5. rewrite (proj2 (pp_eqb_eq _ _) eq_refl). reflexivity.
  - destruct (same_trans _ _ _ (same_trans _ _ _ (same_trans _ _ _ (same_trans _ _ _ S1 S2) S3) S4) S5) as (F & _ & H & _).
    unfold states. rewrite F, H. now repeat constructor.
Qed.
End Init.

(** ** What does not hold *)
Definition w_none : node -> place -> ppath -> res ppath := fun _ _ _ => Err NotImplementedExn.
Definition w_tree (ents : list (str * node)) : node := Dir [] [($"store", Dir [] []); ($"cache", Dir [] [($".operations", Dir [] ents)])].

Lemma init_trash_refuted :
  ~ (forall far anchor trash target fs cwd w',
       local_data_dir_init far anchor (Some trash) true target (start fs cwd (fun _ => None)) = (Ok tt, w') ->
       exists q xs es, walk (w_fs w') cwd true trash = Found q (Dir xs es)).
Proof.
  intro H.
  assert (E : exists w', local_data_dir_init w_none (path_of [$"cache"]) (Some (path_of (bin [$"cache"]))) true (Some (path_of [$"store"]))
    (start (w_tree [($"objects", Link $"/store")]) [] (fun _ => None)) = (Ok tt, w') /\ w_fs w' = w_tree [($"objects", Link $"/store")]).
  { eexists. vm_compute. split; reflexivity. }
  destruct E as (w' & E & F). apply H in E as (q & xs & es & E). rewrite F in E. vm_compute in E. discriminate.
Qed.
Lemma init_relative_refuted :
  ~ (forall far anchor trash target fs cwd w',
       local_data_dir_init far anchor trash true target (start fs cwd (fun _ => None)) = (Ok tt, w') ->
       exists w2, local_data_dir_init far anchor trash true target (start (w_fs w') cwd (fun _ => None)) = (Ok tt, w2)).
Proof.
  intro H.
  assert (E : exists w', local_data_dir_init w_none (path_of [$"cache"]) None true (Some (mkPP false [$"store"]))
    (start (w_tree []) [] (fun _ => None)) = (Ok tt, w') /\ w_fs w' = w_tree [($"objects", Link $"store")]).
  { eexists. vm_compute. split; reflexivity. }
  destruct E as (w' & E & F). apply H in E as (w2 & E). rewrite F in E. vm_compute in E. discriminate.
Qed.
Lemma init_dangling_refuted :
  ~ (forall far anchor trash target fs cwd w',
       local_data_dir_init far anchor trash true target (start fs cwd (fun _ => None)) = (Ok tt, w') ->
       exists q xs es, walk (w_fs w') cwd true (local_objects_dir anchor) = Found q (Dir xs es)).
Proof.
  intro H.
  assert (E : exists w', local_data_dir_init w_none (path_of [$"cache"]) None true (Some (path_of [$"nowhere"]))
    (start (w_tree []) [] (fun _ => None)) = (Ok tt, w') /\ w_fs w' = w_tree [($"objects", Link $"/nowhere")]).
  { eexists. vm_compute. split; reflexivity. }
  destruct E as (w' & E & F). apply H in E as (q & xs & es & E). rewrite F in E. vm_compute in E. discriminate.
Qed.
