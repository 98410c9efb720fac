From Coq Require Import String NArith ZArith Bool List Lia.
From Verif Require Import Model.Py Model.PurePath Model.Fs Model.PathOps Model.Copy Spec.FsSpec Spec.LoopSpec Spec.CopySpec
  Proofs.PyLemmas Proofs.FsLemmas Proofs.RunLemmas Proofs.RmtreeProofs Proofs.RmdirtreeProofs Proofs.MoveLemmas.
Import ListNotations.

Lemma walk_missing_inv root follow b : forall cur comps d x,
  walk_from root follow b cur comps = Missing d x -> exists xs es, get root d = Some (Dir xs es) /\ entry x es = None.
Proof.
  induction b as [|b IHb]; intros cur comps; revert cur; induction comps as [|c rest IH]; intros cur d x H; rewrite walk_eq in H;
    destruct (get root cur) as [m|] eqn:G; try discriminate;
    destruct m as [d0 xs|xs es|t]; try discriminate;
    destruct (str_eqb c $"."); try (now apply IH in H); destruct (str_eqb c $".."); try (now apply IH in H);
    destruct (entry c es) as [[d' xs'|xs' es'|t']|] eqn:E; try (now apply IH in H);
    try (destruct rest; [injection H as <- <-; eauto|discriminate]).
  - destruct (match rest with [] => negb follow | _ => false end); discriminate.
  - destruct (match rest with [] => negb follow | _ => false end); [discriminate|]. destruct t'; [discriminate|]. now apply IHb in H.
Qed.

(** A place where a file can be written *)
Definition slot (fs : node) (T : place) : Prop :=
  (exists D x, T = D ++ [x] /\ is_dir_at fs D) /\ ((exists d xs, get fs T = Some (File d xs)) \/ get fs T = None).

Lemma writes_slot fs cwd p T : good_fs fs -> writes fs cwd p T -> slot fs T.
Proof.
  intros (G & xs0 & es0 & E0) [(d & xs & W)|(d & x & W & ->)].
  - apply walk_found_get in W. split; [|left; eauto]. destruct T as [|y T] using rev_ind; [rewrite E0 in W; discriminate|].
    exists T, y. split; [reflexivity|]. apply get_above in W as (xs' & es' & W). exists xs'. apply look_dir. eauto.
  - apply walk_missing_inv in W as (xs & es & Gd & E). split.
    + exists d, x. split; [reflexivity|]. exists xs. apply look_dir. eauto.
    + right. now rewrite get_snoc, Gd.
Qed.

Lemma slot_other fs T S d xs v : slot fs T -> get fs S = Some (File d xs) -> S <> T -> get (put fs T v) S = Some (File d xs).
Proof.
  intros ((D & x & -> & (ys & LD)) & C) GS N. rewrite get_put_other; [assumption| |].
  - intros [r ->]. destruct r as [|y r]; [rewrite app_nil_r in N; congruence|]. apply get_above in GS as (xs' & es' & GS).
    destruct C as [(d0 & x0 & C)|C]; rewrite C in GS; discriminate.
  - intro B. apply below_snoc in B as [[r ->]|B]; [|congruence]. destruct r as [|y r].
    + rewrite app_nil_r in LD. apply look_dir in LD as (es & LD). congruence.
    + assert (L : look fs (S ++ y :: r) <> None) by congruence. apply look_above in L as (zs & L). apply look_dir in L as (es & L). congruence.
Qed.
Lemma slot_get fs T v : slot fs T -> get (put fs T v) T = Some v.
Proof. intros ((D & x & -> & Dd) & _). now apply get_put_new. Qed.

(** What the file system is while [d] is written to [T]. *)
Definition partly (fs : node) (T : place) (d : bytes) (ys : xattrs) (s : node) : Prop := exists m, s = put fs T (File (firstn m d) ys).
Definition wrote (fs : node) (T : place) (d : bytes) (ys : xattrs) (w w' : world) : Prop :=
  exists l, w_hist w' = l ++ w_hist w /\ Forall (partly fs T d ys) (w_fs w' :: l).

Lemma read_step q pos n w r w' d xs : get (w_fs w) q = Some (File d xs) -> sys_read q pos n w = (r, w') ->
  same w w' /\ (r = Ok (firstn n (skipn pos d)) \/ exists e, r = Err e /\ w_fault w (w_tick w) = Some e).
Proof. intros G H. apply ask_inv in H as [S H]. split; [assumption|]. now rewrite G in H. Qed.
Lemma append_step q b w r w' d xs : get (w_fs w) q = Some (File d xs) -> sys_append q b w = (r, w') ->
  failed w r w' \/ (r = Ok tt /\ changed (put (w_fs w) q (File (d ++ b) xs)) w w').
Proof. intros G. unfold sys_append. apply sys_step. now rewrite G. Qed.

Lemma firstn_skipn_app {A} (l : list A) pos n : firstn pos l ++ firstn n (skipn pos l) = firstn (pos + length (firstn n (skipn pos l))) l.
Proof.
  revert l. induction pos as [|pos IH]; intro l.
  - cbn [firstn skipn app]. rewrite firstn_length. cbn [Nat.add]. destruct (le_dec n (length l)) as [L|L].
    + now rewrite min_l.
    + rewrite min_r by lia. now rewrite (firstn_all2 (n := n)), firstn_all by lia.
  - destruct l as [|a l]; [now rewrite skipn_nil, !firstn_nil|]. cbn [firstn skipn app Nat.add]. now rewrite IH.
Qed.

Section Loop.
Variables (fs : node) (S T : place) (d : bytes) (xs ys : xattrs) (n : nat).
Hypotheses (HT : slot fs T) (HS : get fs S = Some (File d xs)) (ST : S <> T) (n0 : (0 < n)%nat).

Lemma drain_run : forall fuel pos w r w', (pos <= length d)%nat -> w_fs w = put fs T (File (firstn pos d) ys) ->
  drain T (read_feed fuel n S pos) w = (r, w') ->
  wrote fs T d ys w w' /\ (r = Ok tt -> w_fs w' = put fs T (File d ys)) /\ (no_fault w -> (length d - pos < fuel)%nat -> r = Ok tt).
Proof.
  induction fuel as [|fuel IH]; intros pos w r w' Lp F H; cbn [read_feed drain] in H.
  - injection H as <- <-. split; [|split; [discriminate|lia]]. exists []. split; [reflexivity|]. constructor; [|constructor]. now exists pos.
  - assert (W0 : forall v, same w v -> wrote fs T d ys w v).
    { intros v (S1 & _ & S2 & _). exists []. split; [assumption|]. rewrite S1. constructor; [|constructor]. now exists pos. }
    destruct ((let! d0 <- sys_read S pos n; match d0 with [] => ret None | _ :: _ => ret (Some (d0, read_feed fuel n S (pos + length d0))) end) w) as [r1 w1] eqn:E.
    apply bind_inv in E as [(c & w2 & H1 & E)|(e & H1 & ->)];
      (apply (read_step _ _ _ _ _ _ d xs) in H1 as [Sm H1]; [|rewrite F; now apply slot_other]).
    2:{ injection H as <- <-. destruct H1 as [H1|(e' & H1 & Fl)]; [discriminate|]. split; [now apply W0|]. split; [discriminate|].
        intro N. rewrite N in Fl. discriminate. }
    destruct H1 as [H1|(e' & H1 & Fl)]; [|discriminate]. injection H1 as ->.
    destruct (firstn n (skipn pos d)) as [|b c] eqn:Ec.
    + injection E as <- <-. injection H as <- <-. split; [now apply W0|]. split; [|reflexivity]. intros _.
      destruct Sm as (F2 & _). rewrite F2, F. f_equal. f_equal. rewrite <- (firstn_skipn pos d) at 2.
      destruct (skipn pos d) as [|z zs]; [now rewrite app_nil_r|]. destruct n; [lia|discriminate].
    + injection E as <- <-. rewrite <- Ec in *. set (ch := firstn n (skipn pos d)) in *.
      destruct (sys_append T ch w2) as [r2 w3] eqn:E. apply (append_step _ _ _ _ _ (firstn pos d) ys) in E; [|destruct Sm as (F2 & _); rewrite F2, F; now apply slot_get].
      destruct E as [(e & -> & Sm' & Fl)|(-> & Ch)].
      * injection H as <- <-. split; [apply W0; now apply (same_trans _ w2)|]. split; [discriminate|]. intro N.
        rewrite (no_fault_same _ _ Sm N) in Fl. discriminate.
      * assert (F3 : w_fs w3 = put fs T (File (firstn (pos + length ch) d) ys)).
        { destruct Ch as (C1 & _), Sm as (F2 & _). rewrite C1, F2, F, put_put. f_equal. f_equal. apply firstn_skipn_app. }
        assert (Lc : (pos + length ch <= length d)%nat) by (unfold ch; rewrite firstn_length, skipn_length; lia).
        assert (Lz : (0 < length ch)%nat) by (rewrite Ec; cbn; lia).
        change (Datatypes.S (length c)) with (length (b :: c)) in H. rewrite <- Ec in H.
        apply IH in H as ((l & El & Fo) & Ok_ & Nf); [|assumption|assumption].
        destruct Ch as (C1 & C2 & C3 & C4). destruct Sm as (S1 & S2 & S3 & S4).
        split; [|split; [assumption|]].
        -- exists (l ++ [w_fs w3]). rewrite El, C3, S3, <- C1, <- app_assoc. split; [reflexivity|].
           inversion Fo; subst. constructor; [assumption|]. apply Forall_app. split; [assumption|]. constructor; [|constructor]. rewrite F3. now eexists.
        -- intros N Lf. apply Nf; [|lia]. intro t. rewrite C4, S4. apply N.
Qed.
End Loop.

(** ** copy_to *)
Lemma create_step fs cwd p T w : writes fs cwd p T -> w_fs w = fs -> w_cwd w = cwd -> forall r w', sys_create p w = (r, w') ->
  failed w r w' \/ (r = Ok T /\ changed (put fs T (File [] (file_xattrs fs T))) w w').
Proof.
  intros W F C. unfold sys_create. apply sys_step. rewrite F, C. destruct W as [(d & xs & W)|(d & x & W & ->)]; rewrite W.
  - apply walk_found_get in W. replace (file_xattrs fs T) with xs by (unfold file_xattrs, look; now rewrite W). reflexivity.
  - apply walk_missing_inv in W as (xs & es & Gd & E). replace (file_xattrs fs (d ++ [x])) with (@nil (str * bytes)); [reflexivity|].
    unfold file_xattrs, look. now rewrite get_snoc, Gd, E.
Qed.

Lemma open_step fs cwd p S w r w' : reads fs cwd p S -> w_fs w = fs -> w_cwd w = cwd -> sys_open_read p w = (r, w') ->
  same w w' /\ (r = Ok S \/ exists e, r = Err e /\ w_fault w (w_tick w) = Some e).
Proof. intros (d & xs & W) F C H. apply ask_inv in H as [Sm H]. split; [assumption|]. unfold lookup in H. now rewrite F, C, W in H. Qed.

Definition unchanged (w w' : world) : Prop := same w w'.
(** Nothing was changed, or [T] is being written. *)
Definition copied (fs : node) (T : place) (d : bytes) (w w' : world) : Prop :=
  same w w' \/ exists l, w_hist w' = l ++ w_hist w /\ Forall (partly fs T d (file_xattrs fs T)) (w_fs w' :: l).

Lemma set_data_run fs cwd fuel n self target S T d w r w' : good_fs fs -> reads fs cwd self S -> writes fs cwd target T -> S <> T ->
  content fs S = Some d -> (0 < n)%nat -> w_fs w = fs -> w_cwd w = cwd -> set_data target (data_feed fuel n self) w = (r, w') ->
  copied fs T d w w' /\ (r = Ok tt -> w_fs w' = put fs T (File d (file_xattrs fs T))) /\
  (no_fault w -> d <> [] -> (length d < fuel)%nat -> r = Ok tt).
Proof.
  intros G R W ST Cd n0 F C H. unfold set_data, write_chunks in H. pose proof (writes_slot _ _ _ _ G W) as HT.
  assert (HS : exists xs, get fs S = Some (File d xs)).
  { destruct R as (d' & xs & R). apply walk_found_get in R. unfold content, look in Cd. rewrite R in Cd. injection Cd as ->. eauto. }
  destruct HS as (xs & HS).
  apply bind_inv in H as [(first & w1 & H1 & H)|(e & H1 & ->)]; unfold data_feed in H1; cbn [pull] in H1;
    apply bind_inv in H1 as [(q & w2 & H2 & H1)|(e2 & H2 & E2)]; try discriminate E2; try (injection E2 as ->);
    apply (open_step fs cwd _ S) in H2 as [Sm H2]; try assumption.
  2:{ destruct H2 as [H2|(e' & H2 & Fl)]; [|discriminate]. injection H2 as ->. destruct fuel as [|fuel]; cbn [read_feed pull] in H1.
      - injection H1 as <- <-. split; [now left|]. split; [discriminate|lia].
      - apply bind_inv in H1 as [(c & w3 & H2 & H1)|(e2 & H2 & E2)].
        + destruct c; discriminate H1.
        + injection E2 as ->. apply (read_step _ _ _ _ _ _ d xs) in H2 as [Sm' H2]; [|destruct Sm as (S1 & _); rewrite S1, F; exact HS].
          destruct H2 as [H2|(e' & H2 & Fl)]; [discriminate|]. split; [left; now apply (same_trans _ w2)|]. split; [discriminate|].
          intro N. rewrite (no_fault_same _ _ Sm N) in Fl. discriminate. }
  2:{ destruct H2 as [H2|(e' & H2 & Fl)]; [discriminate|]. split; [now left|]. split; [discriminate|]. intro N. rewrite N in Fl. discriminate. }
  destruct H2 as [H2|(e' & H2 & Fl)]; [|discriminate]. injection H2 as ->. destruct fuel as [|fuel]; cbn [read_feed pull] in H1; [discriminate|].
  apply bind_inv in H1 as [(c & w3 & H2 & H1)|(e2 & H2 & E2)]; [|discriminate].
  apply (read_step _ _ _ _ _ _ d xs) in H2 as [Sm' H2]; [|destruct Sm as (S1 & _); rewrite S1, F; exact HS].
  destruct H2 as [H2|(e' & H2 & Fl)]; [|discriminate]. injection H2 as ->. apply (same_trans _ _ _ Sm) in Sm'. clear Sm w2.
  cbn [skipn] in H1. destruct (firstn n d) as [|b c] eqn:Ec.
  - injection H1 as <- <-. injection H as <- <-. split; [now left|]. split; [discriminate|]. intros _ Nd. destruct d; [congruence|]. destruct n; [lia|discriminate].
  - injection H1 as <- <-. rewrite <- Ec in *. cbn [Nat.add] in H.
    pose proof Sm' as (S1 & S2 & S3 & S4).
    apply bind_inv in H as [(q & w2 & H1 & H)|(e & H1 & ->)]; (apply (create_step fs cwd _ T) in H1; [|assumption|congruence|congruence]);
      destruct H1 as [(e' & E & Sm & Fl)|(E & Ch)]; try discriminate E.
    2:{ split; [left; now apply (same_trans _ w3)|]. split; [discriminate|]. intro N. rewrite (no_fault_same _ _ Sm' N) in Fl. discriminate. }
    injection E as ->. destruct Ch as (C1 & C2 & C3 & C4). set (ys := file_xattrs fs T) in *.
    assert (K1 : forall v, same w2 v -> copied fs T d w v).
    { intros v (V1 & _ & V2 & _). right. exists [w_fs w2]. rewrite V2, C3, S3, V1, C1. split; [reflexivity|].
      constructor; [|constructor; [|constructor]]; exists 0%nat; reflexivity. }
    apply bind_inv in H as [([] & w4 & H1 & H)|(e & H1 & ->)]; (apply (append_step _ _ _ _ _ [] ys) in H1; [|rewrite C1; now apply slot_get]);
      destruct H1 as [(e' & E & Sm & Fl)|(E & Ch)]; try discriminate E.
    2:{ split; [now apply K1|]. split; [discriminate|]. intro N. rewrite C4, S4, N in Fl. discriminate. }
    clear E. rewrite C1, put_put in Ch. cbn [app] in Ch. destruct Ch as (D1 & D2 & D3 & D4).
    change (Datatypes.S (length c)) with (length (b :: c)) in H. rewrite <- Ec in H.
    apply (drain_run fs S T d xs ys n HT HS ST n0) in H as ((l & El & Fo) & Ok_ & Nf).
    + split; [|split; [assumption|]].
      * right. exists (l ++ [w_fs w4; w_fs w2]). rewrite El, D3, C3, S3, D1, C1, <- app_assoc. split; [reflexivity|].
        inversion Fo; subst. constructor; [assumption|]. apply Forall_app. split; [assumption|].
        constructor; [now exists n|]. constructor; [|constructor]. now exists 0%nat.
      * intros N _ Lf. apply Nf; [intro t; rewrite D4, C4, S4; apply N|]. rewrite Ec. cbn [length].
        assert (length d <> 0%nat) by (intro Z; destruct d; [rewrite firstn_nil in Ec; discriminate|discriminate Z]). lia.
    + rewrite firstn_length. lia.
    + rewrite D1. f_equal. f_equal. rewrite firstn_length. destruct (le_dec n (length d)); [now rewrite min_l|].
      rewrite min_r by lia. now rewrite firstn_all, firstn_all2 by lia.
Qed.

Lemma copied_same fs T d w w1 w' : same w w1 -> copied fs T d w1 w' -> copied fs T d w w'.
Proof.
  intros S [C|(l & E & F)]; [left; now apply (same_trans _ w1)|]. right. exists l. destruct S as (_ & _ & S3 & _). now rewrite E, S3.
Qed.

(** The test before the copy *)
Definition may_go (target : ppath) (force : bool) : M bool :=
  let! e <- p_exists target ;
  if e then ret force else let! l <- p_is_symlink target ; ret (if l then force else true).
Lemma copy_to_eq fuel n self target force w : p_copy_to fuel n self target force w =
  (let! go <- may_go target force ; if go then set_data target (data_feed fuel n self) else raise PathExistsErr) w.
Proof. unfold p_copy_to, may_go, bind. destruct (p_exists target w) as [[[|]|e] w1]; reflexivity. Qed.
Lemma may_go_same target force w r w' : may_go target force w = (r, w') -> same w w'.
Proof.
  unfold may_go. intro H. apply bind_inv in H as [(e & w1 & H1 & H)|(e & H1 & ->)]; apply test_inv in H1 as [S _]; [|assumption].
  destruct e; [now injection H as <- <-|]. apply bind_inv in H as [(l & w2 & H1 & H)|(e & H1 & ->)]; apply test_inv in H1 as [S' _]; apply (same_trans _ _ _ S) in S'; [|assumption].
  now injection H as <- <-.
Qed.
Lemma may_go_no target w r w' : honest (w_fault w) -> occupied (w_fs w) (w_cwd w) target -> may_go target false w = (r, w') -> r <> Ok true.
Proof.
  intros Hf (q & n & W) H. unfold may_go in H. apply bind_inv in H as [(e & w1 & H1 & H)|(e & H1 & ->)]; [|discriminate].
  apply test_honest in H1 as [S H1]; [|assumption]. destruct e; [injection H as <- <-; discriminate|].
  destruct n as [d xs|xs es|t].
  - apply walk_nofollow in W; [|discriminate]. apply H1 in W. discriminate.
  - apply walk_nofollow in W; [|discriminate]. apply H1 in W. discriminate.
  - apply bind_inv in H as [(l & w2 & H2 & H)|(e & H2 & ->)]; [|discriminate].
    pose proof S as (F & C & _ & T). apply test_honest in H2 as [S' H2]; [|now rewrite T]. rewrite F, C in H2. destruct l; [injection H as <- <-; discriminate|].
    apply H2 in W. discriminate.
Qed.
Lemma may_go_yes target force w : no_fault w -> force = true \/ ~ occupied (w_fs w) (w_cwd w) target -> exists w', may_go target force w = (Ok true, w') /\ same w w'.
Proof.
  intros N Hf. unfold may_go. destruct (test_run true target (fun _ => true) w N) as (w1 & S & E).
  assert (N1 : no_fault w1) by now apply (no_fault_same w). pose proof S as (F & C & _ & _).
  destruct (test_run false target (fun n => match n with Link _ => true | _ => false end) w1 N1) as (w2 & S2 & E2).
  assert (Nl : force = true \/ (forall q n, walk (w_fs w) (w_cwd w) false target <> Found q n)).
  { destruct Hf as [Hf|Hf]; [now left|right]. intros q n W. apply Hf. now exists q, n. }
  unfold bind at 1, p_exists. rewrite E. destruct (walk (w_fs w) (w_cwd w) true target) as [q n|d x|e] eqn:W.
  - exists w1. split; [|assumption]. destruct Nl as [->|Nl]; [reflexivity|]. unfold walk in W. apply walk_follow in W as (q' & n' & W). now apply Nl in W.
  - exists w2. split; [|now apply (same_trans _ w1)]. unfold bind, p_is_symlink. rewrite E2, F, C.
    destruct (walk (w_fs w) (w_cwd w) false target) as [q' n'|d' x'|e'] eqn:W'.
    + destruct Nl as [->|Nl]; [|now elim (Nl q' n')]. now destruct n'.
    + reflexivity.
    + unfold walk in W'. apply walk_fail in W'. now rewrite W'.
  - unfold walk in W. apply walk_fail in W. rewrite W. exists w2. split; [|now apply (same_trans _ w1)]. unfold bind, p_is_symlink. rewrite E2, F, C.
    destruct (walk (w_fs w) (w_cwd w) false target) as [q' n'|d' x'|e'] eqn:W'.
    + destruct Nl as [->|Nl]; [|now elim (Nl q' n')]. now destruct n'.
    + reflexivity.
    + unfold walk in W'. apply walk_fail in W'. now rewrite W'.
Qed.

Lemma copy_run fs cwd fuel n self target force S T d w r w' : good_fs fs -> reads fs cwd self S -> writes fs cwd target T -> S <> T ->
  content fs S = Some d -> (0 < n)%nat -> w_fs w = fs -> w_cwd w = cwd -> p_copy_to fuel n self target force w = (r, w') ->
  copied fs T d w w' /\ (r = Ok tt -> w_fs w' = put fs T (File d (file_xattrs fs T))) /\
  (no_fault w -> d <> [] -> (length d < fuel)%nat -> force = true \/ ~ occupied fs cwd target -> r = Ok tt).
Proof.
  intros G R W ST Cd n0 F C H. rewrite copy_to_eq in H.
  apply bind_inv in H as [(go & w1 & H1 & H)|(e & H1 & ->)]; pose proof (may_go_same _ _ _ _ _ H1) as Sm.
  - destruct go.
    + pose proof Sm as (S1 & S2 & _ & _). eapply set_data_run in H; [|eassumption..|congruence|congruence]. destruct H as (K & Ok_ & Nf).
      split; [now apply (copied_same _ _ _ _ w1)|]. split; [assumption|]. intros N Nd Lf _. apply Nf; try assumption. now apply (no_fault_same w).
    + injection H as <- <-. split; [now left|]. split; [discriminate|]. intros N _ _ Fo.
      destruct (may_go_yes target force w N) as (w2 & E & _); [now rewrite F, C|]. congruence.
  - split; [now left|]. split; [discriminate|]. intros N _ _ Fo. destruct (may_go_yes target force w N) as (w2 & E & _); [now rewrite F, C|]. congruence.
Qed.

Lemma put_look fs T v q : slot fs T -> (match v with File _ _ => True | _ => False end) -> q <> T -> look (put fs T v) q = look fs q.
Proof.
  intros HT V N. destruct (below_dec T q) as [[r ->]|B]; [|now apply look_put_other].
  destruct r as [|y r]; [rewrite app_nil_r in N; congruence|]. destruct v; try contradiction.
  assert (L1 : look (put fs T (File data xs)) (T ++ y :: r) = None).
  { destruct (look (put fs T (File data xs)) (T ++ y :: r)) eqn:E; [|reflexivity].
    assert (L : look (put fs T (File data xs)) (T ++ y :: r) <> None) by congruence. apply look_above in L as (zs & L). apply look_dir in L as (es & L).
    rewrite slot_get in L by assumption. discriminate. }
  rewrite L1. destruct (look fs (T ++ y :: r)) eqn:E; [|reflexivity].
  assert (L : look fs (T ++ y :: r) <> None) by congruence. apply look_above in L as (zs & L). apply look_dir in L as (es & L).
  destruct HT as (_ & [(d & x & HT)|HT]); congruence.
Qed.

(** ** As the properties state it *)
Definition start_ok fs cwd fault : w_fs (start fs cwd fault) = fs /\ w_cwd (start fs cwd fault) = cwd := conj eq_refl eq_refl.

Lemma copy_refuses fuel n self target fs cwd fault r w' : honest fault -> occupied fs cwd target ->
  p_copy_to fuel n self target false (start fs cwd fault) = (r, w') ->
  (exists e, r = Err e) /\ (forall s, In s (states w') -> s = fs) /\ ((forall t, fault t = None) -> r = Err PathExistsErr).
Proof.
  intros Hf O H. rewrite copy_to_eq in H.
  assert (Fin : forall v, same (start fs cwd fault) v -> forall s, In s (states v) -> s = fs).
  { intros v (F & _ & Hh & _). unfold states. rewrite F, Hh. cbn. intros s [<-|[<-|[]]]; reflexivity. }
  apply bind_inv in H as [(go & w1 & H1 & H)|(e & H1 & ->)]; pose proof (may_go_same _ _ _ _ _ H1) as Sm; pose proof (may_go_no _ (start fs cwd fault) _ _ Hf O H1) as No.
  - destruct go; [congruence|]. injection H as <- <-. split; [now eexists|]. split; [now apply Fin|reflexivity].
  - split; [now eexists|]. split; [now apply Fin|]. intro N. exfalso. unfold may_go in H1.
    assert (N0 : no_fault (start fs cwd fault)) by exact N.
    apply bind_inv in H1 as [(e0 & w1 & H1 & H)|(e0 & H1 & _)].
    + apply test_inv in H1 as [S1 _]. destruct e0; [discriminate|]. apply bind_inv in H as [(l & w2 & _ & H)|(e0 & H & _)]; [discriminate|].
      destruct (test_run false target (fun n => match n with Link _ => true | _ => false end) w1) as (w2 & _ & R); [now apply (no_fault_same _ _ S1)|].
      unfold p_is_symlink in H. rewrite R in H. destruct (walk (w_fs w1) (w_cwd w1) false target) eqn:W; try discriminate H.
      unfold walk in W. apply walk_fail in W. rewrite W in H. discriminate.
    + destruct (test_run true target (fun _ => true) _ N0) as (w2 & _ & R). unfold p_exists in H1. rewrite R in H1.
      destruct (walk _ _ true target) eqn:W; try discriminate H1. unfold walk in W. apply walk_fail in W. rewrite W in H1. discriminate.
Qed.

Lemma copy_confined fuel n self target force fs cwd fault S T d r w' : good_fs fs -> reads fs cwd self S -> writes fs cwd target T -> S <> T ->
  content fs S = Some d -> (0 < n)%nat -> p_copy_to fuel n self target force (start fs cwd fault) = (r, w') ->
  forall s, In s (states w') -> only_at T fs s /\ (look s T = look fs T \/ exists m, look s T = Some (AFile (firstn m d) (file_xattrs fs T))).
Proof.
  intros G R W ST Cd n0 H. pose proof (writes_slot _ _ _ _ G W) as HT. eapply copy_run in H as (K & _); [|eassumption..|reflexivity|reflexivity].
  assert (P : forall s, partly fs T d (file_xattrs fs T) s \/ s = fs -> only_at T fs s /\ (look s T = look fs T \/ exists m, look s T = Some (AFile (firstn m d) (file_xattrs fs T)))).
  { intros s [(m & ->)| ->].
    - split; [intros q Nq; now apply put_look|]. right. exists m. unfold look. now rewrite slot_get.
    - split; [intros q Nq; reflexivity|now left]. }
  unfold states. destruct K as [(F & _ & Hh & _)|(l & E & Fo)].
  - rewrite F, Hh. cbn. intros s [<-|[<-|[]]]; apply P; now right.
  - rewrite E. rewrite Forall_forall in Fo. intros s I. apply P. destruct I as [<-|I]; [left; apply Fo; now left|].
    apply in_app_or in I as [I|[<-|[]]]; [left; apply Fo; now right|now right].
Qed.

Lemma copy_ok fuel n self target force fs cwd fault S T d w' : good_fs fs -> reads fs cwd self S -> writes fs cwd target T -> S <> T ->
  content fs S = Some d -> (0 < n)%nat -> p_copy_to fuel n self target force (start fs cwd fault) = (Ok tt, w') ->
  only_at T fs (w_fs w') /\ look (w_fs w') T = Some (AFile d (file_xattrs fs T)).
Proof.
  intros G R W ST Cd n0 H. pose proof (writes_slot _ _ _ _ G W) as HT. eapply copy_run in H as (_ & K & _); [|eassumption..|reflexivity|reflexivity].
  rewrite K by reflexivity. split; [intros q Nq; now apply put_look|]. unfold look. now rewrite slot_get.
Qed.

Lemma copy_returns fuel n self target force fs cwd S T d r w' : good_fs fs -> reads fs cwd self S -> writes fs cwd target T -> S <> T ->
  content fs S = Some d -> (0 < n)%nat -> d <> [] -> (length d < fuel)%nat -> force = true \/ ~ occupied fs cwd target ->
  p_copy_to fuel n self target force (start fs cwd (fun _ => None)) = (r, w') -> r = Ok tt.
Proof.
  intros G R W ST Cd n0 Nd Lf Fo H. eapply copy_run in H as (_ & _ & K); [|eassumption..|reflexivity|reflexivity].
  apply K; try assumption. intro t. reflexivity.
Qed.

Lemma set_data_none fuel n self target w r w' : (forall S, ~ reads (w_fs w) (w_cwd w) self S) -> set_data target (data_feed fuel n self) w = (r, w') ->
  (exists e, r = Err e) /\ same w w'.
Proof.
  intros N H. unfold set_data, write_chunks, data_feed in H. cbn [pull] in H.
  apply bind_inv in H as [(first & w1 & H1 & H)|(e & H1 & ->)]; apply bind_inv in H1 as [(q & w2 & H2 & H1)|(e2 & H2 & E2)]; try discriminate E2.
  - apply ask_inv in H2 as [_ [H2|(e & H2 & _)]]; [|discriminate]. unfold lookup in H2. destruct (walk (w_fs w) (w_cwd w) true self) as [p0 [dd xs|xs es|t]|dd x|e] eqn:W; try discriminate H2.
    elim (N p0). now exists dd, xs.
  - apply ask_inv in H2 as [_ [H2|(e' & H2 & _)]]; [|discriminate]. unfold lookup in H2. destruct (walk (w_fs w) (w_cwd w) true self) as [p0 [dd xs|xs es|t]|dd x|e'] eqn:W; try discriminate H2.
    elim (N p0). now exists dd, xs.
  - apply ask_inv in H2 as [S _]. split; [now eexists|assumption].
Qed.
Lemma copy_no_source fuel n self target force fs cwd fault r w' : (forall S, ~ reads fs cwd self S) ->
  p_copy_to fuel n self target force (start fs cwd fault) = (r, w') -> (exists e, r = Err e) /\ forall s, In s (states w') -> s = fs.
Proof.
  intros N H. rewrite copy_to_eq in H.
  assert (Fin : forall v, same (start fs cwd fault) v -> forall s, In s (states v) -> s = fs).
  { intros v (F & _ & Hh & _). unfold states. rewrite F, Hh. cbn. intros s [<-|[<-|[]]]; reflexivity. }
  apply bind_inv in H as [(go & w1 & H1 & H)|(e & H1 & ->)]; pose proof (may_go_same _ _ _ _ _ H1) as Sm.
  - destruct go.
    + apply set_data_none in H as [E S']; [|destruct Sm as (F & C & _); rewrite F, C; exact N]. split; [assumption|]. apply Fin. now apply (same_trans _ w1).
    + injection H as <- <-. split; [now eexists|now apply Fin].
  - split; [now eexists|now apply Fin].
Qed.

Lemma outto_ok fuel n self target force fs cwd fault S T d p w' : good_fs fs -> reads fs cwd self S -> writes fs cwd (child target (pp_name self)) T -> S <> T ->
  content fs S = Some d -> (0 < n)%nat -> p_copy_outto fuel n self target force (start fs cwd fault) = (Ok p, w') ->
  p = child target (pp_name self) /\ only_at T fs (w_fs w') /\ look (w_fs w') T = Some (AFile d (file_xattrs fs T)).
Proof.
  intros G R W ST Cd n0 H. pose proof (writes_slot _ _ _ _ G W) as HT. unfold p_copy_outto in H.
  apply bind_inv in H as [(b & w1 & H1 & H)|(e & H1 & E)]; [|discriminate]. apply test_inv in H1 as [(S1 & S2 & _) _].
  destruct b; [|discriminate]. cbn [negb] in H. apply bind_inv in H as [([] & w2 & H1 & H)|(e & H1 & E)]; [|discriminate]. injection H as <- <-.
  split; [reflexivity|]. eapply copy_run in H1 as (_ & K & _); [|eassumption..|rewrite S1; reflexivity|rewrite S2; reflexivity].
  rewrite K by reflexivity. split; [intros q Nq; now apply put_look|]. unfold look. now rewrite slot_get.
Qed.
Lemma outto_refuses fuel n self target force fs cwd fault r w' : (forall q xs es, walk fs cwd true target <> Found q (Dir xs es)) ->
  p_copy_outto fuel n self target force (start fs cwd fault) = (r, w') ->
  (exists e, r = Err e) /\ (forall s, In s (states w') -> s = fs) /\ ((forall t, fault t = None) -> r = Err (OSErr ENOTDIR)).
Proof.
  intros N H. unfold p_copy_outto in H.
  assert (Fin : forall v, same (start fs cwd fault) v -> forall s, In s (states v) -> s = fs).
  { intros v (F & _ & Hh & _). unfold states. rewrite F, Hh. cbn. intros s [<-|[<-|[]]]; reflexivity. }
  apply bind_inv in H as [(b & w1 & H1 & H)|(e & H1 & ->)]; pose proof H1 as H2; apply test_inv in H2 as [Sm H2].
  - destruct b; [destruct H2 as (q & m & W & E); [reflexivity|]; destruct m; try discriminate; now apply N in W|]. injection H as <- <-.
    split; [now eexists|]. split; [now apply Fin|reflexivity].
  - split; [now eexists|]. split; [now apply Fin|]. intro Nf. exfalso.
    destruct (test_run true target (fun n => match n with Dir _ _ => true | _ => false end) (start fs cwd fault) Nf) as (w2 & _ & R).
    unfold p_is_dir in H1. rewrite R in H1. destruct (walk _ _ true target) eqn:W; try discriminate H1. unfold walk in W. apply walk_fail in W. rewrite W in H1. discriminate.
Qed.
