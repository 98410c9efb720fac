(** * Moving to the trash, and updating metadata *)
From Coq Require Import String NArith ZArith Bool List Lia.
From Verif Require Import Model.Py Model.PurePath Model.Meta Model.MetaEncode Model.MetaXattr Model.MetaSymlink Model.MetaUpdate Model.Access
  Model.Fs Model.PathOps Model.Sparse Model.Copy Model.Cache
  Spec.FsSpec Spec.LoopSpec Spec.CopySpec Spec.CacheSpec Spec.AccessSpec
  Proofs.PyLemmas Proofs.PathLemmas Proofs.AccessProofs Proofs.FsLemmas Proofs.RunLemmas Proofs.RmtreeProofs Proofs.RmdirtreeProofs Proofs.SparseProofs
  Proofs.MoveLemmas Proofs.LoopProofs Proofs.CopyProofs Proofs.Hoare Proofs.SlotLemmas Proofs.CacheLemmas Proofs.CacheOps.
Import ListNotations.

(** ** Renaming what is not a directory *)
Definition not_dir (n : node) : Prop := forall xs es, n <> Dir xs es.
(** What was at [P] is at [T], all else is as it was. *)
Definition moved (fs : node) (P T : place) (s : node) : Prop :=
  good_fs s /\ look s T = look fs P /\ look s P = None /\ forall q, q <> P -> q <> T -> look s q = look fs q.

Lemma leaf_below n q y r : look n q <> None -> (forall xs, look n q <> Some (ADir xs)) -> look n (q ++ y :: r) = None.
Proof.
  intros H1 H2. destruct (look n (q ++ y :: r)) eqn:E; [|reflexivity].
  assert (K : look n (q ++ y :: r) <> None) by congruence. apply look_above in K as (xs & K). now elim (H2 xs).
Qed.
Lemma leaf_below' n q y r : (forall xs, look n q <> Some (ADir xs)) -> look n (q ++ y :: r) = None.
Proof.
  intros H2. destruct (look n (q ++ y :: r)) eqn:E; [|reflexivity].
  assert (K : look n (q ++ y :: r) <> None) by congruence. apply look_above in K as (xs & K). now elim (H2 xs).
Qed.
Lemma not_dir_look fs P n : get fs P = Some n -> not_dir n -> forall xs, look fs P <> Some (ADir xs).
Proof. intros G N xs E. apply look_dir in E as (es & E). apply (N xs es). congruence. Qed.

Lemma apart_leaf fs P n TR y : get fs P = Some n -> not_dir n -> is_dir_at fs TR -> P <> TR ++ [y] -> ~ below P (TR ++ [y]).
Proof.
  intros G N (xs & Ht) Ne B. apply below_snoc in B as [B|B]; [|congruence].
  destruct B as (r & ->). destruct r as [|z r].
  - rewrite app_nil_r in Ht. now apply (not_dir_look _ _ _ G N) in Ht.
  - rewrite (leaf_below' fs P z r (not_dir_look _ _ _ G N)) in Ht. discriminate.
Qed.

Lemma put_moved fs P n TR y : good_fs fs -> P <> [] -> get fs P = Some n -> not_dir n -> is_dir_at fs TR -> good_name y -> P <> TR ++ [y] ->
  (forall xs, look fs (TR ++ [y]) <> Some (ADir xs)) -> moved fs P (TR ++ [y]) (put (del fs P) (TR ++ [y]) n).
Proof.
  intros G Pn Gp N Ht Hy Ne Nt. pose proof (apart_leaf _ _ _ _ _ Gp N Ht Ne) as B1.
  assert (B2 : ~ below (TR ++ [y]) P).
  { intros (r & E). destruct r as [|z r]; [rewrite app_nil_r in E; congruence|].
    assert (L : look fs P = None) by (rewrite E; now apply leaf_below'). apply look_none in L. congruence. }
  assert (Ht' : is_dir_at (del fs P) TR).
  { destruct Ht as (xs & Ht). exists xs. rewrite look_del_other; [assumption|]. intro B. apply B1. apply (below_trans _ TR); [assumption|apply below_app]. }
  assert (E : get (put (del fs P) (TR ++ [y]) n) (TR ++ [y]) = Some n) by now apply get_put_new.
  assert (Lt : look (put (del fs P) (TR ++ [y]) n) (TR ++ [y]) = look fs P) by (unfold look; now rewrite E, Gp).
  split; [|split; [|split]].
  - apply good_put_new; try assumption; [now apply good_fs_del|]. now apply (good_get _ _ _ (proj1 G) Gp).
  - exact Lt.
  - rewrite look_put_other by assumption. apply look_del_below; [assumption|apply below_refl].
  - intros q Nq1 Nq2. destruct (below_dec (TR ++ [y]) q) as [(r & ->)|Bq].
    + destruct r as [|z r]; [rewrite app_nil_r in Nq2; congruence|]. rewrite (leaf_below' fs (TR ++ [y]) z r Nt).
      apply leaf_below'. intros xs. rewrite Lt. now apply (not_dir_look _ _ n).
    + rewrite look_put_other by assumption. destruct (below_dec P q) as [(r & ->)|Bq'].
      * destruct r as [|z r]; [rewrite app_nil_r in Nq1; congruence|]. rewrite (leaf_below' fs P z r (not_dir_look _ _ _ Gp N)).
        apply look_del_below; [assumption|apply below_app].
      * now apply look_del_other.
Qed.

Lemma list_eqb_place (a b : place) : a <> b -> list_eqb str_eqb a b = false.
Proof.
  revert b. induction a as [|x a IH]; intros [|y b] N; try reflexivity; [congruence|]. cbn [list_eqb].
  destruct (str_eqb x y) eqn:E; [|reflexivity]. apply str_eqb_eq in E. subst. cbn [andb]. apply IH. congruence.
Qed.

Lemma rename_leaf w P n TR y r w' : good_fs (w_fs w) -> P <> [] -> get (w_fs w) P = Some n -> not_dir n -> is_dir_at (w_fs w) TR -> good_name y ->
  P <> TR ++ [y] -> sys_rename (path_of P) (path_of (TR ++ [y])) w = (r, w') ->
  (same w w' /\ exists e, r = Err e /\ (w_fault w (w_tick w) = Some e \/ e = OSErr EISDIR /\ is_dir_at (w_fs w) (TR ++ [y]))) \/
  (r = Ok tt /\ changed (w_fs w') w w' /\ moved (w_fs w) P (TR ++ [y]) (w_fs w') /\ ~ is_dir_at (w_fs w) (TR ++ [y])).
Proof.
  intros G Pn Gp N Ht Hy Ne H. unfold sys_rename in H. apply sys_inv in H as [(e & -> & S & E)|(a & fs & -> & E & C)].
  - left. split; [assumption|]. exists e. split; [reflexivity|]. destruct E as [E|E]; [|now left]. right.
    rewrite (not_dotdot _ _ _ G Pn Gp), (not_dotdot_snoc TR y Hy) in E. cbn [orb] in E.
    unfold lookup in E. rewrite (walk_of _ _ _ _ _ G Gp) in E by discriminate. cbn [rbind] in E.
    destruct P as [|z P']; [congruence|]. remember (z :: P') as P eqn:EP.
    destruct (get (w_fs w) (TR ++ [y])) as [m|] eqn:Gt.
    + rewrite (walk_of _ _ _ _ _ G Gt) in E by discriminate. rewrite (list_eqb_place _ _ Ne) in E.
      destruct n as [d xs|xs es|t]; [|now elim (N xs es)|]; (destruct m as [d' ys|ys fs|t']; try discriminate;
        unfold fail in E; injection E as <-; split; [reflexivity|]; exists ys; apply look_dir; eauto).
    + rewrite walk_of_missing in E; try assumption; [|now apply look_none].
      destruct (is_prefix P (TR ++ [y])) eqn:Ip; [|discriminate]. apply is_prefix_spec in Ip. now apply (apart_leaf _ _ _ _ _ Gp N Ht Ne) in Ip.
  - right. destruct a. split; [reflexivity|]. pose proof C as (C1 & _). rewrite C1. split; [assumption|].
    rewrite (not_dotdot _ _ _ G Pn Gp), (not_dotdot_snoc TR y Hy) in E. cbn [orb] in E.
    unfold lookup in E. rewrite (walk_of _ _ _ _ _ G Gp) in E by discriminate. cbn [rbind] in E.
    destruct P as [|z P']; [congruence|]. remember (z :: P') as P eqn:EP.
    destruct (get (w_fs w) (TR ++ [y])) as [m|] eqn:Gt.
    + rewrite (walk_of _ _ _ _ _ G Gt) in E by discriminate. rewrite (list_eqb_place _ _ Ne) in E.
      assert (Nm : not_dir m).
      { intros ys fs' ->. destruct n as [d xs|xs es|t]; [discriminate|now elim (N xs es)|discriminate]. }
      assert (Nt : forall xs, look (w_fs w) (TR ++ [y]) <> Some (ADir xs)) by now apply (not_dir_look _ _ m).
      assert (fs = put (del (w_fs w) P) (TR ++ [y]) n) as ->.
      { destruct n as [d xs|xs es|t]; [|now elim (N xs es)|]; (destruct m as [d' ys|ys fs'|t']; [|now elim (Nm ys fs')|]); apply Ok_inj in E; now injection E as <-. }
      split; [now apply put_moved|]. intros (xs & K). now elim (Nt xs).
    + rewrite walk_of_missing in E; try assumption; [|now apply look_none].
      destruct (is_prefix P (TR ++ [y])); [discriminate|]. apply Ok_inj in E. injection E as <-.
      assert (Nt : forall xs, look (w_fs w) (TR ++ [y]) <> Some (ADir xs)). { intros xs K. apply look_none in Gt. congruence. }
      split; [now apply put_moved|]. intros (xs & K). now elim (Nt xs).
Qed.

(** renaming something onto a directory, by a path that names it *)
Lemma rename_onto_dir w P n b r w' : good_fs (w_fs w) -> P <> [] -> get (w_fs w) P = Some n -> not_dir n ->
  (dot_end b = true \/ exists q xs es, walk (w_fs w) (w_cwd w) false b = Found q (Dir xs es)) -> sys_rename (path_of P) b w = (r, w') ->
  same w w' /\ exists e, r = Err e /\ (w_fault w (w_tick w) = Some e \/ e = OSErr EISDIR \/ e = OSErr EBUSY).
Proof.
  intros G Pn Gp N Hb H. unfold sys_rename in H. apply sys_inv in H as [(e & -> & S & E)|(a & fs & -> & E & C)].
  - split; [assumption|]. exists e. split; [reflexivity|]. destruct E as [E|E]; [|now left]. right.
    rewrite (not_dotdot _ _ _ G Pn Gp) in E. cbn [orb] in E. destruct (dot_end b) eqn:Db.
    { unfold fail in E. injection E as <-. now right. }
    destruct Hb as [Hb|(q & xs & es & Hb)]; [discriminate|].
    unfold lookup in E. rewrite (walk_of _ _ _ _ _ G Gp) in E by discriminate. cbn [rbind] in E.
    destruct P as [|z P']; [congruence|]. remember (z :: P') as P eqn:EP. rewrite Hb in E.
    destruct (place_dec P q) as [->|Ne].
    { exfalso. apply walk_found_get in Hb. apply (N xs es). congruence. }
    rewrite (list_eqb_place _ _ Ne) in E. destruct n as [d ys|ys fs|t]; [|now elim (N ys fs)|]; unfold fail in E; injection E as <-; now left.
  - exfalso. rewrite (not_dotdot _ _ _ G Pn Gp) in E. cbn [orb] in E. destruct (dot_end b) eqn:Db; [discriminate|].
    destruct Hb as [Hb|(q & xs & es & Hb)]; [discriminate|].
    unfold lookup in E. rewrite (walk_of _ _ _ _ _ G Gp) in E by discriminate. cbn [rbind] in E.
    destruct P as [|z P']; [congruence|]. remember (z :: P') as P eqn:EP. rewrite Hb in E.
    destruct (place_dec P q) as [->|Ne].
    { apply walk_found_get in Hb. apply (N xs es). congruence. }
    rewrite (list_eqb_place _ _ Ne) in E. destruct n as [d ys|ys fs'|t]; [discriminate|now elim (N ys fs')|discriminate].
Qed.

(** ** crumple *)
Lemma safe_name i : fs_safe_id i = [] \/ fs_safe_id i = $"." \/ fs_safe_id i = $".." \/ good_name (fs_safe_id i).
Proof.
  destruct (str_dec (fs_safe_id i) []) as [|N1]; [now left|]. destruct (str_dec (fs_safe_id i) $".") as [|N2]; [right; now left|].
  destruct (str_dec (fs_safe_id i) $"..") as [|N3]; [right; right; now left|]. right. right. right.
  split; [assumption|]. split; [assumption|]. split; [assumption|]. intro Hs. destruct (fs_safe_spec i) as (_ & S & _). apply (S _ Hs).
  apply unsafe_evils. cbn. tauto.
Qed.
Lemma parse_name y : good_name y -> pp_parse y = mkPP false [y].
Proof.
  intros (N1 & N2 & N3 & N4). apply pp_parse_part. split; [|assumption]. unfold real_part. apply negb_true_iff, orb_false_iff. split; now apply str_eqb_neq.
Qed.
Lemma join_name TR y : good_name y -> pp_join (path_of TR) (pp_parse y) = path_of (TR ++ [y]).
Proof. intro Hy. rewrite parse_name by assumption. reflexivity. Qed.

Lemma long_handler (m : M unit) e w r w' : match e with OSErr ENAMETOOLONG => m | _ => raise e end w = (r, w') ->
  (e = OSErr ENAMETOOLONG /\ m w = (r, w')) \/ (r = Err e /\ w' = w).
Proof.
  intro H. assert (Q : e = OSErr ENAMETOOLONG \/ @raise unit e w = (r, w')).
  { destruct e; try (right; exact H). match goal with k : errno |- _ => destruct k end; try (right; exact H). now left. }
  destruct Q as [->|Q]; [left; now split|]. right. injection Q as <- <-. now split.
Qed.

Lemma rename_trash w P n TR i r w' : good_fs (w_fs w) -> P <> [] -> get (w_fs w) P = Some n -> not_dir n -> is_dir_at (w_fs w) TR ->
  (forall y, P <> TR ++ [y]) -> sys_rename (path_of P) (pp_join (path_of TR) (pp_parse (fs_safe_id i))) w = (r, w') ->
  (same w w' /\ exists e, r = Err e /\ (w_fault w (w_tick w) = Some e \/ e = OSErr EISDIR \/ e = OSErr EBUSY)) \/
  (r = Ok tt /\ good_name (fs_safe_id i) /\ changed (w_fs w') w w' /\ moved (w_fs w) P (TR ++ [fs_safe_id i]) (w_fs w') /\ ~ is_dir_at (w_fs w) (TR ++ [fs_safe_id i])).
Proof.
  intros G Pn Gp N Ht Ne H.
  assert (Bad : (dot_end (pp_join (path_of TR) (pp_parse (fs_safe_id i))) = true \/
      exists q xs es, walk (w_fs w) (w_cwd w) false (pp_join (path_of TR) (pp_parse (fs_safe_id i))) = Found q (Dir xs es)) \/ good_name (fs_safe_id i)).
  { assert (Td : exists q xs es, walk (w_fs w) (w_cwd w) false (path_of TR) = Found q (Dir xs es)).
    { destruct Ht as (xs & Ht). apply look_dir in Ht as (es & Ht). exists TR, xs, es. apply walk_of; [assumption|assumption|discriminate]. }
    destruct (safe_name i) as [E|[E|[E|E]]]; [| | |now right]; left; rewrite E.
    - right. replace (pp_join (path_of TR) (pp_parse [])) with (path_of TR) by (unfold pp_join, path_of; cbn; now rewrite app_nil_r). exact Td.
    - right. replace (pp_join (path_of TR) (pp_parse $".")) with (path_of TR) by (unfold pp_join, path_of; cbn; now rewrite app_nil_r). exact Td.
    - left. replace (pp_join (path_of TR) (pp_parse $"..")) with (path_of (TR ++ [$".."])) by reflexivity.
      unfold dot_end, path_of. cbn [pp_parts]. destruct (TR ++ [$".."]) eqn:El; [reflexivity|]. rewrite <- El, last_last. apply str_eqb_refl. }
  destruct Bad as [Bad|Hy].
  - left. apply (rename_onto_dir w P n) in H; assumption.
  - rewrite join_name in H by assumption. apply (rename_leaf w P n) in H; try assumption; [|apply Ne].
    destruct H as [(S & e & -> & K)|(-> & C & Mv & Nd)].
    + left. split; [assumption|]. exists e. split; [reflexivity|]. destruct K as [K|[K _]]; [now left|right; now left].
    + right. tauto.
Qed.

Lemma test_err follow p f w e w' : test (sys_stat follow p) f w = (Err e, w') -> exists k, w_fault w k = Some e.
Proof.
  unfold test. intro H. apply catch_inv in H as [(b & _ & K)|(e1 & w1 & H & K)]; [discriminate|].
  apply bind_inv in H as [(n & w2 & _ & K2)|(e' & H & K2)]; [discriminate|]. injection K2 as ->.
  apply ask_inv in H as [S [H|(e2 & E & H)]].
  - exfalso. unfold lookup in H. destruct (walk (w_fs w) (w_cwd w) follow p) as [q n|q n|k] eqn:Ew; cbn [rbind fail] in H; try discriminate.
    + injection H as ->. discriminate.
    + apply walk_fail in Ew. injection H as ->. rewrite Ew in K. discriminate.
  - injection E as ->. destruct (ignored e2); [discriminate|]. injection K as -> _. eauto.
Qed.
(** why a call may fail that was made on the way *)
Definition known_err (w : world) (e : exn) : Prop := (exists k, w_fault w k = Some e) \/ e = OSErr EISDIR \/ e = OSErr EBUSY.

Section Crumple.
Variables (K : conf) (D : place) (x : str) (TR : place).
Hypothesis Hx : good_name x.
Hypothesis Htr : c_trash K = path_of TR.
Notation P := (D ++ [x]).
Notation p := (path_of (D ++ [x])).

Definition trashed_to (fs : node) (w' : world) (r : res ppath) (fault : nat -> option exn) : Prop :=
  exists m i y, recorded K x (look fs P) = Ok (Some m) /\ m_id m = PStr i /\ good_name y /\
    r = Ok (pp_join (c_trash K) (pp_parse (fs_safe_id i))) /\
    (y = fs_safe_id i \/ y = x /\ exists t, fault t = Some (OSErr ENAMETOOLONG)) /\
    ~ is_dir_at fs (TR ++ [y]) /\ moved fs P (TR ++ [y]) (w_fs w').

Lemma dir_parent fs : good_fs fs -> is_dir_at fs TR -> is_dir_at fs (removelast TR).
Proof.
  intros G Ht. destruct TR as [|z l _] using rev_ind; [exact Ht|]. rewrite removelast_last.
  destruct Ht as (xs & Ht). apply (look_above fs l z []). congruence.
Qed.

Lemma crumple_run' w r w' n : fine D x (w_fs w) -> get (w_fs w) P = Some n -> not_dir n -> is_dir_at (w_fs w) TR -> ~ below TR P ->
  honest (w_fault w) -> crumple K p w = (r, w') ->
  (same w w' /\ exists e, r = Err e /\ (trashed_path K p w = (Err e, w') \/ known_err w e)) \/
  (changed (w_fs w') w w' /\ trashed_to (w_fs w) w' r (w_fault w)).
Proof.
  intros Fi Gp N Ht Nb Ho H. unfold crumple in H. apply bind_inv in H as [(t & w1 & H1 & H)|(e & H1 & ->)].
  2:{ left. split; [now apply quiet_trashed_path in H1|]. exists e. split; [reflexivity|now left]. }
  destruct (t_trashed_path K D x Hx (fun _ => True) (fun s => s = w_fs w) (fun s E => eq_ind_r (fine D x) Fi E) w _ _ Ho eq_refl H1) as [[_ E1] _].
  destruct (E1 t eq_refl) as (m & i & Er & _ & Ei & Et).
  apply quiet_trashed_path in H1. rename H1 into S1.
  assert (Efs : w_fs w1 = w_fs w) by apply S1. rewrite Efs in Er.
  assert (Ho1 : honest (w_fault w1)) by (destruct S1 as (_ & _ & _ & ->); assumption).
  assert (G : good_fs (w_fs w)) by apply Fi.
  (* the directory of the trashed path is there *)
  assert (Tp : exists Q, pp_parent t = path_of Q /\ is_dir_at (w_fs w1) Q).
  { rewrite Efs, Et, Htr. destruct (safe_name i) as [E|[E|[E|E]]].
    - rewrite E. exists (removelast TR). split; [|now apply dir_parent]. unfold pp_join, pp_parent, path_of. cbn [pp_abs pp_parts pp_parse]. cbn. now rewrite app_nil_r.
    - rewrite E. exists (removelast TR). split; [|now apply dir_parent]. unfold pp_join, pp_parent, path_of. cbn. now rewrite app_nil_r.
    - rewrite E. exists TR. split; [|assumption]. unfold pp_join, pp_parent, path_of. cbn. now rewrite removelast_last.
    - exists TR. split; [|assumption]. rewrite join_name by assumption. apply pp_parent_of. }
  destruct Tp as (Q & Eq & Hq). rewrite Eq in H. apply bind_inv in H as [(b & w2 & H2 & H)|(e & H2 & ->)].
  2:{ left. split; [apply (same_trans _ w1); [assumption|now apply quiet_exists in H2]|]. exists e. split; [reflexivity|]. right. left. apply test_err in H2 as (k & H2).
      exists k. now destruct S1 as (_ & _ & _ & <-). }
  destruct (t_exists_dir (fun _ => True) (fun s => s = w_fs w1) Q (fun s E => conj (eq_ind_r good_fs (eq_ind_r good_fs G Efs) E) (eq_ind_r (fun s => is_dir_at s Q) Hq E)) w1 _ _ Ho1 eq_refl H2) as [[_ E2] _].
  specialize (E2 b eq_refl). subst b. apply quiet_exists in H2. cbn [negb when] in H.
  pose proof (same_trans _ _ _ S1 H2) as S2. clear S1 H2.
  unfold bind at 1, ret at 1 in H.
  assert (Efs2 : w_fs w2 = w_fs w) by apply S2.
  assert (Ht2 : is_dir_at (w_fs w2) TR) by now rewrite Efs2.
  assert (Gp2 : get (w_fs w2) P = Some n) by now rewrite Efs2.
  assert (G2 : good_fs (w_fs w2)) by now rewrite Efs2.
  assert (Fw : w_fault w2 = w_fault w) by apply S2.
  assert (Nx : forall y, P <> TR ++ [y]) by (intros y E; apply Nb; rewrite E; apply below_app).
  assert (Done : forall v, changed (w_fs v) w2 v -> changed (w_fs v) w v).
  { intros v (C1 & C2 & C3 & C4). destruct S2 as (A1 & A2 & A3 & A4). repeat split; congruence. }
  (* the second attempt *)
  assert (Short : forall v r2 v', same w2 v -> (exists k, w_fault w k = Some (OSErr ENAMETOOLONG)) -> sys_rename p (trashed_path_short K p) v = (r2, v') ->
     (same w v' /\ exists e, r2 = Err e /\ known_err w e) \/ (r2 = Ok tt /\ changed (w_fs v') w v' /\ trashed_to (w_fs w) v' (Ok t) (w_fault w))).
  { intros v r2 v' Sv Long Hs. unfold trashed_path_short in Hs. rewrite Htr, pp_name_of, join_name in Hs by assumption.
    assert (Ev : w_fs v = w_fs w) by (destruct Sv as (-> & _); assumption).
    apply (rename_leaf v P n TR x) in Hs; try assumption; try (now rewrite Ev); [| apply P_nil | apply Nx].
    destruct Hs as [(Ss & e & -> & Kn)|(-> & C & Mv & Nd)].
    - left. split; [|exists e; split; [reflexivity|]; destruct Kn as [Kn|(Kn & _)]; [left; exists (w_tick v); destruct Sv as (_ & _ & _ & Qf); congruence|right; now left]]. apply (same_trans _ w2); [assumption|]. now apply (same_trans _ v).
    - right. split; [reflexivity|]. rewrite Ev in Mv, Nd. split.
      + apply Done. destruct C as (C1 & C2 & C3 & C4). destruct Sv as (A1 & A2 & A3 & A4). repeat split; congruence.
      + exists m, i, x. split; [assumption|]. split; [assumption|]. split; [assumption|]. split; [now rewrite Et|]. split; [now right|]. now split. }
  apply bind_inv in H as [(u & w4 & H3 & H)|(e & H3 & ->)]; apply catch_inv in H3 as [(u' & H3 & E)|(e1 & w3 & H3 & H4)];
    rewrite ?Et, ?Htr in H3; try discriminate;
    (destruct (rename_trash w2 P n TR i _ _ G2 (P_nil D x) Gp2 N Ht2 Nx H3) as [(S3 & e3 & K1 & K2)|(K1 & Hy & C & Mv & Nd)]; try discriminate).
  - injection H as <- <-. right. split; [now apply Done|]. rewrite Efs2 in Mv, Nd. exists m, i, (fs_safe_id i).
    split; [assumption|]. split; [assumption|]. split; [assumption|]. split; [now rewrite Et|]. split; [now left|]. now split.
  - injection K1 as <-. injection H as <- <-. apply long_handler in H4 as [(-> & H4)|(H4 & _)]; [|discriminate].
    assert (Lg : exists k, w_fault w k = Some (OSErr ENAMETOOLONG)) by (rewrite <- Fw; destruct K2 as [K2|[K2|K2]]; [eauto|discriminate|discriminate]).
    destruct (Short w3 (Ok u) w4 S3 Lg H4) as [(_ & e' & K1 & _)|(_ & C & Tt)]; [discriminate|]. right. now split.
  - injection K1 as <-. left. apply long_handler in H4 as [(-> & H4)|(H4 & ->)].
    + assert (Lg : exists k, w_fault w k = Some (OSErr ENAMETOOLONG)) by (rewrite <- Fw; destruct K2 as [K2|[K2|K2]]; [eauto|discriminate|discriminate]).
      destruct (Short w3 (Err e) w' S3 Lg H4) as [(Sw & e0 & Qe & Kn)|(K1 & _)]; [|discriminate]. split; [assumption|]. injection Qe as <-. exists e. split; [reflexivity|now right].
    + injection H4 as ->. split; [now apply (same_trans _ w2)|]. exists e1. split; [reflexivity|]. right. destruct K2 as [K2|K2]; [left; exists (w_tick w2); congruence|right; exact K2].
Qed.
Lemma crumple_run w r w' n : fine D x (w_fs w) -> get (w_fs w) P = Some n -> not_dir n -> is_dir_at (w_fs w) TR -> ~ below TR P ->
  honest (w_fault w) -> crumple K p w = (r, w') ->
  (same w w' /\ exists e, r = Err e) \/
  (changed (w_fs w') w w' /\ trashed_to (w_fs w) w' r (w_fault w)).
Proof.
  intros A1 A2 A3 A4 A5 A6 H. destruct (crumple_run' w r w' n A1 A2 A3 A4 A5 A6 H) as [(S & e & E & _)|Q]; [left; split; [assumption|eauto]|now right].
Qed.
End Crumple.
