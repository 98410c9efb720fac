(** * rmtree while others change the tree *)
From Coq Require Import String NArith ZArith Bool List Lia.
From Verif Require Import Model.Py Model.PurePath Model.Fs Model.PathOps Model.RmtreeRace Spec.FsSpec Spec.RmtreeRaceSpec
  Proofs.PyLemmas Proofs.FsLemmas Proofs.RunLemmas.
Import ListNotations.

(** ** A path without links leads where it says *)
Lemma walk_plain fs b : forall l cur P n, Forall good_name l ->
  (forall q r t, l = q ++ r -> r <> [] -> get fs (cur ++ q) <> Some (Link t)) ->
  walk_from fs false b cur l = Found P n -> P = cur ++ l.
Proof.
  induction l as [|c l IH]; intros cur P n N K H; rewrite walk_eq in H.
  - rewrite app_nil_r. destruct (get fs cur); [injection H as <- _; reflexivity|discriminate].
  - destruct (get fs cur) as [m|] eqn:G; [|discriminate]. destruct m as [d xs|xs es|t]; try discriminate.
    inversion N as [|? ? (N1 & N2 & N3 & N4) N5]; subst. apply str_eqb_neq in N2, N3. rewrite N2, N3 in H.
    assert (S : walk_from fs false b (cur ++ [c]) l = Found P n -> P = cur ++ c :: l).
    { intro W. rewrite (IH (cur ++ [c]) P n N5); [now rewrite <- app_assoc| |assumption].
      intros q r t -> R. rewrite <- app_assoc. apply (K (c :: q) r t); [reflexivity|assumption]. }
    destruct (entry c es) as [m|] eqn:E; [|destruct l; discriminate].
    destruct m as [d ys|ys fs'|t]; try (now apply S).
    destruct l as [|c' l]; [cbn in H; injection H as <- _; reflexivity|].
    exfalso. apply (K [c] (c' :: l) t); [reflexivity|discriminate|]. now rewrite get_snoc, G.
Qed.

Section Race.
Variable others : nat -> node -> node.
Variable fs0 : node.
Variable R : place.
Variable fault : nat -> option exn.
Hypothesis Ho : honest fault.
Hypothesis HK : keep_to R others.
Hypothesis HL : make_no_links others.
Variable dg ig : bool.

Definition fit (fs : node) : Prop := good_fs fs /\ forall q, ~ below R q -> look fs q = look fs0 q.
Definition okr (w : world) : Prop := fit (w_fs w) /\ w_fault w = fault /\ Forall fit (w_hist w).
Definition nolink (w : world) (q : place) : Prop := forall u, look (w_fs w) q <> Some (ALink u).
(** Links are not made. *)
Definition later (w w' : world) : Prop := forall q, nolink w q -> nolink w' q.
Lemma later_refl w : later w w. Proof. intros q H. exact H. Qed.
Lemma later_trans a b c : later a b -> later b c -> later a c. Proof. intros A B q H. apply B, A, H. Qed.
Definition step (w w' : world) : Prop := okr w' /\ later w w'.

Lemma step_other w : okr w -> step w (meanwhile others w).
Proof.
  intros ((G & O) & F & H). destruct (HK (w_tick w) (w_fs w) G) as [G' O'].
  split; [split; [split; [exact G'|]|split; assumption]|].
  - intros q B. cbn. rewrite O' by assumption. now apply O.
  - intros q N u L. cbn in L. apply HL in L as (u' & L); [|assumption]. exact (N u' L).
Qed.
Lemma step_same w w' : same w w' -> okr w -> step w w'.
Proof.
  intros (A & B & C & D) (O & F & H). split; [unfold okr; rewrite A, C, D; auto|]. intros q N u. rewrite A. apply N.
Qed.
Lemma step_trans a b c : step a b -> step b c -> step a c.
Proof. intros (A & B) (C & D). split; [assumption|now apply (later_trans _ b)]. Qed.
Lemma step_del w w' P : changed (del (w_fs w) P) w w' -> okr w -> below R P -> step w w'.
Proof.
  intros (A & B & C & D) ((G & O) & F & H) Z.
  assert (X : fit (del (w_fs w) P)).
  { split; [now apply good_fs_del|]. intros q N. rewrite look_del_other; [now apply O|].
    intro K. apply N. destruct Z as (r & ->), K as (s & ->). exists (r ++ s). now rewrite app_assoc. }
  split; [unfold okr; rewrite A, C, D; split; [assumption|split; [assumption|now constructor]]|].
  intros q N u L. rewrite A in L. destruct (below_dec P q) as [K|K].
  - destruct P as [|x P]; [now apply (N u)|]. rewrite look_del_below in L by (assumption || discriminate). discriminate.
  - rewrite look_del_other in L by assumption. now apply (N u).
Qed.

(** The path of a place whose directories are no links *)
Definition plain (w : world) (Q : place) : Prop := forall q r, Q = q ++ r -> r <> [] -> nolink w q.
Lemma plain_later w w' Q : later w w' -> plain w Q -> plain w' Q.
Proof. intros L H q r E N. apply L. now apply (H q r). Qed.
Lemma plain_walk w c Q P n : Forall good_name Q -> plain w Q -> walk (w_fs w) c false (path_of Q) = Found P n -> P = Q.
Proof.
  intros N H W. unfold walk, path_of in W. cbn [pp_abs pp_parts] in W. apply walk_plain in W; [exact W|exact N|].
  intros q r t E X G. apply look_link in G. now apply (H q r E X t).
Qed.
Lemma plain_down w Q x : plain w Q -> nolink w Q -> plain w (Q ++ [x]).
Proof.
  intros H N q r E X. destruct (exists_last X) as (r' & y & ->). rewrite app_assoc in E. apply app_inj_tail in E as [E _].
  destruct r' as [|z r']; [rewrite app_nil_r in E; now subst|]. apply (H q (z :: r') E). discriminate.
Qed.

Definition gone_at (w : world) (Q : place) : Prop := look (w_fs w) Q = None.

Lemma unlink_race Q w r w' : then_ others (sys_unlink (path_of Q)) w = (r, w') -> okr w -> below R Q -> Forall good_name Q -> plain w Q ->
  step w w' /\ (r = Ok tt -> gone_at w' Q).
Proof.
  unfold then_. intros H O B N Pl. pose proof (step_other w O) as S0. pose proof (plain_later _ _ _ (proj2 S0) Pl) as P0.
  unfold sys_unlink in H. apply sys_inv in H as [(e & -> & S & _)|(a & fs & -> & F & Ch)].
  - split; [|discriminate]. apply (step_trans _ _ _ S0), (step_same _ _ S), S0.
  - unfold lookup, fail in F. destruct (walk (w_fs (meanwhile others w)) _ false (path_of Q)) as [P n|d x|e] eqn:W; cbn in F; try discriminate.
    pose proof (plain_walk _ _ _ _ _ N P0 W) as ->.
    assert (F' : fs = del (w_fs (meanwhile others w)) Q) by (destruct n; try discriminate; now injection F). subst fs.
    split; [apply (step_trans _ _ _ S0), (step_del _ _ Q Ch); [apply S0|assumption]|]. intros _. unfold gone_at. destruct Ch as (-> & _).
    apply look_del_below; [|apply below_refl]. intros ->. pose proof (walk_found_get _ _ _ _ _ _ _ W) as E. cbn in E. injection E as E.
    destruct S0 as ((((_ & xs & es & G) & _) & _) & _). cbn in G. rewrite G in E. subst n. discriminate.
Qed.

Lemma rmdir_race Q w r w' : then_ others (sys_rmdir (path_of Q)) w = (r, w') -> okr w -> below R Q -> Forall good_name Q -> plain w Q ->
  step w w' /\ (r = Ok tt -> gone_at w' Q).
Proof.
  unfold then_. intros H O B N Pl. pose proof (step_other w O) as S0. pose proof (plain_later _ _ _ (proj2 S0) Pl) as P0.
  unfold sys_rmdir in H. apply sys_inv in H as [(e & -> & S & _)|(a & fs & -> & F & Ch)].
  - split; [|discriminate]. apply (step_trans _ _ _ S0), (step_same _ _ S), S0.
  - assert (NQ : Q <> []) by (intros ->; discriminate).
    assert (F1 : exists P n, walk (w_fs (meanwhile others w)) (w_cwd (meanwhile others w)) false (path_of Q) = Found P n /\ fs = del (w_fs (meanwhile others w)) P).
    { destruct (pp_parts (path_of Q)) as [|x l]; [discriminate|]. destruct (str_eqb _ _); [discriminate|]. unfold lookup, fail in F.
      destruct (walk _ _ _ _) as [P n|d y|e]; cbn in F; try discriminate. exists P, n. split; [reflexivity|].
      destruct n as [d y|y [|z es]|t]; try discriminate. destruct P; [discriminate|]. now injection F. }
    destruct F1 as (P & n & W & ->). pose proof (plain_walk _ _ _ _ _ N P0 W) as ->.
    split; [apply (step_trans _ _ _ S0), (step_del _ _ Q Ch); [apply S0|assumption]|]. intros _. unfold gone_at. destruct Ch as (-> & _).
    apply look_del_below; [assumption|apply below_refl].
Qed.

Lemma test_race f p g w r w' : then_ others (test (sys_stat f p) g) w = (r, w') -> okr w -> step w w' /\
  (r = Ok false -> forall q n, walk (w_fs w') (w_cwd w') f p = Found q n -> g n = false).
Proof.
  unfold then_. intros H O. pose proof (step_other w O) as S0. apply test_honest in H as [S T].
  - split; [apply (step_trans _ _ _ S0), (step_same _ _ S), S0|]. intros ->. destruct S as (-> & -> & _). exact T.
  - destruct S0 as ((_ & -> & _) & _). exact Ho.
Qed.

Lemma each_race {A} (f : A -> M unit) l (I : world -> Prop) : (forall a b, step a b -> I a -> I b) ->
  (forall x w r w', In x l -> okr w -> I w -> f x w = (r, w') -> step w w') ->
  forall w r w', each f l w = (r, w') -> okr w -> I w -> step w w'.
Proof.
  intro IS. induction l as [|x l IH]; intros K w r w' H O J.
  - injection H as <- <-. split; [assumption|apply later_refl].
  - cbn [each] in H. apply bind_inv in H as [(u & w1 & H1 & H)|(e & H1 & _)].
    + apply K in H1 as S1; [|now left|assumption|assumption]. apply (step_trans _ w1); [assumption|].
      apply (IH (fun y a b c Y => K y a b c (or_intror Y)) _ _ _ H); [apply S1|now apply (IS w)].
    + now apply (K x w (Err e) w' (or_introl eq_refl)).
Qed.

Lemma guard_race p w r w' : race_guard others p dg w = (r, w') -> okr w -> step w w'.
Proof.
  intros H O. assert (Z : step w w) by (split; [assumption|apply later_refl]). unfold race_guard in H.
  destruct (negb _); [injection H as <- <-; exact Z|]. destruct dg; [injection H as <- <-; exact Z|].
  destruct (Nat.leb _ _); [injection H as <- <-; exact Z|]. destruct (_ && _)%bool; [injection H as <- <-; exact Z|].
  pose proof (step_other w O) as S0. apply bind_inv in H as [(c & w1 & H & K)|(e & H & _)]; unfold then_ in H; apply ask_inv in H as [S _].
  - assert (w' = w1) as -> by (destruct (pp_eqb p c); now injection K). apply (step_trans _ _ _ S0), (step_same _ _ S), S0.
  - apply (step_trans _ _ _ S0), (step_same _ _ S), S0.
Qed.

Definition rc_rec (fuel : nat) (q : ppath) : M unit :=
  match fuel with O => raise OutOfFuel | S f => rmtree_race others f ig dg q end.
Definition rc_body (fuel : nat) (p : ppath) : M unit :=
  let! d <- then_ others (p_is_dir p) ;
  if d then
    let! l <- then_ others (p_is_symlink p) ;
    if l then raise (OSErr EPERM)
    else
      let! names <- then_ others (sys_listdir p) ;
      let! _ <- each (fun x => let q := child p x in let! l <- then_ others (p_is_symlink q) ;
                               if l then then_ others (sys_unlink q) else rc_rec fuel q) names ;
      then_ others (sys_rmdir p)
  else then_ others (sys_unlink p).
Definition rc_handler (e : exn) : M unit :=
  match e with
  | WillNotRemovePathError => raise e
  | OutOfFuel => raise e
  | _ => if ig then ret tt else raise e
  end.
Lemma race_eq fuel p w : rmtree_race others fuel ig dg p w =
  bind (race_guard others p dg) (fun _ => catch (rc_body fuel p) rc_handler) w.
Proof. destruct fuel; reflexivity. Qed.
Lemma handler_race e w r w' : rc_handler e w = (r, w') -> w' = w /\ (r = Ok tt -> ig = true).
Proof. unfold rc_handler. destruct e; intro H; try (injection H as <- <-; split; [reflexivity|discriminate]);
  destruct ig; injection H as <- <-; split; (reflexivity || discriminate). Qed.

Lemma body_race fuel Q w r w' : rc_body fuel (path_of Q) w = (r, w') -> okr w -> below R Q -> Forall good_name Q -> plain w Q ->
  (forall x v s v', good_name x -> rc_rec fuel (path_of (Q ++ [x])) v = (s, v') -> okr v -> plain v (Q ++ [x]) -> step v v') ->
  step w w' /\ (r = Ok tt -> gone_at w' Q).
Proof.
  intros H O B N Pl K. unfold rc_body in H. apply bind_inv in H as [(d & w1 & Hd & H)|(e & Hd & ->)].
  2:{ apply test_race in Hd as [S _]; [|assumption]. split; [assumption|discriminate]. }
  apply test_race in Hd as [S1 _]; [|assumption]. pose proof (plain_later _ _ _ (proj2 S1) Pl) as P1. destruct d.
  2:{ destruct (unlink_race _ _ _ _ H (proj1 S1) B N P1) as [S G]. split; [now apply (step_trans _ w1)|assumption]. }
  apply bind_inv in H as [(l & w2 & Hl & H)|(e & Hl & ->)].
  2:{ apply test_race in Hl as [S _]; [|apply S1]. split; [now apply (step_trans _ w1)|discriminate]. }
  apply test_race in Hl as [S2' T2]; [|apply S1]. pose proof (step_trans _ _ _ S1 S2') as S2. pose proof (plain_later _ _ _ (proj2 S2) Pl) as P2.
  destruct l; [injection H as <- <-; split; [assumption|discriminate]|].
  assert (NL : nolink w2 Q).
  { intros u L. apply look_link in L. assert (W : walk (w_fs w2) (w_cwd w2) false (path_of Q) = Found Q (Link u)).
    { unfold walk, path_of. cbn [pp_abs pp_parts]. apply (walk_place (w_fs w2) false max_links Q []); [assumption|assumption|discriminate]. }
    specialize (T2 eq_refl _ _ W). discriminate. }
  apply bind_inv in H as [(names & w3 & Hn & H)|(e & Hn & ->)]; unfold then_ at 1 in Hn; apply listdir_inv in Hn as [S3' L3];
    pose proof (step_other w2 (proj1 S2)) as Sm; pose proof (step_trans _ _ _ Sm (step_same _ _ S3' (proj1 Sm))) as S3;
    pose proof (step_trans _ _ _ S2 S3) as S03.
  2:{ split; [assumption|discriminate]. }
  assert (GN : forall x, In x names -> good_name x).
  { destruct L3 as (P & xs & es & W & ->). intros x Hx. destruct Sm as ((((G & _) & _) & _) & _).
    apply walk_found_get in W. assert (E : entry x es <> None) by (rewrite entry_none; tauto).
    destruct (entry x es) as [n|] eqn:En; [|congruence].
    assert (Gx : get (w_fs (meanwhile others w2)) (P ++ [x]) = Some n) by now rewrite get_snoc, W.
    pose proof (good_names _ _ _ G Gx) as FF. apply Forall_app in FF as [_ FF]. now inversion FF. }
  assert (I3 : plain w3 Q /\ nolink w3 Q) by (split; [now apply (plain_later w2); [apply S3|]|now apply S3]).
  assert (E : forall v s v', each (fun x => let q := child (path_of Q) x in let! l <- then_ others (p_is_symlink q) ;
                if l then then_ others (sys_unlink q) else rc_rec fuel q) names v = (s, v') -> okr v -> plain v Q /\ nolink v Q -> step v v').
  { apply (each_race _ names (fun v => plain v Q /\ nolink v Q)).
    - intros a b [_ L] [A1 A2]. split; [now apply (plain_later a)|now apply L].
    - intros x v s v' Hx Ov [Pv Nv] Hv. cbn zeta in Hv. change (child (path_of Q) x) with (path_of (Q ++ [x])) in Hv.
      pose proof (plain_down _ _ x Pv Nv) as Px. pose proof (GN x Hx) as Gx.
      apply bind_inv in Hv as [(l & v1 & Hl & Hv)|(e & Hl & _)]; apply test_race in Hl as [Sv _]; try assumption.
      pose proof (plain_later _ _ _ (proj2 Sv) Px) as Px1. apply (step_trans _ v1); [assumption|]. destruct l.
      + refine (proj1 (unlink_race _ _ _ _ Hv (proj1 Sv) _ _ Px1)).
        * destruct B as (z & ->). exists (z ++ [x]). now rewrite app_assoc.
        * apply Forall_app. split; [assumption|now constructor].
      + now apply (K x v1 s v' Gx Hv (proj1 Sv)). }
  apply bind_inv in H as [(u & w4 & He & H)|(e & He & ->)]; apply E in He as S4; try apply S3; try assumption.
  - pose proof (step_trans _ _ _ S03 S4) as S04. destruct (rmdir_race _ _ _ _ H (proj1 S04) B N (plain_later _ _ _ (proj2 S04) Pl)) as [S5 G].
    split; [now apply (step_trans _ w4)|assumption].
  - split; [now apply (step_trans _ w3)|discriminate].
Qed.

Lemma race_run : forall fuel Q w r w', rmtree_race others fuel ig dg (path_of Q) w = (r, w') -> okr w -> below R Q -> Forall good_name Q -> plain w Q ->
  step w w' /\ (r = Ok tt -> ig = false -> gone_at w' Q).
Proof.
  induction fuel as [fuel IH] using (well_founded_induction Wf_nat.lt_wf). intros Q w r w' H O B N Pl. rewrite race_eq in H.
  apply bind_inv in H as [(u & w1 & Hg & H)|(e & Hg & ->)]; apply guard_race in Hg as S1; try assumption; [|split; [assumption|discriminate]].
  assert (BD : forall r w', rc_body fuel (path_of Q) w1 = (r, w') -> step w1 w' /\ (r = Ok tt -> gone_at w' Q)).
  { intros r1 w2 H1. apply (body_race _ _ _ _ _ H1); [apply S1|assumption|assumption|now apply (plain_later w); [apply S1|]|].
    intros x v s v' Gx Hv Ov Px. unfold rc_rec in Hv. destruct fuel as [|f]; [injection Hv as <- <-; split; [assumption|apply later_refl]|].
    refine (proj1 (IH f (Nat.lt_succ_diag_r f) _ _ _ _ Hv Ov _ _ Px)).
    - destruct B as (z & ->). exists (z ++ [x]). now rewrite app_assoc.
    - apply Forall_app. split; [assumption|now constructor]. }
  apply catch_inv in H as [(a & H & ->)|(e & w2 & H & K)]; apply BD in H as [S2 G].
  - split; [now apply (step_trans _ w1)|]. intros E _. now apply G.
  - apply handler_race in K as [-> K]. split; [now apply (step_trans _ w1)|]. intros E1 E2. specialize (K E1). congruence.
Qed.
End Race.

Section Top.
Variables (others : nat -> node -> node) (fuel : nat) (fs : node) (cwd : place) (fault : nat -> option exn) (dg : bool) (R : place).
Hypothesis G : good_fs fs.
Hypothesis Ho : honest fault.
Hypothesis N : Forall good_name R.
Hypothesis A : plain_above fs R.
Hypothesis HK : keep_to R others.
Hypothesis HL : make_no_links others.
Lemma race_start : okr fs R fault (start fs cwd fault).
Proof. assert (F : fit fs R fs) by (split; [assumption|reflexivity]). split; [exact F|]. split; [reflexivity|now constructor]. Qed.
Lemma race_confined ig r w' : rmtree_race others fuel ig dg (path_of R) (start fs cwd fault) = (r, w') ->
  forall s q, In s (states w') -> ~ below R q -> look s q = look fs q.
Proof.
  intros H s q Hs B. destruct (race_run others fs R fault Ho HK HL dg ig _ _ _ _ _ H race_start (below_refl R) N) as [((O & _ & Hh) & _) _].
  - intros p r0 E X u. exact (A p r0 u E X).
  - rewrite Forall_forall in Hh. destruct Hs as [<-|Hs]; [now apply O|now apply Hh].
Qed.
Lemma race_gone w' : rmtree_race others fuel false dg (path_of R) (start fs cwd fault) = (Ok tt, w') ->
  forall q, below R q -> look (w_fs w') q = None.
Proof.
  intros H q B. destruct (race_run others fs R fault Ho HK HL dg false _ _ _ _ _ H race_start (below_refl R) N) as [_ K].
  - intros p r0 E X u. exact (A p r0 u E X).
  - specialize (K eq_refl eq_refl). now apply (look_below_none _ R).
Qed.
End Top.

(** ** Alone it is the other model *)
Lemma meanwhile_id w : meanwhile (fun _ fs => fs) w = w. Proof. now destruct w. Qed.
Lemma bind_ext {X Y} (m m' : M X) (f f' : X -> M Y) : (forall w, m w = m' w) -> (forall x w, f x w = f' x w) -> forall w, bind m f w = bind m' f' w.
Proof. intros E F w. unfold bind. rewrite E. destruct (m' w) as [[a|e] v]; [apply F|reflexivity]. Qed.
Lemma each_ext {X} (f f' : X -> M unit) l : (forall x w, f x w = f' x w) -> forall w, each f l w = each f' l w.
Proof. intro E. induction l as [|x l IH]; [reflexivity|]. cbn [each]. apply bind_ext; [apply E|intros _; exact IH]. Qed.
Lemma then_id {X} (m : M X) w : then_ (fun _ fs => fs) m w = m w. Proof. unfold then_. now rewrite meanwhile_id. Qed.
Lemma race_alone ig dg : forall fuel p w, rmtree_race (fun _ fs => fs) fuel ig dg p w = rmtree fuel ig dg p w.
Proof.
  assert (Gd : forall p w, race_guard (fun _ fs => fs) p dg w = rmtree_guard p dg w).
  { intros p w. unfold race_guard, rmtree_guard. destruct (negb _); [reflexivity|]. destruct dg; [reflexivity|].
    destruct (Nat.leb _ 2); [reflexivity|]. destruct (_ && _)%bool; [reflexivity|]. apply bind_ext; [apply then_id|reflexivity]. }
  induction fuel as [|f IH]; intros p w; cbn [rmtree_race rmtree]; (apply bind_ext; [apply Gd|]); intros _ v; unfold catch;
  match goal with |- match ?a v with _ => _ end = match ?b v with _ => _ end => assert (E : a v = b v); [|now rewrite E] end;
  (apply bind_ext; [apply then_id|]); intros d v1; (destruct d; [|apply then_id]); (apply bind_ext; [apply then_id|]); intros l v2;
  (destruct l; [reflexivity|]); (apply bind_ext; [apply then_id|]); intros names v3; (apply bind_ext; [|intros _; apply then_id]); intro v4;
  apply each_ext; intros x v5; cbn zeta; (apply bind_ext; [apply then_id|]); intros l v6; (destruct l; [apply then_id|]); (reflexivity || apply IH).
Qed.

(** ** A directory that becomes a link *)
Definition r_fs (inner : node) : node :=
  Dir [] [($"srv", Dir [] [($"keep", File [] [])]); ($"tmp", Dir [] [($"t", Dir [] [($"d", inner)])])].
Definition r_tree : place := [$"tmp"; $"t"].
(** Before the call with number [n] the directory [/tmp/t/d] is replaced by a link to [/srv]. *)
Definition r_swap (n : nat) : nat -> node -> node :=
  fun t s => if Nat.eqb t n then match get s (r_tree ++ [$"d"]) with
                                 | Some (Dir _ _) => put s (r_tree ++ [$"d"]) (Link $"/srv")
                                 | _ => s
                                 end else s.
Definition r_start : node := r_fs (Dir [] [($"f", File [] [])]).
Lemma swap_keeps n : keep_to r_tree (r_swap n).
Proof.
  intros t s G. unfold r_swap. destruct (Nat.eqb t n); [|now split].
  destruct (get s (r_tree ++ [$"d"])) as [[d x|xs es|u]|] eqn:E; try (now split). split.
  - apply good_fs_put; [assumption|discriminate|exact (good_names _ _ _ (proj1 G) E)|constructor].
  - intros q B. apply look_put_other. intros (r & ->). apply B. exists ([$"d"] ++ r). now rewrite app_assoc.
Qed.
Lemma now_in w : In (w_fs w) (states w). Proof. now left. Qed.
Definition r_run : res unit * world := rmtree_race (r_swap 8) 5 false false (path_of r_tree) (start r_start [] (fun _ => None)).
Lemma r_lost : look (w_fs (snd r_run)) [$"srv"; $"keep"] = None. Proof. vm_compute. reflexivity. Qed.
Lemma r_pair : rmtree_race (r_swap 8) 5 false false (path_of r_tree) (start r_start [] (fun _ => None)) = (fst r_run, snd r_run).
Proof. unfold r_run. now destruct (rmtree_race _ _ _ _ _ _). Qed.
Lemma none_fails : honest (fun _ => None). Proof. intros t e K. discriminate. Qed.
Lemma race_outside : good_fs r_start -> ~ (forall others fuel fs cwd fault ig dg R r w', good_fs fs -> honest fault -> Forall good_name R -> plain_above fs R ->
  keep_to R others -> rmtree_race others fuel ig dg (path_of R) (start fs cwd fault) = (r, w') ->
  forall s q, In s (states w') -> ~ below R q -> look s q = look fs q).
Proof.
  intros G H.
  assert (N : Forall good_name r_tree).
  { apply (good_names _ r_start (Dir [] [($"d", Dir [] [($"f", File [] [])])])); [apply G|reflexivity]. }
  assert (A : plain_above r_start r_tree).
  { intros q r u E X. destruct q as [|a [|b q]]; [discriminate|injection E as <- _; discriminate|].
    destruct q; [destruct r; [congruence|discriminate]|discriminate]. }
  assert (B : ~ below r_tree [$"srv"; $"keep"]) by (intros (r & E); discriminate).
  pose proof (H (r_swap 8) 5%nat r_start [] (fun _ => None) false false r_tree (fst r_run) (snd r_run) G none_fails N A (swap_keeps 8) r_pair
    (w_fs (snd r_run)) [$"srv"; $"keep"] (now_in (snd r_run)) B) as K.
  rewrite r_lost in K. discriminate.
Qed.

(** Others who remove *)
Definition r_drop (n : nat) (Q : place) : nat -> node -> node := fun t s => if Nat.eqb t n then del s Q else s.
Lemma drop_keeps n R Q : below R Q -> keep_to R (r_drop n Q).
Proof.
  intros (z & ->) t s G. unfold r_drop. destruct (Nat.eqb t n); [|now split]. split; [now apply good_fs_del|].
  intros q B. apply look_del_other. intros (r & ->). apply B. exists (z ++ r). now rewrite app_assoc.
Qed.
Lemma drop_links n Q : make_no_links (r_drop n Q).
Proof.
  intros t s q u _ L. unfold r_drop in L. destruct (Nat.eqb t n); [|now exists u]. destruct (below_dec Q q) as [B|B].
  - destruct Q as [|x Q]; [now exists u|]. rewrite look_del_below in L by (assumption || discriminate). discriminate.
  - rewrite look_del_other in L by assumption. now exists u.
Qed.
