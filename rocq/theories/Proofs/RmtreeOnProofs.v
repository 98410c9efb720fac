(** * Lemmas on rmtree with [onerror] *)
From Coq Require Import String NArith ZArith Arith Bool List Lia.
From Verif Require Import Model.Py Model.PurePath Model.Fs Model.PathOps Model.RmtreeOn Spec.FsSpec Spec.LoopSpec Spec.RmtreeOnSpec
  Proofs.PyLemmas Proofs.FsLemmas Proofs.RunLemmas Proofs.RmtreeProofs.
Import ListNotations.

Section On.
Variable onerror : func -> ppath -> exn -> M unit.
Notation on := (rmtree_on onerror).
Notation rec_t := (ppath -> world -> res unit * list report * world).

(** The same without reports; what is not an error of rmtree becomes EIO. *)
Definition plain_err (e : exn) : exn :=
  match e with WillNotRemovePathError | KeyboardInterrupt | OSErr _ | OutOfFuel => e | _ => OSErr EIO end.
Definition plain (r : res unit) : res unit := match r with Ok a => Ok a | Err e => Err (plain_err e) end.
Definition drop (s : res unit * list report * world) : res unit * world := let '(r, _, w) := s in (plain r, w).

Lemma plain_tame e : tame e -> plain_err e = e.
Proof. intros [->|(n & ->)]; reflexivity. Qed.
Lemma plain_fine e : e <> OutOfFuel -> fine (plain_err e).
Proof. intro N. destruct e; try contradiction; cbn; try (right; right; now eexists); try now left. right. now left. Qed.
Lemma plain_idem e : plain_err (plain_err e) = plain_err e.
Proof. now destruct e. Qed.

(** ** The same as without [onerror] when nothing fails *)
Lemma loop_more (rec : rec_t) p : forall names v l w r v' l' w', loop_on rec p names v l w = (r, v', l', w') -> exists l2, l' = l ++ l2.
Proof.
  induction names as [|x names IH]; intros v l w r v' l' w' H; cbn [loop_on] in H.
  - injection H as <- <- <- <-. exists []. now rewrite app_nil_r.
  - destruct (p_is_symlink (child p x) w) as [[[]|e] w1].
    + destruct (sys_unlink (child p x) w1) as [[u|e] w2]; [now apply IH in H|]. injection H as <- <- <- <-. exists []. now rewrite app_nil_r.
    + destruct (rec (child p x) w1) as [[[u|e] l2] w2].
      * apply IH in H as (l3 & ->). exists (l2 ++ l3). now rewrite app_assoc.
      * injection H as <- <- <- <-. now exists l2.
    + injection H as <- <- <- <-. exists []. now rewrite app_nil_r.
Qed.

Section Same.
Variable recA : ppath -> M unit.
Variable recB : rec_t.
Hypothesis AB : forall q w w', recA q w = (Ok tt, w') <-> recB q w = (Ok tt, [], w').
Notation act p := (fun x => let q := child p x in let! l <- p_is_symlink q ; if l then sys_unlink q else recA q).

Lemma loop_same p : forall names v l w w', each (act p) names w = (Ok tt, w') <-> exists v', loop_on recB p names v l w = (Ok tt, v', l, w').
Proof.
  induction names as [|x names IH]; intros v l w w'.
  - cbn. unfold ret. split; [intro H; injection H as ->; now exists v|intros (v' & H); injection H as _ ->; reflexivity].
  - cbn [each loop_on]. unfold bind at 1 2. cbv zeta. unfold bind. destruct (p_is_symlink (child p x) w) as [[[]|e] w1].
    + destruct (sys_unlink (child p x) w1) as [[u|e] w2]; [apply IH|]. split; [discriminate|intros (v' & H); discriminate].
    + destruct (recA (child p x) w1) as [[[]|e] w2] eqn:Ea.
      * apply AB in Ea. rewrite Ea, app_nil_r. apply IH.
      * split; [discriminate|]. intros (v' & H). destruct (recB (child p x) w1) as [[[[]|e'] l2] w3] eqn:Eb; [|discriminate].
        destruct (loop_more _ _ _ _ _ _ _ _ _ _ H) as (l3 & E). rewrite <- app_assoc in E.
        assert (Z : l2 ++ l3 = []) by (apply (app_inv_head l); now rewrite app_nil_r). apply app_eq_nil in Z as [-> _].
        apply AB in Eb. congruence.
    + split; [discriminate|intros (v' & H); discriminate].
Qed.

Lemma body_same p w w' : rm_body recA p w = (Ok tt, w') <-> exists v, body_on recB p w = (Ok tt, v, [], w').
Proof.
  unfold rm_body, body_on, bind at 1. destruct (p_is_dir p w) as [[[]|e] w1]; [| |split; [discriminate|intros (v & H); discriminate]].
  - unfold bind at 1. destruct (p_is_symlink p w1) as [[[]|e] w2]; [split; [discriminate|intros (v & H); discriminate]| |split; [discriminate|intros (v & H); discriminate]].
    unfold bind at 1. destruct (sys_listdir p w2) as [[names|e] w3]; [|split; [discriminate|intros (v & H); discriminate]].
    unfold bind at 1. destruct (each (act p) names w3) as [[[]|e] w4] eqn:Ee.
    + apply (loop_same p names None []) in Ee as (v & Ee). rewrite Ee. destruct (sys_rmdir p w4) as [[[]|e] w5]; (split; [intro H; try discriminate; injection H as ->; now eexists|intros (v' & H); try discriminate; now injection H as _ ->]).
    + split; [discriminate|]. intros (v & H). destruct (loop_on recB p names None [] w3) as [[[[u|e'] v2] l] w5] eqn:El; [|discriminate].
      destruct (sys_rmdir p w5) as [r w6]. injection H as -> _ -> _. destruct u. assert (X : each (act p) names w3 = (Ok tt, w5)) by (apply (loop_same p names None []); now exists v2). congruence.
  - destruct (sys_unlink p w1) as [[[]|e] w2]; (split; [intro H; try discriminate; injection H as ->; now eexists|intros (v' & H); try discriminate; now injection H as _ ->]).
Qed.
End Same.

Lemma handle_quiet r v l w w' : handle_on onerror (r, v, l, w) = (Ok tt, [], w') <-> r = Ok tt /\ l = [] /\ w = w'.
Proof.
  unfold handle_on. split.
  - intro H. destruct r as [[]|e]; [injection H as -> ->; auto|]. exfalso.
    assert (X : forall e, match v with None => (Err UnboundLocalError, l, w) | Some path => match p_is_dir path w with
        | (Err e', w1) => (Err e', l, w1) | (Ok d, w1) => let f := if d then Rmdir else Unlink in let (r, w2) := onerror f path e w1 in (r, l ++ [(f, path, e)], w2) end end <> (Ok tt, [], w')).
    { clear H. intros e0 H. destruct v as [path|]; [|discriminate]. destruct (p_is_dir path w) as [[d|e'] w1]; [|discriminate].
      cbv zeta in H. destruct (onerror _ path e0 w1) as [r w2]. injection H as _ H _. now destruct l. }
    destruct e; try discriminate H; exact (X _ H).
  - intros (-> & -> & ->). reflexivity.
Qed.

Lemma on_eq fuel dg p w : on fuel dg p w = match rmtree_guard p dg w with
  | (Err e, w1) => (Err e, [], w1)
  | (Ok _, w1) => handle_on onerror (body_on (fun q w => match fuel with O => (Err OutOfFuel, [], w) | S f => on f dg q w end) p w1) end.
Proof. destruct fuel; reflexivity. Qed.

Lemma on_same dg : forall fuel p w w', rmtree fuel false dg p w = (Ok tt, w') <-> on fuel dg p w = (Ok tt, [], w').
Proof.
  induction fuel as [fuel IH] using (well_founded_induction Wf_nat.lt_wf). intros p w w'. rewrite rmtree_eq, on_eq. unfold bind.
  destruct (rmtree_guard p dg w) as [[u|e] w1]; [|split; discriminate].
  set (recB := fun q w => match fuel with O => (Err OutOfFuel, [], w) | S f => on f dg q w end).
  assert (AB : forall q w w', rm_rec fuel false dg q w = (Ok tt, w') <-> recB q w = (Ok tt, [], w')).
  { intros q v v'. subst recB. cbn beta. destruct fuel as [|f]; [split; discriminate|]. apply IH. lia. }
  assert (C : catch (rm_body (rm_rec fuel false dg) p) (rm_handler false) w1 = (Ok tt, w') <-> rm_body (rm_rec fuel false dg) p w1 = (Ok tt, w')).
  { unfold catch. destruct (rm_body _ p w1) as [[a|e] w2]; [reflexivity|]. split; [|discriminate]. intro H. exfalso. destruct e; discriminate H. }
  rewrite C, (body_same _ recB AB). destruct (body_on recB p w1) as [[[r v] l] w2]. rewrite handle_quiet. split.
  - intros (v' & H). injection H as -> _ -> ->. auto.
  - intros (-> & -> & ->). now exists v.
Qed.

(** ** Where it is, whatever fails *)
Lemma loop_drop (rec : rec_t) p : forall names v l w r v' l' w', loop_on rec p names v l w = (r, v', l', w') ->
  exists r0, each (fun x => let q := child p x in let! l <- p_is_symlink q ; if l then sys_unlink q else fun w => drop (rec q w)) names w = (r0, w') /\ plain r0 = plain r.
Proof.
  induction names as [|x names IH]; intros v l w r v' l' w' H; cbn [loop_on] in H.
  - injection H as <- <- <- <-. exists (Ok tt). now split.
  - cbn [each]. unfold bind at 1. cbv zeta. unfold bind. destruct (p_is_symlink (child p x) w) as [[[]|e] w1].
    + destruct (sys_unlink (child p x) w1) as [[u|e] w2]; [exact (IH _ _ _ _ _ _ _ H)|]. injection H as <- <- <- <-. now eexists.
    + unfold drop. destruct (rec (child p x) w1) as [[[u|e] l2] w2]; [exact (IH _ _ _ _ _ _ _ H)|]. injection H as <- <- <- <-. cbn [plain].
      eexists. split; [reflexivity|]. cbn [plain]. now rewrite plain_idem.
    + injection H as <- <- <- <-. now eexists.
Qed.
Lemma body_drop (rec : rec_t) p w r v l w' : body_on rec p w = (r, v, l, w') ->
  exists r0, rm_body (fun q w => drop (rec q w)) p w = (r0, w') /\ plain r0 = plain r.
Proof.
  unfold rm_body, body_on, bind at 1. destruct (p_is_dir p w) as [[[]|e] w1].
  - unfold bind at 1. destruct (p_is_symlink p w1) as [[[]|e] w2]; [intro H; injection H as <- <- <- <-; now eexists| |intro H; injection H as <- <- <- <-; now eexists].
    unfold bind at 1. destruct (sys_listdir p w2) as [[names|e] w3]; [|intro H; injection H as <- <- <- <-; now eexists].
    intro H. destruct (loop_on rec p names None [] w3) as [[[r1 v1] l1] w4] eqn:El.
    destruct (loop_drop _ _ _ _ _ _ _ _ _ _ El) as (r2 & Er & Ep). cbv zeta in Er. unfold bind at 1. cbv zeta. rewrite Er. destruct r1 as [[]|e].
    + destruct r2 as [u|]; [|discriminate Ep]. destruct (sys_rmdir p w4) as [r3 w5]. injection H as <- <- <- <-. now eexists.
    + injection H as <- <- <- <-. destruct r2; [discriminate Ep|]. now eexists.
  - destruct (sys_unlink p w1) as [r2 w2]. intro H. injection H as <- <- <- <-. now eexists.
  - intro H. injection H as <- <- <- <-. now eexists.
Qed.

(** ** What is reported *)
Lemma at_it p : at_or_in p p.
Proof. split; [reflexivity|]. exists []. split; [cbn; lia|now rewrite app_nil_r]. Qed.
Lemma in_it p x : at_or_in p (child p x).
Proof. split; [reflexivity|]. exists [x]. now split. Qed.
Lemma loop_var (rec : rec_t) p : forall names v l w r v' l' w', loop_on rec p names v l w = (r, v', l', w') ->
  (forall q, v = Some q -> at_or_in p q) -> forall q, v' = Some q -> at_or_in p q.
Proof.
  induction names as [|x names IH]; intros v l w r v' l' w' H V; cbn [loop_on] in H.
  - injection H as <- <- <- <-. exact V.
  - assert (X : forall q, Some (child p x) = Some q -> at_or_in p q) by (intros q E; injection E as <-; apply in_it).
    destruct (p_is_symlink (child p x) w) as [[[]|e] w1].
    + destruct (sys_unlink (child p x) w1) as [[u|e] w2]; [exact (IH _ _ _ _ _ _ _ H X)|]. injection H as <- <- <- <-. exact X.
    + destruct (rec (child p x) w1) as [[[u|e] l2] w2]; [exact (IH _ _ _ _ _ _ _ H X)|]. injection H as <- <- <- <-. exact X.
    + injection H as <- <- <- <-. exact X.
Qed.
Lemma body_var (rec : rec_t) p w r v l w' : body_on rec p w = (r, v, l, w') -> forall q, v = Some q -> at_or_in p q.
Proof.
  unfold body_on. destruct (p_is_dir p w) as [[[]|e] w1].
  - destruct (p_is_symlink p w1) as [[[]|e] w2]; [intro H; injection H as <- <- <- <-; discriminate| |intro H; injection H as <- <- <- <-; discriminate].
    destruct (sys_listdir p w2) as [[names|e] w3]; [|intro H; injection H as <- <- <- <-; discriminate].
    intro H. destruct (loop_on rec p names None [] w3) as [[[r1 v1] l1] w4] eqn:El. destruct r1 as [[]|e].
    + destruct (sys_rmdir p w4) as [r3 w5]. injection H as <- <- <- <-. intros q E. injection E as <-. apply at_it.
    + injection H as <- <- <- <-. apply (loop_var _ _ _ _ _ _ _ _ _ _ El). discriminate.
  - destruct (sys_unlink p w1) as [r2 w2]. intro H. injection H as <- <- <- <-. intros q E. injection E as <-. apply at_it.
  - intro H. injection H as <- <- <- <-. discriminate.
Qed.

Definition in_tree (p : ppath) (t : report) : Prop := within p (snd (fst t)).
Lemma in_tree_child p x t : in_tree (child p x) t -> in_tree p t.
Proof. intros (A & s & E). split; [exact A|]. exists (x :: s). rewrite E. cbn. now rewrite <- app_assoc. Qed.
Lemma loop_reports (rec : rec_t) p : (forall q w r l w', rec q w = (r, l, w') -> Forall (in_tree q) l) ->
  forall names v l w r v' l' w', loop_on rec p names v l w = (r, v', l', w') -> Forall (in_tree p) l -> Forall (in_tree p) l'.
Proof.
  intro Rc. induction names as [|x names IH]; intros v l w r v' l' w' H F; cbn [loop_on] in H.
  - now injection H as <- <- <- <-.
  - destruct (p_is_symlink (child p x) w) as [[[]|e] w1].
    + destruct (sys_unlink (child p x) w1) as [[u|e] w2]; [exact (IH _ _ _ _ _ _ _ H F)|]. now injection H as <- <- <- <-.
    + destruct (rec (child p x) w1) as [[r2 l2] w2] eqn:Er.
      assert (F2 : Forall (in_tree p) (l ++ l2)) by (apply Forall_app; split; [exact F|]; apply Rc in Er; revert Er; apply Forall_impl; intro; apply in_tree_child).
      destruct r2 as [u|e]; [exact (IH _ _ _ _ _ _ _ H F2)|]. now injection H as <- <- <- <-.
    + now injection H as <- <- <- <-.
Qed.
Lemma on_reports dg : forall fuel p w r l w', on fuel dg p w = (r, l, w') -> Forall (in_tree p) l.
Proof.
  induction fuel as [fuel IH] using (well_founded_induction Wf_nat.lt_wf). intros p w r l w' H. rewrite on_eq in H.
  destruct (rmtree_guard p dg w) as [[u|e] w1]; [|injection H as <- <- <-; constructor].
  set (rec := fun q w => match fuel with O => (Err OutOfFuel, [], w) | S f => on f dg q w end) in H.
  assert (Rc : forall q w r l w', rec q w = (r, l, w') -> Forall (in_tree q) l).
  { intros q v r0 l0 v' E. subst rec. cbn beta in E. destruct fuel as [|f]; [injection E as <- <- <-; constructor|]. apply (IH f (Nat.lt_succ_diag_r f) _ _ _ _ _ E). }
  destruct (body_on rec p w1) as [[[r1 v] l1] w2] eqn:Eb.
  assert (F1 : Forall (in_tree p) l1).
  { unfold body_on in Eb. destruct (p_is_dir p w1) as [[[]|e] w3].
    - destruct (p_is_symlink p w3) as [[[]|e] w4]; [injection Eb as <- <- <- <-; constructor| |injection Eb as <- <- <- <-; constructor].
      destruct (sys_listdir p w4) as [[names|e] w5]; [|injection Eb as <- <- <- <-; constructor].
      destruct (loop_on rec p names None [] w5) as [[[r4 v4] l4] w6] eqn:El. pose proof (loop_reports rec p Rc _ _ _ _ _ _ _ _ El (Forall_nil _)) as F4.
      destruct r4 as [[]|e]; [destruct (sys_rmdir p w6)|]; injection Eb as <- <- <- <-; exact F4.
    - destruct (sys_unlink p w3). injection Eb as <- <- <- <-. constructor.
    - injection Eb as <- <- <- <-. constructor. }
  pose proof (body_var _ _ _ _ _ _ _ Eb) as V. unfold handle_on in H.
  assert (X : forall e, match v with None => (Err UnboundLocalError, l1, w2) | Some path => match p_is_dir path w2 with
        | (Err e', w1) => (Err e', l1, w1) | (Ok d, w1) => let f := if d then Rmdir else Unlink in let (r, w2) := onerror f path e w1 in (r, l1 ++ [(f, path, e)], w2) end end = (r, l, w') -> Forall (in_tree p) l).
  { intros e E. destruct v as [q|]; [|now injection E as <- <- <-]. destruct (p_is_dir q w2) as [[d|e'] w3]; [|now injection E as <- <- <-].
    cbv zeta in E. destruct (onerror _ q e w3) as [r5 w5]. injection E as <- <- <-. apply Forall_app. split; [exact F1|]. constructor; [|constructor].
    destruct (V q eq_refl) as (A & t & _ & E1). split; [exact A|]. now exists t. }
  destruct r1 as [[]|e]; [now injection H as <- <- <-|]. destruct e; try exact (X _ H); now injection H as <- <- <-.
Qed.
End On.

(** ** With one that changes nothing *)
Section Zone.
Variable onerror : func -> ppath -> exn -> M unit.
Hypothesis Quiet : forall f q e w r w', onerror f q e w = (r, w') -> same w w' /\ r = Ok tt.
Variable fs0 : node.
Variable cwd : place.
Variable fault : nat -> option exn.
Variable Z : place -> Prop.
Hypothesis Z_below : forall q q', Z q -> below q q' -> Z q'.
Hypothesis Z_dec : forall q, {Z q} + {~ Z q}.
Hypothesis G0 : good_fs fs0.
Hypothesis Ho : honest fault.
Notation okw := (ok fs0 cwd fault Z).
Definition ends (p : ppath) (l : list report) (w : world) (r : res unit) : Prop :=
  match r with
  | Ok _ => gone fs0 cwd p w \/ exists l0 f q e, l = l0 ++ [(f, q, e)] /\ at_or_in p q
  | Err e => fine e \/ e = UnboundLocalError
  end.

Lemma on_zone dg : forall fuel p w r l w', rmtree_on onerror fuel dg p w = (r, l, w') -> okw w -> covered fs0 cwd Z p -> fueled fs0 cwd fuel p -> okw w' /\ ends p l w' r.
Proof.
  induction fuel as [fuel IH] using (well_founded_induction Wf_nat.lt_wf). intros p w r l w' H O C Fu. rewrite on_eq in H.
  destruct (rmtree_guard p dg w) as [[u|e] w1] eqn:Eg; apply (guard_zone fs0 cwd fault Z Ho) in Eg as [S K]; try assumption.
  2:{ injection H as <- <- <-. split; [now apply (ok_same _ _ _ _ w)|left; exact K]. }
  apply (ok_same _ _ _ _ _ _ S) in O. clear S K w.
  set (rec := fun q w => match fuel with O => (Err OutOfFuel, [], w) | S f => rmtree_on onerror f dg q w end) in H.
  destruct (body_on rec p w1) as [[[r1 v] l1] w2] eqn:Eb. destruct (body_drop _ _ _ _ _ _ _ Eb) as (r0 & E0 & Ep).
  assert (B : okw w2 /\ match r0 with Ok _ => gone fs0 cwd p w2 | Err e => fine e end).
  { apply (body_zone fs0 cwd fault Z Z_below Z_dec G0 Ho _ _ _ _ _ E0 O C).
    intros P xs es x W Hx Cx Where y s y' Hv Ov. pose proof (Fu _ _ W) as Dn.
    destruct (entry x es) as [nx|] eqn:Ex; [|apply entry_none in Ex; contradiction].
    pose proof (depth_entry xs es x nx Ex) as Dx. subst rec. cbn beta in Hv. destruct fuel as [|f]; [lia|].
    assert (Fx : fueled fs0 cwd f (child p x)).
    { intros P' m Wm. destruct (Where _ _ Wm) as [_ E]. injection E as <-. lia. }
    unfold drop in Hv. destruct (rmtree_on onerror f dg (child p x) y) as [[r5 l5] w5] eqn:Er. injection Hv as <- <-.
    destruct (IH f (Nat.lt_succ_diag_r f) _ _ _ _ _ Er Ov Cx Fx) as [Ov' Kv]. split; [assumption|]. destruct r5 as [|e]; [exact Logic.I|]. cbn [plain].
    apply plain_fine. intros ->. destruct Kv as [[K|[K|(n & K)]]|K]; discriminate. }
  destruct B as [O2 B]. pose proof (body_var _ _ _ _ _ _ _ Eb) as V. unfold handle_on in H.
  destruct r1 as [[]|e].
  - injection H as <- <- <-. split; [exact O2|]. left. destruct r0; [exact B|discriminate Ep].
  - destruct r0 as [|e0]; [discriminate Ep|].
    assert (Ne : e <> OutOfFuel). { intros ->. cbn in Ep. destruct B as [-> |[-> |(n & ->)]]; discriminate Ep. }
    assert (X : match v with None => (Err UnboundLocalError, l1, w2) | Some path => match p_is_dir path w2 with
        | (Err e', w1) => (Err e', l1, w1) | (Ok d, w1) => let f := if d then Rmdir else Unlink in let (r, w2) := onerror f path e w1 in (r, l1 ++ [(f, path, e)], w2) end end = (r, l, w') -> okw w' /\ ends p l w' r).
    { clear H. intro H. destruct v as [q|]; [|injection H as <- <- <-; split; [exact O2|now right]].
      destruct (p_is_dir q w2) as [[d|e'] w3] eqn:Ed; apply test_honest in Ed as [S T]; try (destruct O2 as (_ & _ & -> & _); exact Ho).
      - cbv zeta in H. destruct (onerror _ q e w3) as [r5 w5] eqn:Eo. apply Quiet in Eo as [S5 ->]. injection H as <- <- <-.
        split; [apply (ok_same _ _ _ _ w3); [exact S5|]; now apply (ok_same _ _ _ _ w2)|]. right. eexists _, _, q, e. split; [reflexivity|]. now apply V.
      - injection H as <- <- <-. split; [now apply (ok_same _ _ _ _ w2)|]. left. right. exact T. }
    destruct e; try exact (X H); try contradiction. injection H as <- <- <-. split; [exact O2|left; now left].
Qed.
End Zone.

Lemma on_start onerror fs cwd fault dz p r l w' : (forall f q e w r w', onerror f q e w = (r, w') -> same w w' /\ r = Ok tt) -> good_fs fs -> honest fault ->
  p_rmtree_on onerror dz p (start fs cwd fault) = (r, l, w') ->
  (forall s q, In s (states w') -> look s q = look fs q \/ (look s q = None /\ exists R, leads fs cwd p R /\ below R q)) /\ ends fs cwd p l w' r.
Proof.
  intros Q G Ho H. unfold p_rmtree_on in H.
  assert (A1 : forall q q', zone_of fs cwd p q -> below q q' -> zone_of fs cwd p q').
  { intros q q' (R & L & B) B'. exists R. split; [assumption|now apply (below_trans _ q)]. }
  assert (A2 : ok fs cwd fault (zone_of fs cwd p) (start fs cwd fault)).
  { assert (I : inv fs (zone_of fs cwd p) fs) by (intro q; split; auto). repeat split; auto; try apply I. now constructor. }
  assert (A3 : covered fs cwd (zone_of fs cwd p) p).
  { intros P n W. exists P. split; [now exists n|apply below_refl]. }
  assert (A4 : fueled fs cwd (depth (w_fs (start fs cwd fault))) p).
  { intros P n W. apply walk_found_get in W. now apply depth_get in W. }
  destruct (on_zone onerror Q fs cwd fault (zone_of fs cwd p) A1 (zone_dec fs cwd p) G Ho _ _ _ _ _ _ _ H A2 A3 A4) as [O K].
  split; [|exact K]. intros s q Hs.
  assert (X : (zone_of fs cwd p q -> look s q = look fs q \/ look s q = None) /\ (~ zone_of fs cwd p q -> look s q = look fs q)).
  { destruct Hs as [<-|Hs]; [apply O|]. destruct O as (_ & _ & _ & O). rewrite Forall_forall in O. now apply O. }
  destruct X as [K1 K2]. destruct (zone_dec fs cwd p q) as [Zq|Zq]; [|left; now apply K2].
  destruct (K1 Zq); [now left|right; now split].
Qed.

Lemma watches_quiet onerror : watches onerror -> forall f q e w r w', onerror f q e w = (r, w') -> same w w' /\ r = Ok tt.
Proof. intros W f q e w r w' H. destruct (W f q e w) as (w1 & E & A & B & C & D). rewrite H in E. injection E as -> ->. now repeat split. Qed.

Lemma on_confined onerror fs cwd fault dz p r l w' : watches onerror -> good_fs fs -> honest fault ->
  p_rmtree_on onerror dz p (start fs cwd fault) = (r, l, w') ->
  forall s q, In s (states w') -> look s q = look fs q \/ (look s q = None /\ exists R, leads fs cwd p R /\ below R q).
Proof. intros W G Ho H. exact (proj1 (on_start _ _ _ _ _ _ _ _ _ (watches_quiet _ W) G Ho H)). Qed.
Lemma on_errors onerror fs cwd fault dz p e l w' : watches onerror -> good_fs fs -> honest fault ->
  p_rmtree_on onerror dz p (start fs cwd fault) = (Err e, l, w') ->
  e = WillNotRemovePathError \/ e = UnboundLocalError \/ e = KeyboardInterrupt \/ exists n, e = OSErr n.
Proof. intros W G Ho H. destruct (proj2 (on_start _ _ _ _ _ _ _ _ _ (watches_quiet _ W) G Ho H)) as [[K|K]|K]; unfold tame in *; tauto. Qed.
Lemma on_last onerror fs cwd fault dz p l w' : watches onerror -> good_fs fs -> honest fault ->
  p_rmtree_on onerror dz p (start fs cwd fault) = (Ok tt, l, w') ->
  (exists R, leads fs cwd p R /\ forall q, below R q -> look (w_fs w') q = None) \/ exists l0 f q e, l = l0 ++ [(f, q, e)] /\ at_or_in p q.
Proof.
  intros W G Ho H. destruct (proj2 (on_start _ _ _ _ _ _ _ _ _ (watches_quiet _ W) G Ho H)) as [(R & n & L & N)|K]; [left|right; exact K].
  exists R. split; [now exists n|]. intros q B. now apply (look_below_none _ R).
Qed.
Lemma on_gone onerror fs cwd fault dz p w' : good_fs fs -> honest fault ->
  p_rmtree_on onerror dz p (start fs cwd fault) = (Ok tt, [], w') -> exists R, leads fs cwd p R /\ forall q, below R q -> look (w_fs w') q = None.
Proof. intros G Ho H. apply on_same in H. exact (rmtree_gone fs cwd fault dz p w' G Ho H). Qed.
Lemma on_as_usual onerror dz p w w' : p_rmtree false dz p w = (Ok tt, w') <-> p_rmtree_on onerror dz p w = (Ok tt, [], w').
Proof. apply on_same. Qed.
Lemma on_within onerror dz p w r l w' : p_rmtree_on onerror dz p w = (r, l, w') -> forall f q e, In (f, q, e) l -> within p q.
Proof. intros H f q e I. apply on_reports in H. rewrite Forall_forall in H. exact (H _ I). Qed.

(** Errors before [path] has a value *)
Lemma on_link onerror fs cwd R t : good_fs fs -> look fs R = Some (ALink t) -> fst (p_is_dir (path_of R) (start fs cwd (fun _ => None))) = Ok true ->
  exists w', p_rmtree_on onerror (ABool true) (path_of R) (start fs cwd (fun _ => None)) = (Err UnboundLocalError, [], w') /\ forall s, In s (states w') -> s = fs.
Proof.
  intros G L D. set (w := start fs cwd (fun _ => None)) in *. assert (N : no_fault w) by (intro; reflexivity).
  unfold p_rmtree_on. cbn [is_True]. rewrite on_eq. unfold rmtree_guard. cbn [path_of pp_abs negb ret]. unfold ret.
  destruct (test_run true (path_of R) (fun n => match n with Dir _ _ => true | _ => false end) w N) as (w1 & S1 & E1).
  unfold p_is_dir in D. unfold body_on, p_is_dir. rewrite E1 in *. cbn [fst] in D. rewrite D.
  assert (Lg : get fs R = Some (Link t)) by (unfold look in L; destruct (get fs R) as [[]|]; cbn in L; congruence).
  pose proof S1 as (F1 & C1 & H1 & T1).
  destruct (test_run false (path_of R) (fun n => match n with Link _ => true | _ => false end) w1 (no_fault_same _ _ S1 N)) as (w2 & S2 & E2).
  unfold p_is_symlink. rewrite E2, F1. cbn [w_fs start w]. rewrite (walk_of _ _ _ _ _ G Lg) by discriminate. cbn. exists w2. split; [reflexivity|].
  destruct S2 as (F2 & _ & H2 & _). unfold states. rewrite F2, H2, F1, H1. intros s I. repeat (destruct I as [<-|I]; [reflexivity|]). destruct I.
Qed.
Lemma on_listing onerror fs cwd R fault xs e : good_fs fs -> look fs R = Some (ADir xs) -> fault 0 = None -> fault 1 = None -> fault 2 = Some e ->
  e = KeyboardInterrupt \/ (exists n, e = OSErr n) ->
  exists w', p_rmtree_on onerror (ABool true) (path_of R) (start fs cwd fault) = (Err UnboundLocalError, [], w') /\ forall s, In s (states w') -> s = fs.
Proof.
  intros G L F0 F1 F2 He. apply look_dir in L as (es & L). set (wt := fun t => mkWorld fs cwd [fs] t fault).
  assert (E0 : p_is_dir (path_of R) (wt 0) = (Ok true, wt 1)).
  { unfold p_is_dir, test, catch, sys_stat, bind, ask. cbn [w_tick w_fault w_fs w_cwd w_hist wt]. rewrite F0. unfold lookup. now rewrite (walk_of _ _ _ _ _ G L) by discriminate. }
  assert (E1 : p_is_symlink (path_of R) (wt 1) = (Ok false, wt 2)).
  { unfold p_is_symlink, test, catch, sys_stat, bind, ask. cbn [w_tick w_fault w_fs w_cwd w_hist wt]. rewrite F1. unfold lookup. now rewrite (walk_of _ _ _ _ _ G L) by discriminate. }
  assert (E2 : sys_listdir (path_of R) (wt 2) = (Err e, wt 3)).
  { unfold sys_listdir, ask. cbn [w_tick w_fault w_fs w_cwd w_hist wt]. now rewrite F2. }
  change (start fs cwd fault) with (wt 0). unfold p_rmtree_on. cbn [is_True]. rewrite on_eq. unfold rmtree_guard. cbn [path_of pp_abs negb]. unfold ret, body_on.
  rewrite E0, E1, E2. exists (wt 3). split; [destruct He as [-> |(n & ->)]; reflexivity|]. intros s I. repeat (destruct I as [<-|I]; [reflexivity|]). destruct I.
Qed.
