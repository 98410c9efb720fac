(** * One place in a directory, and what the calls make of it *)
From Coq Require Import String NArith ZArith Bool List Lia.
From Verif Require Import Model.Py Model.PurePath Model.Meta Model.MetaXattr Model.Fs Model.PathOps Model.Sparse Model.Copy Model.Cache
  Spec.FsSpec Spec.LoopSpec Spec.CopySpec
  Proofs.PyLemmas Proofs.FsLemmas Proofs.RunLemmas Proofs.RmtreeProofs Proofs.RmdirtreeProofs Proofs.SparseProofs Proofs.MoveLemmas
  Proofs.LoopProofs Proofs.CopyProofs Proofs.Hoare.
Import ListNotations.

Section Slot.
Variables (D : place) (x : str).
Hypothesis Hx : good_name x.
Notation P := (D ++ [x]).
Notation p := (path_of (D ++ [x])).

(** A link there points below itself. *)
Definition fine (s : node) : Prop :=
  good_fs s /\ is_dir_at s D /\ forall t, look s P = Some (ALink t) -> starts_with_name x t.
Definition off (F s : node) : Prop := forall q, ~ below P q -> look s q = look F q.
Definition St (F : node) (v : option thing) (s : node) : Prop := fine s /\ off F s /\ look s P = v.

Lemma P_nil : P <> []. Proof. now destruct D. Qed.

Lemma walk_false s cwd : fine s -> walk s cwd false p = match get s P with Some n => Found P n | None => Missing D x end.
Proof.
  intros (G & Dd & _). destruct (get s P) as [n|] eqn:E.
  - apply walk_of; [assumption|assumption|discriminate].
  - apply walk_of_missing; try assumption. now apply look_none.
Qed.
Lemma walk_true s cwd : fine s -> walk s cwd true p =
  match get s P with Some (Link _) => Fail ELOOP | Some n => Found P n | None => Missing D x end.
Proof.
  intros (G & Dd & L). destruct (get s P) as [[d xs|xs es|t]|] eqn:E.
  - apply walk_of; [assumption|assumption|discriminate].
  - apply walk_of; [assumption|assumption|discriminate].
  - assert (K : look s P = Some (ALink t)) by now apply look_link.
    change (walk s [] true p = Fail ELOOP). apply (loop_stat s [] p D x t Hx (L t K)).
    + cbn [get]. destruct G as (_ & xs & es & ->). eauto.
    + exists (Link t). apply walk_of; [assumption|assumption|discriminate].
    + assumption.
  - apply walk_of_missing; try assumption. now apply look_none.
Qed.

Definition isE (v : option thing) : bool := match v with Some (AFile _ _) | Some (ADir _) => true | _ => false end.
Definition isF (v : option thing) : bool := match v with Some (AFile _ _) => true | _ => false end.
Definition isD (v : option thing) : bool := match v with Some (ADir _) => true | _ => false end.
Definition isL (v : option thing) : bool := match v with Some (ALink _) => true | _ => false end.

Lemma look_get s q : look s q = match get s q with
  | Some (File d xs) => Some (AFile d xs) | Some (Dir xs _) => Some (ADir xs) | Some (Link t) => Some (ALink t) | None => None end.
Proof. reflexivity. Qed.

Section Tests.
Variable I : node -> Prop.
Variable R : node -> Prop.
Hypothesis RF : forall s, R s -> fine s.

Lemma t_test follow f g : (forall s cwd, fine s -> match walk s cwd follow p with Found _ n => f n = g (look s P) | _ => g (look s P) = false end) ->
  tri I R (test (sys_stat follow p) f) (fun r s => R s /\ forall b, r = Ok b -> b = g (look s P)).
Proof.
  intros Hw w r w' Ho Hr H. apply test_honest in H as [S H]; [|assumption].
  split; [|now apply runs_same]. destruct S as (-> & _). split; [assumption|]. intros b ->.
  specialize (Hw (w_fs w) (w_cwd w) (RF _ Hr)). destruct b.
  - destruct H as (q & n & W & E). rewrite W in Hw. congruence.
  - destruct (walk (w_fs w) (w_cwd w) follow p) as [q n| |] eqn:W; [|congruence|congruence]. rewrite (H q n eq_refl) in Hw. congruence.
Qed.
Lemma t_exists : tri I R (p_exists p) (fun r s => R s /\ forall b, r = Ok b -> b = isE (look s P)).
Proof.
  apply t_test. intros s cwd Fs. rewrite walk_true by assumption. rewrite look_get.
  destruct (get s P) as [[| |]|]; reflexivity.
Qed.
Lemma t_is_file : tri I R (p_is_file p) (fun r s => R s /\ forall b, r = Ok b -> b = isF (look s P)).
Proof.
  apply t_test. intros s cwd Fs. rewrite walk_true by assumption. rewrite look_get.
  destruct (get s P) as [[| |]|]; reflexivity.
Qed.
Lemma t_is_dir : tri I R (p_is_dir p) (fun r s => R s /\ forall b, r = Ok b -> b = isD (look s P)).
Proof.
  apply t_test. intros s cwd Fs. rewrite walk_true by assumption. rewrite look_get.
  destruct (get s P) as [[| |]|]; reflexivity.
Qed.
Lemma t_is_symlink : tri I R (p_is_symlink p) (fun r s => R s /\ forall b, r = Ok b -> b = isL (look s P)).
Proof.
  apply t_test. intros s cwd Fs. rewrite walk_false by assumption. rewrite look_get.
  destruct (get s P) as [[| |]|]; reflexivity.
Qed.
End Tests.

Section Broken.
Variable I : node -> Prop.
Variable R : node -> Prop.
Hypothesis RF : forall s, R s -> fine s.
Lemma t_broken : tri I R (p_is_broken_symlink p) (fun r s => R s /\ forall b, r = Ok b -> b = isL (look s P)).
Proof.
  unfold p_is_broken_symlink. eapply tri_bind; [apply t_is_symlink, RF| |].
  - intros [].
    + eapply tri_bind; [apply t_exists; intros s (K & _); now apply RF| |].
      * intros b. apply tri_ret. intros s ((Hr & K1) & K2). split; [assumption|]. intros b' E. injection E as <-.
        specialize (K1 true eq_refl). specialize (K2 b eq_refl). subst b. destruct (look s P) as [[]|]; try discriminate; reflexivity.
      * intros e s ((Hr & _) & _). split; [assumption|discriminate].
    + apply tri_ret. intros s (Hr & K). split; [assumption|]. intros b E. injection E as <-. now apply K.
  - intros e s (Hr & _). split; [assumption|discriminate].
Qed.
Lemma t_exists_not_symlink : tri I R (p_exists_not_symlink p) (fun r s => R s /\ forall b, r = Ok b -> b = isE (look s P)).
Proof.
  unfold p_exists_not_symlink. eapply tri_bind; [apply t_exists, RF| |].
  - intros [].
    + eapply tri_bind; [apply t_is_symlink; intros s (K & _); now apply RF| |].
      * intros b. apply tri_ret. intros s ((Hr & K1) & K2). split; [assumption|]. intros b' E. injection E as <-.
        specialize (K1 true eq_refl). specialize (K2 b eq_refl). subst b. destruct (look s P) as [[]|]; try discriminate; reflexivity.
      * intros e s ((Hr & _) & _). split; [assumption|discriminate].
    + apply tri_ret. intros s (Hr & K). split; [assumption|]. intros b E. injection E as <-. now apply K.
  - intros e s (Hr & _). split; [assumption|discriminate].
Qed.
End Broken.

(** ** Changes *)
Lemma fine_put F s n : fine s -> off F s -> good n -> (forall t, n = Link t -> starts_with_name x t) -> St F (look n []) (put s P n).
Proof.
  intros (G & Dd & L) O Gn Ln. assert (E : get (put s P n) P = Some n) by now apply get_put_new.
  assert (EL : look (put s P n) P = look n []) by (unfold look; now rewrite E).
  assert (Dn : ~ below P D) by (intros K; apply below_len in K; rewrite app_length in K; cbn [length] in K; lia).
  split; [split; [|split]|split].
  - now apply good_put_new.
  - destruct Dd as (xs & Dd). exists xs. rewrite look_put_other by assumption. exact Dd.
  - intros t K. apply Ln. rewrite EL in K. destruct n; cbn in K; congruence.
  - intros q Nq. rewrite look_put_other by assumption. now apply O.
  - assumption.
Qed.
Lemma fine_del F s : fine s -> off F s -> St F None (del s P).
Proof.
  intros (G & Dd & L) O. assert (EL : look (del s P) P = None) by (apply look_del_below; [apply P_nil|apply below_refl]).
  assert (Dn : ~ below P D) by (intros K; apply below_len in K; rewrite app_length in K; cbn [length] in K; lia).
  split; [split; [|split]|split].
  - now apply good_fs_del.
  - destruct Dd as (xs & Dd). exists xs. rewrite look_del_other by assumption. exact Dd.
  - intros t K. congruence.
  - intros q Nq. rewrite look_del_other by assumption. now apply O.
  - assumption.
Qed.

Section Calls.
Variables (I : node -> Prop) (F : node).

Lemma t_symlink t : starts_with_name x t -> (forall s, St F (Some (ALink t)) s -> I s) ->
  tri I (St F None) (sys_symlink t p) (fun r s => match r with Ok _ => St F (Some (ALink t)) s | Err _ => St F None s end).
Proof.
  intros Hs HI. apply tri_sys; [intros; assumption|]. intros s cwd a s' (Hf & Ho & L) E. destruct t as [|c t]; [discriminate|].
  rewrite (walk_false s cwd Hf) in E. apply look_none in L. rewrite L in E. apply Ok_inj in E. injection E as <- <-.
  assert (K : St F (Some (ALink (c :: t))) (put s P (Link (c :: t)))).
  { apply (fine_put F s (Link (c :: t))); try assumption; [constructor|]. intros t' E. congruence. }
  split; [assumption|now apply HI].
Qed.
Lemma t_mkdir : (forall s, St F (Some (ADir [])) s -> I s) ->
  tri I (St F None) (sys_mkdir p) (fun r s => match r with Ok _ => St F (Some (ADir [])) s | Err _ => St F None s end).
Proof.
  intros HI. apply tri_sys; [intros; assumption|]. intros s cwd a s' (Hf & Ho & L) E.
  rewrite (walk_false s cwd Hf) in E. apply look_none in L. rewrite L in E. apply Ok_inj in E. injection E as <- <-.
  assert (K : St F (Some (ADir [])) (put s P (Dir [] []))).
  { apply (fine_put F s (Dir [] [])); try assumption; [constructor; [constructor|now intros|now intros]|]. intros t' E. congruence. }
  split; [assumption|now apply HI].
Qed.
Lemma t_sys_touch : (forall s, St F (Some (AFile [] [])) s -> I s) ->
  tri I (St F None) (sys_touch p) (fun r s => match r with Ok _ => St F (Some (AFile [] [])) s | Err _ => St F None s end).
Proof.
  intros HI. apply tri_sys; [intros; assumption|]. intros s cwd a s' (Hf & Ho & L) E.
  rewrite (walk_true s cwd Hf) in E. apply look_none in L. rewrite L in E. apply Ok_inj in E. injection E as <- <-.
  assert (K : St F (Some (AFile [] [])) (put s P (File [] []))).
  { apply (fine_put F s (File [] [])); try assumption; [constructor|]. intros t' E. congruence. }
  split; [assumption|now apply HI].
Qed.
Lemma t_touch : (forall s, St F (Some (AFile [] [])) s -> I s) ->
  tri I (St F None) (p_touch p) (fun r s => match r with Ok _ => St F (Some (AFile [] [])) s | Err _ => St F None s end).
Proof.
  intros HI. unfold p_touch.
  eapply tri_catch with (R := fun r s => match r with Ok _ => False | Err _ => St F None s end).
  - eapply tri_bind with (R := fun r s => match r with Ok _ => False | Err _ => St F None s end).
    + intros w r w' Ho Hp H. apply ask_inv in H as [S H]. split; [|now apply runs_same].
      destruct S as (-> & _). destruct H as [->|(e & -> & _)]; [|assumption].
      unfold lookup. destruct Hp as (Hf & Hoff & L). rewrite (walk_true _ _ Hf). pose proof (proj1 (look_none _ _) L) as L'. rewrite L'.
      cbn [rbind fail]. split; [assumption|]. now split.
    + intros a. apply tri_ret. tauto.
    + intros e s K. exact K.
  - intros e. destruct e; try (apply tri_raise; intros; assumption). now apply t_sys_touch.
  - intros a s [].
Qed.
Lemma t_unlink t : (forall s, St F None s -> I s) ->
  tri I (St F (Some (ALink t))) (sys_unlink p) (fun r s => match r with Ok _ => St F None s | Err _ => St F (Some (ALink t)) s end).
Proof.
  intros HI. apply tri_sys; [intros; assumption|]. intros s cwd a s' (Hf & Ho & L) E. unfold lookup in E.
  rewrite (walk_false s cwd Hf) in E. apply look_link in L. rewrite L in E. cbn [rbind fst snd] in E. apply Ok_inj in E. injection E as <- <-.
  assert (K : St F None (del s P)) by now apply fine_del.
  split; [assumption|now apply HI].
Qed.
Lemma t_setxattr_file d xs k v : (forall s, St F (Some (AFile d (xset (xkey k) v xs))) s -> I s) ->
  tri I (St F (Some (AFile d xs))) (p_setxattr p k v)
    (fun r s => match r with Ok _ => St F (Some (AFile d (xset (xkey k) v xs))) s | Err _ => St F (Some (AFile d xs)) s end).
Proof.
  intros HI. apply tri_sys; [intros; assumption|]. intros s cwd a s' (Hf & Ho & L) E. unfold lookup in E.
  rewrite (walk_true s cwd Hf) in E. apply look_file in L. rewrite L in E. cbn [rbind fst snd node_xattrs with_xattrs] in E.
  apply Ok_inj in E. injection E as <- <-.
  assert (K : St F (Some (AFile d (xset (xkey k) v xs))) (put s P (File d (xset (xkey k) v xs)))).
  { apply (fine_put F s (File d (xset (xkey k) v xs))); try assumption; [constructor|]. intros t' E. congruence. }
  split; [assumption|now apply HI].
Qed.
Lemma t_setxattr_dir xs k v : (forall s, St F (Some (ADir (xset (xkey k) v xs))) s -> I s) ->
  tri I (St F (Some (ADir xs))) (p_setxattr p k v)
    (fun r s => match r with Ok _ => St F (Some (ADir (xset (xkey k) v xs))) s | Err _ => St F (Some (ADir xs)) s end).
Proof.
  intros HI. apply tri_sys; [intros; assumption|]. intros s cwd a s' (Hf & Ho & L) E. unfold lookup in E.
  rewrite (walk_true s cwd Hf) in E. apply look_dir in L as (es & L). rewrite L in E. cbn [rbind fst snd node_xattrs with_xattrs] in E.
  apply Ok_inj in E. injection E as <- <-.
  assert (K : St F (Some (ADir (xset (xkey k) v xs))) (put s P (Dir (xset (xkey k) v xs) es))).
  { apply (fine_put F s (Dir (xset (xkey k) v xs) es)); try assumption.
    - destruct Hf as ((G & _) & _). pose proof (good_get _ _ _ G L) as Gd. inversion Gd; subst. now constructor.
    - intros t' E. congruence. }
  split; [assumption|now apply HI].
Qed.
Lemma t_create_file d xs : (forall s, St F (Some (AFile [] xs)) s -> I s) ->
  tri I (St F (Some (AFile d xs))) (sys_create p)
    (fun r s => match r with Ok q => q = P /\ St F (Some (AFile [] xs)) s | Err _ => St F (Some (AFile d xs)) s end).
Proof.
  intros HI. apply tri_sys; [intros; assumption|]. intros s cwd a s' (Hf & Ho & L) E.
  rewrite (walk_true s cwd Hf) in E. apply look_file in L. rewrite L in E. apply Ok_inj in E. injection E as <- <-.
  assert (K : St F (Some (AFile [] xs)) (put s P (File [] xs))).
  { apply (fine_put F s (File [] xs)); try assumption; [constructor|]. intros t' E. congruence. }
  split; [now split|now apply HI].
Qed.
Lemma t_create_new : (forall s, St F (Some (AFile [] [])) s -> I s) ->
  tri I (St F None) (sys_create p)
    (fun r s => match r with Ok q => q = P /\ St F (Some (AFile [] [])) s | Err _ => St F None s end).
Proof.
  intros HI. apply tri_sys; [intros; assumption|]. intros s cwd a s' (Hf & Ho & L) E.
  rewrite (walk_true s cwd Hf) in E. apply look_none in L. rewrite L in E. apply Ok_inj in E. injection E as <- <-.
  assert (K : St F (Some (AFile [] [])) (put s P (File [] []))).
  { apply (fine_put F s (File [] [])); try assumption; [constructor|]. intros t' E. congruence. }
  split; [now split|now apply HI].
Qed.
Lemma t_create_err v : (isL v || isD v)%bool = true ->
  tri I (St F v) (sys_create p) (fun r s => (forall q, r <> Ok q) /\ St F v s).
Proof.
  intros HI. apply tri_sys; [intros; split; [discriminate|assumption]|]. intros s cwd a s' (Hf & Ho & L) E. exfalso.
  rewrite (walk_true s cwd Hf) in E. rewrite look_get in L. subst v. destruct (get s P) as [[| |]|]; discriminate.
Qed.
Lemma t_append d xs b : (forall s, St F (Some (AFile (d ++ b) xs)) s -> I s) ->
  tri I (St F (Some (AFile d xs))) (sys_append P b)
    (fun r s => match r with Ok _ => St F (Some (AFile (d ++ b) xs)) s | Err _ => St F (Some (AFile d xs)) s end).
Proof.
  intros HI. apply tri_sys; [intros; assumption|]. intros s cwd a s' (Hf & Ho & L) E.
  apply look_file in L. rewrite L in E. apply Ok_inj in E. injection E as <- <-.
  assert (K : St F (Some (AFile (d ++ b) xs)) (put s P (File (d ++ b) xs))).
  { apply (fine_put F s (File (d ++ b) xs)); try assumption; [constructor|]. intros t' E. congruence. }
  split; [assumption|now apply HI].
Qed.

(** the chunks of the remote *)
Lemma t_pull l e (R : node -> Prop) :
  tri I R (pull (remote_feed l e)) (fun r s => R s /\ forall v, r = Ok v -> match l with
     | c :: l' => v = Some (c, remote_feed l' e) | [] => v = None /\ e = None end).
Proof.
  intros w r w' _ Hr H. destruct l as [|c l]; cbn [remote_feed pull] in H; apply ask_inv in H as [S H];
    (split; [|now apply runs_same]); destruct S as (-> & _); (split; [assumption|]); intros v ->.
  - destruct H as [H|(e' & H & _)]; [|discriminate]. destruct e; [discriminate|]. now apply Ok_inj in H.
  - destruct H as [H|(e' & H & _)]; [|discriminate]. now apply Ok_inj in H.
Qed.
Lemma t_drain e : forall l d xs, (forall s d', St F (Some (AFile d' xs)) s -> (exists k, d' = d ++ concat (firstn k l)) -> I s) ->
  tri I (St F (Some (AFile d xs))) (drain P (remote_feed l e))
    (fun r s => match r with Ok _ => e = None /\ St F (Some (AFile (d ++ concat l) xs)) s | Err _ => exists k, St F (Some (AFile (d ++ concat (firstn k l)) xs)) s end).
Proof.
  induction l as [|c l IH]; intros d xs HI w r w' Ho Hp H; cbn [remote_feed drain] in H.
  - match type of H with match ?f w with _ => _ end = _ => destruct (f w) as [r1 w1] eqn:E end. apply ask_inv in E as [S E].
    assert ((r1 = Ok None /\ e = None) \/ exists e', r1 = Err e') as [[-> En]|(e' & ->)].
    { destruct E as [->|(e' & -> & _)]; [|right; eauto]. destruct e; [right; eauto|now left]. }
    + injection H as <- <-. split; [|now apply runs_same]. destruct S as (-> & _). cbn [concat]. now rewrite app_nil_r.
    + injection H as <- <-. split; [|now apply runs_same]. destruct S as (-> & _). exists 0%nat. cbn [firstn concat]. now rewrite app_nil_r.
  - match type of H with match ?f w with _ => _ end = _ => destruct (f w) as [r1 w1] eqn:E end. apply ask_inv in E as [S E].
    assert (r1 = Ok (Some (c, remote_feed l e)) \/ exists e', r1 = Err e') as [->|(e' & ->)].
    { destruct E as [->|(e' & -> & _)]; [now left|right; eauto]. }
    2:{ injection H as <- <-. split; [|now apply runs_same]. destruct S as (-> & _). exists 0%nat. cbn [firstn concat]. now rewrite app_nil_r. }
    assert (Ho1 : honest (w_fault w1)) by (destruct S as (_ & _ & _ & ->); assumption).
    assert (Hp1 : St F (Some (AFile d xs)) (w_fs w1)) by (destruct S as (-> & _); assumption).
    destruct (sys_append P c w1) as [r2 w2] eqn:E2.
    destruct (t_append d xs c (fun s K => HI s _ K (ex_intro _ 1%nat (f_equal (app d) (eq_sym (app_nil_r c))))) w1 r2 w2 Ho1 Hp1 E2) as [K2 R2].
    destruct r2 as [[]|e2].
    + pose proof R2 as (F2 & _). assert (Ho2 : honest (w_fault w2)) by (rewrite F2; assumption).
      assert (HI2 : forall s d', St F (Some (AFile d' xs)) s -> (exists k, d' = (d ++ c) ++ concat (firstn k l)) -> I s).
      { intros s d' K (k & ->). apply (HI s _ K). exists (Datatypes.S k). cbn [firstn concat]. now rewrite app_assoc. }
      destruct (IH (d ++ c) xs HI2 w2 r w' Ho2 K2 H) as [K3 R3].
      split.
      * destruct r as [[]|e3]; cbn [concat]; [now rewrite app_assoc|]. destruct K3 as (k & K3). exists (Datatypes.S k). cbn [firstn concat].
        now rewrite app_assoc.
      * apply (runs_trans _ _ w1); [now apply runs_same|]. now apply (runs_trans _ _ w2).
    + injection H as <- <-. split; [exists 0%nat; cbn [firstn concat]; now rewrite app_nil_r|].
      apply (runs_trans _ _ w1); [now apply runs_same|assumption].
Qed.
End Calls.
End Slot.
