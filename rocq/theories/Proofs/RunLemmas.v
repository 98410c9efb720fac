(** * Lemmas on running system calls *)
From Coq Require Import String NArith ZArith Bool List Lia.
From Verif Require Import Model.Py Model.PurePath Model.Fs Model.PathOps Spec.FsSpec Spec.LoopSpec Proofs.PyLemmas Proofs.FsLemmas.
Import ListNotations.

(** Nothing but the clock changed. *)
Definition same (w w' : world) : Prop :=
  w_fs w' = w_fs w /\ w_cwd w' = w_cwd w /\ w_hist w' = w_hist w /\ w_fault w' = w_fault w.
(** One change of the file system. *)
Definition changed (fs : node) (w w' : world) : Prop :=
  w_fs w' = fs /\ w_cwd w' = w_cwd w /\ w_hist w' = fs :: w_hist w /\ w_fault w' = w_fault w.

Lemma same_refl w : same w w.
Proof. now repeat split. Qed.
Lemma same_trans a b c : same a b -> same b c -> same a c.
Proof. intros (A1 & A2 & A3 & A4) (B1 & B2 & B3 & B4). repeat split; congruence. Qed.

Lemma ask_inv {A} (f : node -> place -> res A) w r w' : ask f w = (r, w') ->
  same w w' /\ (r = f (w_fs w) (w_cwd w) \/ exists e, r = Err e /\ w_fault w (w_tick w) = Some e).
Proof.
  unfold ask. destruct (w_fault w (w_tick w)) as [e|]; intro H; injection H as <- <-; (split; [now repeat split|]).
  - right. now exists e.
  - now left.
Qed.

Lemma sys_inv {A} (f : node -> place -> res (A * node)) w r w' : sys f w = (r, w') ->
  (exists e, r = Err e /\ same w w' /\ (f (w_fs w) (w_cwd w) = Err e \/ w_fault w (w_tick w) = Some e)) \/
  (exists a fs, r = Ok a /\ f (w_fs w) (w_cwd w) = Ok (a, fs) /\ changed fs w w').
Proof.
  unfold sys. destruct (w_fault w (w_tick w)) as [e|] eqn:F.
  - intro H. injection H as <- <-. left. exists e. split; [reflexivity|]. split; [now repeat split|now right].
  - destruct (f (w_fs w) (w_cwd w)) as [[a fs]|e] eqn:E; intro H; injection H as <- <-.
    + right. exists a, fs. repeat split.
    + left. exists e. split; [reflexivity|]. split; [now repeat split|now left].
Qed.

Lemma bind_inv {A B} (m : M A) (f : A -> M B) w r w' : bind m f w = (r, w') ->
  (exists a w1, m w = (Ok a, w1) /\ f a w1 = (r, w')) \/ (exists e, m w = (Err e, w') /\ r = Err e).
Proof.
  unfold bind. destruct (m w) as [[a|e] w1] eqn:E; intro H.
  - left. now exists a, w1.
  - right. injection H as <- <-. now exists e.
Qed.

Lemma catch_inv {A} (m : M A) h w r w' : catch m h w = (r, w') ->
  (exists a, m w = (Ok a, w') /\ r = Ok a) \/ (exists e w1, m w = (Err e, w1) /\ h e w1 = (r, w')).
Proof.
  unfold catch. destruct (m w) as [[a|e] w1] eqn:E; intro H.
  - left. injection H as <- <-. now exists a.
  - right. now exists e, w1.
Qed.

(** without faults *)
Lemma ask_run {A} (f : node -> place -> res A) w : no_fault w ->
  exists w', ask f w = (f (w_fs w) (w_cwd w), w') /\ same w w'.
Proof. intro N. unfold ask. rewrite N. eexists. split; [reflexivity|now repeat split]. Qed.
Lemma sys_run {A} (f : node -> place -> res (A * node)) w : no_fault w ->
  match f (w_fs w) (w_cwd w) with
  | Ok (a, fs) => exists w', sys f w = (Ok a, w') /\ changed fs w w'
  | Err e => exists w', sys f w = (Err e, w') /\ same w w'
  end.
Proof.
  intro N. unfold sys. rewrite N. destruct (f (w_fs w) (w_cwd w)) as [[a fs]|e];
    (eexists; split; [reflexivity|now repeat split]).
Qed.
Lemma no_fault_same w w' : same w w' -> no_fault w -> no_fault w'.
Proof. intros (_ & _ & _ & F) N t. rewrite F. apply N. Qed.
Lemma no_fault_changed fs w w' : changed fs w w' -> no_fault w -> no_fault w'.
Proof. intros (_ & _ & _ & F) N t. rewrite F. apply N. Qed.

(** ** Tests *)
Lemma test_inv follow p f w r w' : test (sys_stat follow p) f w = (r, w') ->
  same w w' /\ (r = Ok true -> exists q n, walk (w_fs w) (w_cwd w) follow p = Found q n /\ f n = true).
Proof.
  unfold test. intro H. apply catch_inv in H as [(b & H & ->)|(e & w1 & H & K)].
  - apply bind_inv in H as [(n & w1 & H & K)|(e & H & K)]; [|discriminate].
    injection K as <- <-. apply ask_inv in H as [S [E|(e & E & _)]]; [|discriminate]. split; [assumption|].
    intro T. injection T as T. unfold lookup in E. destruct (walk _ _ _ _) as [q m| |]; try discriminate.
    cbn in E. apply Ok_inj in E. subst n. now exists q, m.
  - apply bind_inv in H as [(n & w2 & H & K2)|(e' & H & K2)].
    + discriminate.
    + apply ask_inv in H as [S _]. injection K2 as ->.
      destruct (ignored e'); injection K as <- <-; (split; [assumption|]); discriminate.
Qed.

Lemma test_run follow p f w : no_fault w ->
  exists w', same w w' /\ test (sys_stat follow p) f w =
    (match walk (w_fs w) (w_cwd w) follow p with
     | Found _ n => Ok (f n)
     | Missing _ _ => Ok false
     | Fail e => if ignored (OSErr e) then Ok false else Err (OSErr e)
     end, w').
Proof.
  intro N. unfold test, catch, bind, sys_stat, ask. rewrite N. unfold lookup.
  destruct (walk _ _ _ _) as [q n|d x|e]; cbn.
  - eexists. split; [|reflexivity]. now repeat split.
  - eexists. split; [|reflexivity]. now repeat split.
  - destruct e; (eexists; split; [|reflexivity]; now repeat split).
Qed.

Lemma test_honest follow p f w r w' : honest (w_fault w) -> test (sys_stat follow p) f w = (r, w') ->
  same w w' /\
  match r with
  | Ok true => exists q n, walk (w_fs w) (w_cwd w) follow p = Found q n /\ f n = true
  | Ok false => forall q n, walk (w_fs w) (w_cwd w) follow p = Found q n -> f n = false
  | Err e => e = KeyboardInterrupt \/ exists n, e = OSErr n
  end.
Proof.
  intros Ho H. pose proof (test_inv _ _ _ _ _ _ H) as [S T]. split; [exact S|].
  unfold test in H. apply catch_inv in H as [(b & H & ->)|(e & w1 & H & K)].
  - apply bind_inv in H as [(n & w1 & H & K)|(e & H & K)]; [|discriminate].
    injection K as <- <-. destruct (f n) eqn:Fn; [now apply T|].
    apply ask_inv in H as [_ [E|(e & E & _)]]; [|discriminate]. intros q m W. unfold lookup in E. rewrite W in E.
    cbn in E. apply Ok_inj in E. now subst.
  - apply bind_inv in H as [(n & w2 & H & K2)|(e' & H & K2)]; [discriminate|].
    injection K2 as ->. apply ask_inv in H as [_ H].
    destruct H as [H|(e'' & H & Fl)].
    + unfold lookup in H. destruct (walk _ _ _ _) as [q n|d x|er]; try discriminate; cbn in H; injection H as ->.
      * injection K as <- _. intros; discriminate.
      * destruct er; cbn in K; injection K as <- _; try (intros; discriminate); right; now eexists.
    + injection H as <-. apply Ho in Fl as [->|(er & -> & A & B & C)].
      * injection K as <- _. now left.
      * destruct er; try congruence; injection K as <- _; right; now eexists.
Qed.

Lemma listdir_inv p w r w' : sys_listdir p w = (r, w') -> same w w' /\
  match r with
  | Ok names => exists P xs es, walk (w_fs w) (w_cwd w) true p = Found P (Dir xs es) /\ names = map fst es
  | Err e => (exists n, e = OSErr n) \/ w_fault w (w_tick w) = Some e
  end.
Proof.
  intro H. apply ask_inv in H as [S [L|(e & L & Fl)]]; (split; [assumption|]).
  - unfold lookup, fail in L. destruct (walk (w_fs w) (w_cwd w) true p) as [q n|d x|er]; cbn in L.
    + destruct n as [d x|xs es|t]; rewrite L; [left; now eexists|now exists q, xs, es|left; now eexists].
    + rewrite L. left. now eexists.
    + rewrite L. left. now eexists.
  - rewrite L. now right.
Qed.

Lemma sys_ok {A} (f : node -> place -> res (A * node)) w a fs : no_fault w -> f (w_fs w) (w_cwd w) = Ok (a, fs) ->
  exists w', sys f w = (Ok a, w') /\ changed fs w w'.
Proof. intros N E. pose proof (sys_run f w N) as R. rewrite E in R. exact R. Qed.
Lemma sys_err {A} (f : node -> place -> res (A * node)) w e : no_fault w -> f (w_fs w) (w_cwd w) = Err e ->
  exists w', sys f w = (Err e, w') /\ same w w'.
Proof. intros N E. pose proof (sys_run f w N) as R. rewrite E in R. exact R. Qed.
Lemma ask_ok {A} (f : node -> place -> res A) w r : no_fault w -> f (w_fs w) (w_cwd w) = r ->
  exists w', ask f w = (r, w') /\ same w w'.
Proof. intros N E. pose proof (ask_run f w N) as R. rewrite E in R. exact R. Qed.
