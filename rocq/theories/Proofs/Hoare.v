(** * Reasoning about runs: what holds before, after and in between *)
From Coq Require Import String NArith ZArith Bool List Lia.
From Verif Require Import Model.Py Model.PurePath Model.Fs Model.PathOps Spec.FsSpec Spec.LoopSpec
  Proofs.PyLemmas Proofs.FsLemmas Proofs.RunLemmas.
Import ListNotations.

(** From [w] to [w'] all new states satisfy [I]. *)
Definition runs (I : node -> Prop) (w w' : world) : Prop :=
  w_fault w' = w_fault w /\ w_cwd w' = w_cwd w /\ exists l, w_hist w' = l ++ w_hist w /\ Forall I l.

Lemma runs_refl I w : runs I w w.
Proof. split; [reflexivity|]. split; [reflexivity|]. now exists []. Qed.
Lemma runs_trans I a b c : runs I a b -> runs I b c -> runs I a c.
Proof.
  intros (A1 & A2 & l & A3 & A4) (B1 & B2 & k & B3 & B4). split; [congruence|]. split; [congruence|].
  exists (k ++ l). rewrite B3, A3, app_assoc. split; [reflexivity|]. now apply Forall_app.
Qed.
Lemma runs_same I w w' : same w w' -> runs I w w'.
Proof. intros (_ & S2 & S3 & S4). split; [assumption|]. split; [assumption|]. exists []. now rewrite S3. Qed.
Lemma runs_changed (I : node -> Prop) fs w w' : changed fs w w' -> I fs -> runs I w w'.
Proof. intros (_ & S2 & S3 & S4) H. split; [assumption|]. split; [assumption|]. exists [fs]. split; [assumption|]. now constructor. Qed.
Lemma runs_mono (I J : node -> Prop) w w' : (forall s, I s -> J s) -> runs I w w' -> runs J w w'.
Proof. intros H (A & B & l & C & D). split; [assumption|]. split; [assumption|]. exists l. split; [assumption|]. now apply (Forall_impl _ H). Qed.

(** [m] started where [P] holds ends where [Q] holds; [I] holds in between. *)
Definition tri (I : node -> Prop) {A} (P : node -> Prop) (m : M A) (Q : res A -> node -> Prop) : Prop :=
  forall w r w', honest (w_fault w) -> P (w_fs w) -> m w = (r, w') -> Q r (w_fs w') /\ runs I w w'.

Section Rules.
Variable I : node -> Prop.

Lemma tri_conseq {A} (P P' : node -> Prop) (m : M A) (Q Q' : res A -> node -> Prop) :
  tri I P' m Q' -> (forall s, P s -> P' s) -> (forall r s, Q' r s -> Q r s) -> tri I P m Q.
Proof. intros T HP HQ w r w' Ho Hp H. destruct (T w r w' Ho (HP _ Hp) H). split; [now apply HQ|assumption]. Qed.
Lemma tri_pre {A} (P P' : node -> Prop) (m : M A) (Q : res A -> node -> Prop) :
  tri I P' m Q -> (forall s, P s -> P' s) -> tri I P m Q.
Proof. intros T HP. apply (tri_conseq P P' m Q Q T HP). auto. Qed.
Lemma tri_post {A} (P : node -> Prop) (m : M A) (Q Q' : res A -> node -> Prop) :
  tri I P m Q' -> (forall r s, Q' r s -> Q r s) -> tri I P m Q.
Proof. intros T HQ. apply (tri_conseq P P m Q Q' T); auto. Qed.
Lemma tri_or {A} (P P' : node -> Prop) (m : M A) (Q : res A -> node -> Prop) :
  tri I P m Q -> tri I P' m Q -> tri I (fun s => P s \/ P' s) m Q.
Proof. intros A1 A2 w r w' Ho [H|H]; auto. Qed.
Lemma tri_ex {A B} (P : B -> node -> Prop) (m : M A) (Q : res A -> node -> Prop) :
  (forall b, tri I (P b) m Q) -> tri I (fun s => exists b, P b s) m Q.
Proof. intros T w r w' Ho (b & H). now apply (T b). Qed.
Lemma tri_fact {A} (F : Prop) (P : node -> Prop) (m : M A) (Q : res A -> node -> Prop) :
  (F -> tri I P m Q) -> tri I (fun s => F /\ P s) m Q.
Proof. intros T w r w' Ho (f & H). now apply (T f). Qed.

Lemma tri_bind {A B} (P : node -> Prop) (m : M A) (f : A -> M B) (R : res A -> node -> Prop) (Q : res B -> node -> Prop) :
  tri I P m R -> (forall a, tri I (R (Ok a)) (f a) Q) -> (forall e s, R (Err e) s -> Q (Err e) s) -> tri I P (bind m f) Q.
Proof.
  intros Tm Tf He w r w' Ho Hp H. apply bind_inv in H as [(a & w1 & H1 & H2)|(e & H1 & ->)].
  - destruct (Tm _ _ _ Ho Hp H1) as [K1 R1]. pose proof R1 as (F1 & _). rewrite <- F1 in Ho. destruct (Tf a _ _ _ Ho K1 H2) as [K2 R2].
    split; [assumption|]. now apply (runs_trans _ _ w1).
  - destruct (Tm _ _ _ Ho Hp H1) as [K1 R1]. split; [now apply He|assumption].
Qed.
Lemma tri_catch {A} (P : node -> Prop) (m : M A) (h : exn -> M A) (R : res A -> node -> Prop) (Q : res A -> node -> Prop) :
  tri I P m R -> (forall e, tri I (R (Err e)) (h e) Q) -> (forall a s, R (Ok a) s -> Q (Ok a) s) -> tri I P (catch m h) Q.
Proof.
  intros Tm Tf He w r w' Ho Hp H. apply catch_inv in H as [(a & H1 & ->)|(e & w1 & H1 & H2)].
  - destruct (Tm _ _ _ Ho Hp H1) as [K1 R1]. split; [now apply He|assumption].
  - destruct (Tm _ _ _ Ho Hp H1) as [K1 R1]. pose proof R1 as (F1 & _). rewrite <- F1 in Ho. destruct (Tf e _ _ _ Ho K1 H2) as [K2 R2].
    split; [assumption|]. now apply (runs_trans _ _ w1).
Qed.
Lemma tri_ret {A} (P : node -> Prop) (a : A) (Q : res A -> node -> Prop) : (forall s, P s -> Q (Ok a) s) -> tri I P (ret a) Q.
Proof. intros K w r w' _ Hp H. injection H as <- <-. split; [now apply K|apply runs_refl]. Qed.
Lemma tri_raise {A} (P : node -> Prop) (e : exn) (Q : res A -> node -> Prop) : (forall s, P s -> Q (Err e) s) -> tri I P (raise e) Q.
Proof. intros K w r w' _ Hp H. injection H as <- <-. split; [now apply K|apply runs_refl]. Qed.
Lemma tri_lift {A} (P : node -> Prop) (x : res A) (Q : res A -> node -> Prop) : (forall s, P s -> Q x s) -> tri I P (lift x) Q.
Proof. intros K w r w' _ Hp H. injection H as <- <-. split; [now apply K|apply runs_refl]. Qed.
Lemma tri_when (P : node -> Prop) (b : bool) (m : M unit) (Q : res unit -> node -> Prop) :
  (b = true -> tri I P m Q) -> (b = false -> forall s, P s -> Q (Ok tt) s) -> tri I P (when b m) Q.
Proof. intros A B. destruct b; [now apply A|]. apply tri_ret. now apply B. Qed.

(** Runs that change nothing. *)
Definition quiet {A} (m : M A) : Prop := forall w r w', m w = (r, w') -> same w w'.
Lemma tri_quiet {A} (P : node -> Prop) (m : M A) : quiet m -> tri I P m (fun _ s => P s).
Proof. intros Q w r w' _ Hp H. apply Q in H. split; [|now apply runs_same]. now destruct H as (-> & _). Qed.

Lemma tri_sys {A} (P : node -> Prop) (f : node -> place -> res (A * node)) (Q : res A -> node -> Prop) :
  (forall e s, P s -> Q (Err e) s) ->
  (forall s cwd a s', P s -> f s cwd = Ok (a, s') -> Q (Ok a) s' /\ I s') -> tri I P (sys f) Q.
Proof.
  intros He Hf w r w' _ Hp H. apply sys_inv in H as [(e & -> & S & _)|(a & fs & -> & E & C)].
  - split; [|now apply runs_same]. destruct S as (-> & _). now apply He.
  - apply (Hf _ _ _ _ Hp) in E as [E1 E2]. split; [|now apply (runs_changed _ fs)]. now destruct C as (-> & _).
Qed.
End Rules.

Lemma quiet_ask {A} (f : node -> place -> res A) : quiet (ask f).
Proof. intros w r w' H. now apply ask_inv in H. Qed.
Lemma quiet_ret {A} (a : A) : quiet (ret a).
Proof. intros w r w' H. injection H as <- <-. apply same_refl. Qed.
Lemma quiet_raise {A} (e : exn) : quiet (@raise A e).
Proof. intros w r w' H. injection H as <- <-. apply same_refl. Qed.
Lemma quiet_lift {A} (x : res A) : quiet (lift x).
Proof. intros w r w' H. injection H as <- <-. apply same_refl. Qed.
Lemma quiet_bind {A B} (m : M A) (f : A -> M B) : quiet m -> (forall a, quiet (f a)) -> quiet (bind m f).
Proof.
  intros Qm Qf w r w' H. apply bind_inv in H as [(a & w1 & H1 & H2)|(e & H1 & ->)]; [|now apply Qm in H1].
  apply Qm in H1. apply Qf in H2. now apply (same_trans _ w1).
Qed.
Lemma quiet_catch {A} (m : M A) (h : exn -> M A) : quiet m -> (forall e, quiet (h e)) -> quiet (catch m h).
Proof.
  intros Qm Qf w r w' H. apply catch_inv in H as [(a & H1 & ->)|(e & w1 & H1 & H2)]; [now apply Qm in H1|].
  apply Qm in H1. apply Qf in H2. now apply (same_trans _ w1).
Qed.
Lemma quiet_stat f p : quiet (sys_stat f p). Proof. apply quiet_ask. Qed.
Lemma quiet_readlink p : quiet (sys_readlink p). Proof. apply quiet_ask. Qed.
Lemma quiet_test f p g : quiet (test (sys_stat f p) g).
Proof. intros w r w' H. now apply test_inv in H. Qed.
Lemma quiet_exists p : quiet (p_exists p). Proof. apply quiet_test. Qed.
Lemma quiet_is_file p : quiet (p_is_file p). Proof. apply quiet_test. Qed.
Lemma quiet_is_dir p : quiet (p_is_dir p). Proof. apply quiet_test. Qed.
Lemma quiet_is_symlink p : quiet (p_is_symlink p). Proof. apply quiet_test. Qed.
#[export] Hint Resolve quiet_ask quiet_ret quiet_raise quiet_lift quiet_stat quiet_readlink quiet_test quiet_exists quiet_is_file
  quiet_is_dir quiet_is_symlink : quiet.
Ltac quiet_tac :=
  repeat first
    [ solve [eauto 2 with quiet]
    | apply quiet_bind; [|intro]
    | apply quiet_catch; [|intro]
    | match goal with |- quiet (match ?x with _ => _ end) => destruct x end
    | match goal with |- quiet (if ?x then _ else _) => destruct x end ].
Lemma quiet_broken p : quiet (p_is_broken_symlink p).
Proof. unfold p_is_broken_symlink. quiet_tac. Qed.
#[export] Hint Resolve quiet_broken : quiet.
