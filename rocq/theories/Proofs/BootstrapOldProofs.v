(** * Lemmas on directories that are gone from the remote *)
From Coq Require Import String NArith Arith Bool List Permutation Lia.
From Verif Require Import Model.Py Model.PurePath Model.Fs Model.PathOps Model.BootstrapOld Spec.BootstrapOldSpec
  Proofs.PyLemmas Proofs.RmtreeProofs.
Import ListNotations.

Lemma is_in_spec d l : is_in d l = true <-> In d l.
Proof.
  unfold is_in. rewrite existsb_exists. split.
  - intros (x & X & E). apply pp_eqb_eq in E. now subst.
  - intros H. exists d. split; [exact H|]. now apply pp_eqb_eq.
Qed.
Lemma in_minus d a b : In d (minus a b) <-> gone_there a b d.
Proof.
  unfold minus, gone_there. rewrite filter_In, negb_true_iff, <- not_true_iff_false, is_in_spec. tauto.
Qed.
Lemma insert_perm x l : Permutation (insert x l) (x :: l).
Proof.
  induction l as [|y l IH]; [reflexivity|]. cbn. destruct (Nat.leb _ _); [reflexivity|].
  rewrite IH. apply perm_swap.
Qed.
Lemma by_text_perm l : Permutation (by_text l) l.
Proof. induction l as [|x l IH]; [reflexivity|]. cbn. rewrite insert_perm. now constructor. Qed.
Lemma insert_sorted x l : shorter_first l -> shorter_first (insert x l).
Proof.
  induction 1 as [|y l Y S IH]; [repeat constructor; intros e []|]. cbn. destruct (Nat.leb (text_len x) (text_len y)) eqn:E.
  - apply Nat.leb_le in E. constructor; [|now constructor]. intros e [<-|H]; [exact E|]. specialize (Y e H). unfold text_len in E. lia.
  - apply Nat.leb_gt in E. constructor; [|exact IH]. intros e H. apply (Permutation_in _ (insert_perm x l)) in H.
    destruct H as [<-|H]; [unfold text_len in E; lia|now apply Y].
Qed.
Lemma by_text_sorted l : shorter_first (by_text l).
Proof. induction l as [|x l IH]; [constructor|]. now apply insert_sorted. Qed.

Section Old.
Variable cached : ppath -> bool.
Variable handed : nat -> list ppath -> list ppath.
Hypothesis HO : hands_out handed.

Lemma pass_refreshed : forall thisl dirs, fst (one_pass cached thisl dirs) = filter cached thisl.
Proof.
  induction thisl as [|d r IH]; intros dirs; [reflexivity|]. cbn. destruct (cached d) eqn:E; [|apply IH].
  specialize (IH (filter (fun x => negb (startswith (pp_str x) (pp_str d))) dirs)).
  destruct (one_pass _ _ _) as [e l]. cbn in *. now rewrite IH.
Qed.
Lemma pass_left : forall thisl dirs x, In x (snd (one_pass cached thisl dirs)) <->
  In x dirs /\ forall d, In d thisl -> cached d = true -> ~ text_below d x.
Proof.
  induction thisl as [|d r IH]; intros dirs x; [cbn; firstorder|]. cbn. destruct (cached d) eqn:E.
  - specialize (IH (filter (fun x => negb (startswith (pp_str x) (pp_str d))) dirs) x).
    destruct (one_pass _ _ _) as [e l]. cbn in *. rewrite IH, filter_In, negb_true_iff, <- not_true_iff_false, startswith_spec.
    unfold text_below. split.
    + intros [[A B] C]. split; [exact A|]. intros d' [<-|D] K; [exact B|now apply C].
    + intros [A B]. split; [split; [exact A|]|]; [apply (B d); auto|]. intros d' D. apply B. now right.
  - rewrite IH. split; intros [A B]; (split; [exact A|]); intros d' D K; [|apply B; auto].
    destruct D as [<-|D]; [congruence|now apply B].
Qed.
Lemma filter_sorted f l : shorter_first l -> shorter_first (filter f l).
Proof.
  induction 1 as [|d l D S IH]; [constructor|]. cbn. destruct (f d); [|exact IH]. constructor; [|exact IH].
  intros e H. apply filter_In in H as [H _]. auto.
Qed.
Lemma filter_perm (f : ppath -> bool) (a b : list ppath) : Permutation a b -> Permutation (filter f a) (filter f b).
Proof.
  induction 1 as [|x a b P IH|x y a|a b c P IH Q IH2]; cbn; [reflexivity|destruct (f x); [now constructor|exact IH]| |now transitivity (filter f b)].
  destruct (f x), (f y); try reflexivity. apply perm_swap.
Qed.
Lemma in_thisl n old d : In d (by_text (handed n old)) <-> In d old.
Proof.
  split; intros H.
  - apply (Permutation_in _ (HO n old)), (Permutation_in _ (by_text_perm _)), H.
  - apply (Permutation_in _ (Permutation_sym (by_text_perm _))), (Permutation_in _ (Permutation_sym (HO n old))), H.
Qed.
(** None of what is left is refreshed in the passes that follow. *)
Definition stuck (dirs rd : list ppath) : Prop := forall d, gone_there dirs rd d -> cached d = false.
Lemma pass_stuck thisl : (forall d, In d thisl -> cached d = false) -> forall dirs, one_pass cached thisl dirs = ([], dirs).
Proof.
  induction thisl as [|d r IH]; intros F dirs; [reflexivity|]. cbn. rewrite (F d) by now left. apply IH. intros; apply F; now right.
Qed.
Lemma stuck_loop rd : forall fuel n dirs, stuck dirs rd -> (exists d, gone_there dirs rd d) ->
  old_loop cached handed fuel n dirs rd = ([], Some OutOfFuel).
Proof.
  induction fuel as [|f IH]; intros n dirs S (d & D); cbn; destruct (minus dirs rd) as [|o old] eqn:E;
    try (exfalso; apply in_minus in D; rewrite E in D; destruct D; fail); [reflexivity|].
  rewrite pass_stuck.
  - now rewrite (IH (Datatypes.S n) dirs S (ex_intro _ d D)).
  - intros x X. apply in_thisl in X. rewrite <- E in X. now apply S, in_minus.
Qed.
Definition stays (dirs rd : list ppath) (x : ppath) : Prop :=
  gone_there dirs rd x /\ forall d, gone_there dirs rd d -> cached d = true -> ~ text_below d x.
Lemma old_stays dirs rd n x : gone_there (snd (one_pass cached (by_text (handed n (minus dirs rd))) dirs)) rd x <-> stays dirs rd x.
Proof.
  unfold gone_there at 1. rewrite pass_left. unfold stays, gone_there at 1. split.
  - intros [[A B] C]. split; [now split|]. intros d D. apply B. now apply in_thisl, in_minus.
  - intros [[A C] B]. split; [split; [exact A|]|exact C]. intros d D. apply B. now apply in_thisl, in_minus in D.
Qed.
Lemma below_refl d : text_below d d.
Proof. exists []. now rewrite app_nil_r. Qed.
Lemma after_stuck dirs rd n : stuck (snd (one_pass cached (by_text (handed n (minus dirs rd))) dirs)) rd.
Proof.
  intros d D. apply old_stays in D as [G D]. destruct (cached d) eqn:E; [|reflexivity]. destruct (D d G E (below_refl d)).
Qed.
Lemma no_minus dirs rd : minus dirs rd = [] <-> forall d, ~ gone_there dirs rd d.
Proof.
  split; [intros E d D; apply in_minus in D; rewrite E in D; destruct D|]. intros N. destruct (minus dirs rd) as [|o l] eqn:E; [reflexivity|].
  destruct (N o). apply in_minus. rewrite E. now left.
Qed.
Lemma loop_ends dirs rd fuel n : (forall x, ~ stays dirs rd x) -> 0 < fuel ->
  exists l, old_loop cached handed fuel n dirs rd = (l, None) /\ Permutation l (filter cached (minus dirs rd)) /\ shorter_first l.
Proof.
  intros NS F. destruct fuel as [|f]; [lia|]. cbn. destruct (minus dirs rd) as [|o old] eqn:E.
  - exists []. split; [reflexivity|]. split; [reflexivity|constructor].
  - rewrite <- E. pose proof (pass_refreshed (by_text (handed n (minus dirs rd))) dirs) as R. pose proof (fun x => old_stays dirs rd n x) as L.
    destruct (one_pass cached (by_text (handed n (minus dirs rd))) dirs) as [e l]. cbn in R, L. subst e.
    assert (Z : minus l rd = []). { apply no_minus. intros d D. apply L in D. exact (NS d D). }
    assert (K : old_loop cached handed f (Datatypes.S n) l rd = ([], None)) by (destruct f; cbn; now rewrite Z).
    rewrite K, app_nil_r. eexists. split; [reflexivity|]. split; [|apply filter_sorted, by_text_sorted].
    assert (P : Permutation (by_text (handed n (minus dirs rd))) (minus dirs rd)) by (rewrite by_text_perm; apply HO).
    now apply filter_perm.
Qed.
Lemma loop_never dirs rd x : stays dirs rd x -> forall fuel n, snd (old_loop cached handed fuel n dirs rd) = Some OutOfFuel.
Proof.
  intros S fuel n. destruct fuel as [|f]; cbn; destruct (minus dirs rd) as [|o old] eqn:E;
    try (exfalso; destruct S as [S _]; apply in_minus in S; rewrite E in S; destruct S; fail); [reflexivity|].
  rewrite <- E. pose proof (after_stuck dirs rd n) as K. pose proof (proj2 (old_stays dirs rd n x) S) as L.
  destruct (one_pass cached (by_text (handed n (minus dirs rd))) dirs) as [e l]. cbn in K, L.
  now rewrite (stuck_loop rd f (Datatypes.S n) l K (ex_intro _ x L)).
Qed.
Lemma stays_dec dirs rd : (exists x, stays dirs rd x) \/ forall x, ~ stays dirs rd x.
Proof.
  destruct (minus (snd (one_pass cached (by_text (handed 0 (minus dirs rd))) dirs)) rd) as [|x l] eqn:E.
  - right. intros x S. apply (proj1 (no_minus _ _) E x). now apply old_stays.
  - left. exists x. apply (old_stays dirs rd 0). apply in_minus. rewrite E. now left.
Qed.
Lemma loop_exact dirs rd n : (exists fuel, snd (old_loop cached handed fuel n dirs rd) = None) <->
  forall d, gone_there dirs rd d -> cached d = true \/ exists d', gone_there dirs rd d' /\ cached d' = true /\ text_below d' d.
Proof.
  split.
  - intros (fuel & E) d D. destruct (cached d) eqn:C; [now left|right]. destruct (stays_dec dirs rd) as [(x & S)|N].
    + rewrite (loop_never _ _ _ S) in E. discriminate.
    + assert (K : exists d', In d' (minus dirs rd) /\ cached d' = true /\ startswith (pp_str d) (pp_str d') = true).
      { destruct (existsb (fun d' => cached d' && startswith (pp_str d) (pp_str d')) (minus dirs rd)) eqn:X.
        - apply existsb_exists in X as (d' & A & B). apply andb_true_iff in B as [B1 B2]. now exists d'.
        - exfalso. apply (N d). split; [exact D|]. intros d' D' C' T. apply startswith_spec in T. apply in_minus in D'.
          apply not_true_iff_false in X. apply X. apply existsb_exists. exists d'. split; [exact D'|]. now rewrite C', T. }
      destruct K as (d' & A & B & S). exists d'. split; [now apply in_minus|]. split; [exact B|]. now apply startswith_spec.
  - intros H. exists 1. assert (N : forall x, ~ stays dirs rd x).
    { intros x [G S]. destruct (H x G) as [C|(d' & A & B & T)]; [exact (S x G C (below_refl x))|exact (S d' A B T)]. }
    destruct (loop_ends dirs rd 1 n N ltac:(lia)) as (l & -> & _). reflexivity.
Qed.
Lemma refreshed_exact dirs rd n fuel l : NoDup dirs -> old_loop cached handed fuel n dirs rd = (l, None) ->
  shorter_first l /\ NoDup l /\ forall d, In d l <-> gone_there dirs rd d /\ cached d = true.
Proof.
  intros ND E. destruct (stays_dec dirs rd) as [(x & S)|N].
  { apply (f_equal snd) in E. rewrite (loop_never _ _ _ S) in E. discriminate. }
  destruct fuel as [|f].
  - cbn in E. destruct (minus dirs rd) eqn:M; [|discriminate]. injection E as <-. split; [constructor|]. split; [constructor|].
    intros d. split; [intros []|]. intros [G _]. apply in_minus in G. rewrite M in G. destruct G.
  - destruct (loop_ends dirs rd (Datatypes.S f) n N ltac:(lia)) as (l' & E' & P & SF). rewrite E in E'. injection E' as <-.
    split; [exact SF|]. split.
    + apply (Permutation_NoDup (Permutation_sym P)). unfold minus. now repeat apply NoDup_filter.
    + intros d. rewrite <- in_minus. split; intros H.
      * apply (Permutation_in _ P), filter_In in H. exact H.
      * apply (Permutation_in _ (Permutation_sym P)), filter_In. exact H.
Qed.
End Old.
