(** * Lemmas on what zip paths remember *)
From Coq Require Import String NArith Bool List Arith.
From Verif Require Import Model.Py Model.PurePath Model.RelPath Model.Fs Model.PathOps Model.Zip Model.ZipMemo Spec.ZipSpec Spec.ZipMemoSpec
  Proofs.PyLemmas Proofs.RmtreeProofs Proofs.ZipProofs.
Import ListNotations.

Section Memo.
Variable path_at : nat -> ppath.

(** The dictionary has what is on the disk. *)
Definition true_zips (d : disk) (c : list (ppath * list zinfo)) : Prop := forall z l, known z c = Some l -> d_zip d z = Ok l.
Lemma load_true d z c r c' : true_zips d c -> load d z c = (r, c') -> r = d_zip d z /\ true_zips d c'.
Proof.
  intros T. unfold load. destruct (known z c) as [l|] eqn:K.
  - intro H. injection H as <- <-. split; [symmetry; now apply T|exact T].
  - destruct (d_zip d z) as [l|e] eqn:E; intro H; injection H as <- <-; (split; [reflexivity|]); [|exact T].
    intros z' l' H. unfold known in H. cbn [find fst] in H. destruct (pp_eqb z' z) eqn:Q.
    + cbn in H. injection H as <-. apply pp_eqb_eq in Q. now subst.
    + exact (T z' l' H).
Qed.
Lemma zpath_new_true d abs parts : forall c r c', true_zips d c -> zpath_new d abs parts c = (r, c') ->
  r = zip_path_of (d_is_zip d) (d_zip d) abs parts /\ true_zips d c'.
Proof.
  induction parts as [|x p IH]; intros c r c' T H; cbn [zpath_new zip_path_of] in *; [injection H as <- <-; now split|].
  destruct (zpath_new d abs p c) as [[pzp|e] c1] eqn:E; destruct (IH _ _ _ T E) as [<- T1]; cbn [rbind]; [|injection H as <- <-; now split].
  cbv zeta in H. unfold taken in H. destruct (_ && _ || _)%bool; [|injection H as <- <-; now split].
  destruct (load d (mkPP abs (rev (x :: p))) c1) as [[l|e] c2] eqn:L; destruct (load_true _ _ _ _ _ T1 L) as [K T2]; rewrite <- K; injection H as <- <-; now split.
Qed.


(** Everything remembered is what would be found now. *)
Definition zp_of (d : disk) (i : nat) : res (option ppath) := zip_path (d_is_zip d) (d_zip d) (path_at i).
Definition rel_of (d : disk) (i : nat) : res (option (list zinfo * ppath)) := zip_relative_path (d_is_zip d) (d_zip d) (path_at i).
Definition holds (d : disk) (s : zmem) : Prop :=
  true_zips d (c_zips s) /\ forall i, (forall v, m_zip (c_memo s i) = Some v -> zp_of d i = Ok v) /\ (forall v, m_rel (c_memo s i) = Some v -> rel_of d i = Ok v).

Lemma zip_path_ok d abs parts : sound d (mkPP abs (rev parts)) -> exists v, zip_path_of (d_is_zip d) (d_zip d) abs parts = Ok v.
Proof.
  induction parts as [|x p IH]; intro S; cbn [zip_path_of]; [now exists None|].
  assert (U : forall z, at_or_below z (mkPP abs (rev p)) -> at_or_below z (mkPP abs (rev (x :: p)))).
  { intros z W. apply at_or_below_parts in W as (A & l & B). apply at_or_below_parts. split; [exact A|]. exists (l ++ [x]). cbn [pp_parts rev] in *. rewrite B. now rewrite app_assoc. }
  destruct IH as (v & E); [intros z W; exact (S z (U z W))|]. rewrite E. cbn [rbind].
  destruct (_ && _ || _)%bool eqn:B; [|now exists v].
  destruct (S (mkPP abs (rev (x :: p)))) as (l & L); [now left| |rewrite L; cbn [rbind]; now eexists].
  split; [cbn [pp_parts rev]; intro K; apply app_eq_nil in K as [_ K]; discriminate K|].
  apply orb_true_iff in B as [B|B]; [|now left]. apply andb_true_iff in B as [B1 B2]. right. split; [exact B2|].
  intros q (A & y & m & Q) Ne. destruct v; [discriminate B1|].
  assert (Z : zip_path (d_is_zip d) (d_zip d) (mkPP abs (rev p)) = Ok None) by (unfold zip_path; cbn [pp_abs pp_parts]; now rewrite rev_involutive).
  refine (zip_path_spec _ _ _ None Z q _ Ne). apply at_or_below_parts. split; [exact A|]. cbn [pp_parts rev] in *.
  destruct (exists_last (l := y :: m)) as (m' & c & Em); [discriminate|]. rewrite Em, app_assoc in Q. apply app_inj_tail in Q as [Q _]. now exists m'.
Qed.
Lemma zpath_true d i s : true_zips d (c_zips s) -> (forall v, m_zip (c_memo s i) = Some v -> zp_of d i = Ok v) -> sound d (path_at i) ->
  exists v s', zpath path_at d i s = (Ok v, s') /\ zp_of d i = Ok v /\ true_zips d (c_zips s') /\
    c_memo s' i = mkMemo (Some v) (m_rel (c_memo s i)) /\ forall j, j <> i -> c_memo s' j = c_memo s j.
Proof.
  intros T Z S. unfold zpath. destruct (m_zip (c_memo s i)) as [v|] eqn:M.
  { exists v, s. split; [reflexivity|]. split; [now apply Z|]. split; [exact T|]. split; [rewrite <- M; now destruct (c_memo s i)|reflexivity]. }
  assert (K : forall j v s0, j <> i -> c_memo (set_mzip i v s0) j = c_memo s0 j) by (intros j v s0 J; cbn; now apply Nat.eqb_neq in J; rewrite J).
  assert (K' : forall v s0, c_memo (set_mzip i v s0) i = mkMemo (Some v) (m_rel (c_memo s0 i))) by (intros; cbn; now rewrite Nat.eqb_refl).
  destruct (zip_path_ok d (pp_abs (path_at i)) (rev (pp_parts (path_at i)))) as (v & E); [rewrite rev_involutive; now destruct (path_at i)|].
  cbv zeta. destruct (path_at i) as [abs parts] eqn:Pi. cbn [pp_abs pp_parts] in *.
  assert (Zp : zp_of d i = Ok v) by (unfold zp_of, zip_path; now rewrite Pi). clear Z.
  assert (R : rev (rev parts) = parts) by apply rev_involutive. destruct (rev parts) as [|x r].
  - exists None, (set_mzip i None s). split; [reflexivity|]. split; [cbn in E; congruence|]. split; [exact T|]. split; [apply K'|intros j J; now apply K].
  - cbn [zip_path_of] in E. destruct (zpath_new d abs r (c_zips s)) as [q c] eqn:Q. destruct (zpath_new_true _ _ _ _ _ _ T Q) as [Eq Tc]. rewrite <- Eq in E.
    destruct q as [pzp|e]; [|discriminate E]. cbn [rbind] in E. rewrite R in E. unfold taken. destruct (_ && _ || _)%bool.
    + destruct (load d (mkPP abs parts) (c_zips (set_mzip i (Some (mkPP abs parts)) (set_zips c s)))) as [o c2] eqn:L.
      destruct (load_true _ _ _ _ _ Tc L) as [Lo T2]. rewrite <- Lo in E. destruct o as [l|e]; [|discriminate E]. cbn [rbind] in E. injection E as <-.
      eexists _, _. split; [reflexivity|]. split; [exact Zp|]. split; [exact T2|]. split; [exact (K' _ (set_zips c s))|intros j J; exact (K j _ (set_zips c s) J)].
    + injection E as <-. eexists _, _. split; [reflexivity|]. split; [exact Zp|]. split; [exact Tc|]. split; [exact (K' _ (set_zips c s))|intros j J; exact (K j _ (set_zips c s) J)].
Qed.
Lemma zrel_true d i s : true_zips d (c_zips s) -> (forall v, m_zip (c_memo s i) = Some v -> zp_of d i = Ok v) ->
  (forall v, m_rel (c_memo s i) = Some v -> rel_of d i = Ok v) -> sound d (path_at i) ->
  exists v s', zrel path_at d i s = (Ok v, s') /\ rel_of d i = Ok v /\ true_zips d (c_zips s') /\
    (forall u, m_zip (c_memo s' i) = Some u -> zp_of d i = Ok u) /\ m_rel (c_memo s' i) = Some v /\ forall j, j <> i -> c_memo s' j = c_memo s j.
Proof.
  intros T Z Rl S. unfold zrel. destruct (m_rel (c_memo s i)) as [v|] eqn:M.
  { exists v, s. split; [reflexivity|]. split; [now apply Rl|]. split; [exact T|]. split; [exact Z|]. split; [exact M|reflexivity]. }
  assert (K : forall j v s0, j <> i -> c_memo (set_mrel i v s0) j = c_memo s0 j) by (intros j v s0 J; cbn; now apply Nat.eqb_neq in J; rewrite J).
  assert (K' : forall v s0, c_memo (set_mrel i v s0) i = mkMemo (m_zip (c_memo s0 i)) (Some v)) by (intros; cbn; now rewrite Nat.eqb_refl).
  destruct (zpath_true d i (set_mrel i None s)) as (v & s1 & E & Zp & T1 & M1 & J1); [exact T|rewrite K'; exact Z|exact S|]. rewrite E.
  rewrite K' in M1. cbn [m_rel] in M1. destruct v as [z|].
  - destruct (zip_relative _ _ _ _ Zp) as (l & r & F & Rr & _). destruct (load d z (c_zips s1)) as [o c] eqn:L.
    destruct (load_true _ _ _ _ _ T1 L) as [Lo T2]. rewrite F in Lo. subst o.
    assert (Rt : relative_to (path_at i) z = Ok r).
    { unfold zip_relative_path in Rr. unfold zp_of in Zp. rewrite Zp in Rr. cbn [rbind] in Rr. rewrite F in Rr. cbn [rbind] in Rr.
      destruct (relative_to (path_at i) z) as [q|e]; cbn [rbind] in Rr; [|discriminate Rr]. injection Rr as ->. reflexivity. }
    cbv zeta. rewrite Rt. eexists _, _. split; [reflexivity|]. split; [exact Rr|]. split; [exact T2|].
    split; [rewrite K'; cbn [m_zip]; change (c_memo (set_zips c s1)) with (c_memo s1); rewrite M1; cbn [m_zip]; congruence|].
    split; [now rewrite K'|]. intros j J. rewrite K by exact J. change (c_memo (set_zips c s1)) with (c_memo s1). rewrite J1 by exact J. now apply K.
  - exists None, s1. split; [reflexivity|]. split; [unfold rel_of, zip_relative_path; unfold zp_of in Zp; now rewrite Zp|]. split; [exact T1|].
    split; [rewrite M1; cbn [m_zip]; congruence|]. split; [now rewrite M1|]. intros j J. rewrite J1 by exact J. now apply K.
Qed.

(** The answers that are computed without a memory *)
Definition plain_answer (d : disk) (i : nat) (q : question) : answer :=
  match q with
  | QExists => AExists (zp_exists (d_is_zip d) (d_zip d) (d_there d) (path_at i))
  | QRchildren => ARchildren (match zp_rchildren (d_is_zip d) (d_zip d) (path_at i) with Ok (Some l) => Ok l | Ok None => d_below d (path_at i) | Err e => Err e end)
  end.
Lemma ask_true d i q s : holds d s -> sound d (path_at i) -> exists s', ask_one path_at d i q s = (plain_answer d i q, s') /\ holds d s'.
Proof.
  intros [T H] S. destruct (H i) as [Z R]. destruct (zpath_true d i s T Z S) as (v & s1 & E1 & Zp & T1 & M1 & J1).
  assert (H1 : holds d s1).
  { split; [exact T1|]. intro j. destruct (Nat.eq_dec j i) as [->|J]; [|rewrite (J1 j J); apply H]. rewrite M1. cbn [m_zip m_rel]. split; [congruence|exact R]. }
  destruct (zrel_true d i s1 T1 (proj1 (proj2 H1 i)) (proj2 (proj2 H1 i)) S) as (u & s2 & E2 & Ru & T2 & Z2 & M2 & J2).
  assert (H2 : holds d s2).
  { split; [exact T2|]. intro j. destruct (Nat.eq_dec j i) as [->|J]; [|rewrite (J2 j J); apply H1]. split; [exact Z2|]. rewrite M2. congruence. }
  unfold zp_of in Zp. unfold rel_of in Ru. destruct q; cbn [ask_one plain_answer].
  - unfold q_exists, zp_exists. rewrite E1, Zp. cbn [rbind]. destruct (_ && _)%bool; [exists s1; now split|]. rewrite E2, Ru. cbn [rbind].
    destruct u as [[l r]|]; exists s2; now split.
  - unfold q_rchildren, zp_rchildren. rewrite E1, Zp. cbn [rbind]. destruct v as [z|]; [|exists s1; now split]. rewrite E2, Ru. cbn [rbind].
    destruct u as [[l r]|]; exists s2; now split.
Qed.
Lemma holds_fresh d : holds d fresh.
Proof. split; [intros z l H; discriminate H|]. intro i. split; intros v H; discriminate H. Qed.
Lemma first_plain d i q : sound d (path_at i) -> first_answer path_at d i q = plain_answer d i q.
Proof. intro S. unfold first_answer. destruct (ask_true d i q fresh (holds_fresh d) S) as (s' & -> & _). reflexivity. Qed.
Lemma same_path d d' abs parts : same_zips d d' -> zip_path_of (d_is_zip d') (d_zip d') abs parts = zip_path_of (d_is_zip d) (d_zip d) abs parts.
Proof.
  intro S. induction parts as [|x p IH]; cbn [zip_path_of]; [reflexivity|]. rewrite IH. destruct (zip_path_of (d_is_zip d) (d_zip d) abs p) as [v|e]; [|reflexivity]. cbn [rbind].
  destruct (S (mkPP abs (rev (x :: p)))) as [A B]. now rewrite A, B.
Qed.
Lemma same_holds d d' s : same_zips d d' -> holds d s -> holds d' s.
Proof.
  intros S [T H]. split; [intros z l K; rewrite (proj2 (S z)); now apply T|]. intro i. destruct (H i) as [Z R].
  assert (Zi : zp_of d' i = zp_of d i) by (exact (same_path d d' _ _ S)). split; [intros v K; rewrite Zi; now apply Z|].
  intros v K. rewrite <- (R v K). unfold rel_of, zip_relative_path. unfold zp_of in Zi. rewrite Zi. destruct (zip_path (d_is_zip d) (d_zip d) (path_at i)) as [[z|]|]; cbn [rbind]; [|reflexivity..].
  now rewrite (proj2 (S z)).
Qed.
Lemma answers_true es : forall d s, holds d s -> steady path_at d es ->
  Forall (fun x => match x with (d, i, q, a) => a = first_answer path_at d i q end) (answers path_at es d s).
Proof.
  induction es as [|[i q|d'] es IH]; intros d s H St; cbn [answers steady] in *; [constructor| |].
  - destruct St as [S St]. destruct (ask_true d i q s H S) as (s' & E & H'). rewrite E. constructor; [symmetry; now apply first_plain|exact (IH _ _ H' St)].
  - destruct St as [S St]. exact (IH _ _ (same_holds _ _ _ S H) St).
Qed.
Lemma all_first d es : steady path_at d es ->
  Forall (fun x => match x with (d, i, q, a) => a = first_answer path_at d i q end) (answers path_at es d fresh).
Proof. intro S. exact (answers_true es d fresh (holds_fresh d) S). Qed.
End Memo.
