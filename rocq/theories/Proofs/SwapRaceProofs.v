(** * Exchanging two paths from several programs *)
From Coq Require Import Bool List Lia Arith Permutation.
From Verif Require Import Model.Py Model.SwapRace Spec.SwapRaceSpec.
Import ListNotations.

(** ** Lists *)
Lemma flat_pick {A} (f : nat -> list A) i : forall l, NoDup l -> In i l ->
  Permutation (flat_map f l) (f i ++ flat_map (fun j => if Nat.eqb j i then [] else f j) l).
Proof.
  induction l as [|k l IH]; intros N H; [easy|]. inversion N; subst. cbn. destruct H as [->|H].
  - rewrite Nat.eqb_refl. cbn. apply Permutation_app_head.
    assert (Q : flat_map (fun j => if Nat.eqb j i then [] else f j) l = flat_map f l).
    { clear IH N H3. induction l as [|m l IH]; [easy|]. cbn. destruct (Nat.eqb_spec m i) as [->|]; [exfalso; apply H2; now left|].
      f_equal. apply IH. intro; apply H2; now right. }
    now rewrite Q.
  - destruct (Nat.eqb_spec k i) as [->|]; [contradiction|].
    rewrite (IH H3 H). rewrite !app_assoc. apply Permutation_app_tail, Permutation_app_comm.
Qed.
Lemma flat_none {A} (f : nat -> list A) : forall l, (forall i, In i l -> f i = []) -> flat_map f l = [].
Proof. induction l as [|k l IH]; intro H; [easy|]. cbn. rewrite (H k (or_introl eq_refl)). apply IH. intros; apply H; now right. Qed.
Lemma filter_ext_in' (f g : nat -> bool) : forall l, (forall j, In j l -> f j = g j) -> filter f l = filter g l.
Proof. induction l as [|k l IH]; intro H; [easy|]. cbn. rewrite (H k (or_introl eq_refl)), IH; [easy|]. intros; apply H; now right. Qed.
Lemma filter_more (f g : nat -> bool) i : forall l, NoDup l -> In i l -> (forall j, j <> i -> f j = g j) -> f i = false -> g i = true ->
  length (filter g l) = S (length (filter f l)).
Proof.
  induction l as [|k l IH]; intros N H D F G; [easy|]. inversion N; subst. cbn. destruct H as [->|H].
  - rewrite F, G. cbn. f_equal. f_equal. symmetry. apply filter_ext_in'. intros j Hj. apply D. intros ->. contradiction.
  - assert (k <> i) by (intros ->; contradiction). rewrite (D k H0). destruct (g k); cbn; now rewrite IH.
Qed.

Section P.
Variable E : Type.
Variables (ok a : nat -> bool) (x y : E) (n : nat).

(** What would be at path [b] if all who have something put it back; [v]: an odd number of exchanges *)
Definition cur (v b : bool) : E := if xorb v b then y else x.
Definition passed (p : wpc) : bool := match p with WBack | WRmdir | WDone (Ok _) => true | _ => false end.
Definition pcount (s : wstate E) : nat := length (filter (fun i => passed (w_pc E s i)) (seq 0 n)).

(** [h b]: who has what belongs at [b] *)
Definition idle (h : bool -> option nat) (i : nat) : Prop := forall b, h b <> Some i.
Definition pc_ok (h : bool -> option nat) (t : option (option E)) (i : nat) (p : wpc) : Prop :=
  match p with
  | WHere1 | WHere2 _ | WStat1 | WStat2 | WOpen1 | WOpen2 | WXchg | WTemp => idle h i /\ t = None
  | WAway | WRmdir => idle h i /\ t = Some None
  | WOver => h (negb (a i)) = Some i
  | WBack => h (a i) = Some i
  | WDone (Ok _) => idle h i /\ t = None
  | WDone (Err e) => e = OSErr ENOENT /\ (idle h i /\ t = Some None \/ h (negb (a i)) = Some i)
  end.
Record inv (h : bool -> option nat) (v : bool) (s : wstate E) : Prop := mkInv {
  i_at : forall b, match h b with
                   | None => w_path E s b = Some (cur v b)
                   | Some i => i < n /\ w_path E s b = None /\ w_temp E s i = Some (Some (cur v b))
                   end;
  i_two : forall i, h false = Some i -> h true = Some i -> False;
  i_pc : forall i, pc_ok h (w_temp E s i) i (w_pc E s i);
  i_odd : v = Nat.odd (pcount s) }.

Lemma start_inv : inv (fun _ => None) false (w_fresh E x y).
Proof.
  constructor.
  - intros []; reflexivity.
  - discriminate.
  - intro i. cbn. split; [intros b; discriminate|reflexivity].
  - unfold pcount. cbn. assert (Q : forall l, filter (fun _ : nat => false) l = []) by (induction l; easy). now rewrite Q.
Qed.

Lemma pc_ok_other h h' t j p : (forall b, h' b = Some j <-> h b = Some j) -> pc_ok h t j p -> pc_ok h' t j p.
Proof.
  intros D H. assert (I : idle h j -> idle h' j) by (intros K b Hb; apply (K b), D, Hb).
  destruct p as [| | | | | | | | | | | |[u|e]]; cbn in *; try tauto; try (now apply D).
  destruct H as (-> & [H|H]); split; [easy|left; tauto|easy|right; now apply D].
Qed.

Definition upd (s : wstate E) (i : nat) (p : wpc) (d : wdisk E) : wstate E :=
  mkWS E d (fun j => if Nat.eqb i j then p else w_pc E s j).
Lemma count_same s i p d : passed p = passed (w_pc E s i) -> pcount (upd s i p d) = pcount s.
Proof.
  intro H. unfold pcount. f_equal. apply filter_ext_in'. intros j _. cbn. destruct (Nat.eqb_spec i j) as [<-|]; [assumption|reflexivity].
Qed.
Lemma count_more s i p d : i < n -> passed (w_pc E s i) = false -> passed p = true -> pcount (upd s i p d) = S (pcount s).
Proof.
  intros L A B. unfold pcount. apply filter_more with (i := i).
  - apply seq_NoDup.
  - apply in_seq; lia.
  - intros j Hj. cbn. destruct (Nat.eqb_spec i j) as [<-|]; [congruence|reflexivity].
  - exact A.
  - cbn. now rewrite Nat.eqb_refl.
Qed.

Lemma move_inv h v s i p d h' v' :
  inv h v s ->
  (forall b, match h' b with
             | None => w_at E d b = Some (cur v' b)
             | Some j => j < n /\ w_at E d b = None /\ w_tmp E d j = Some (Some (cur v' b))
             end) ->
  (forall j, j <> i -> w_tmp E d j = w_temp E s j /\ forall b, h' b = Some j <-> h b = Some j) ->
  (forall j, h' false = Some j -> h' true = Some j -> False) ->
  pc_ok h' (w_tmp E d i) i p ->
  v' = Nat.odd (pcount (upd s i p d)) ->
  inv h' v' (upd s i p d).
Proof.
  intros [IA IT IP IO] A D T P O. constructor; try assumption.
  intro j. cbn. unfold w_temp. cbn. destruct (Nat.eqb_spec i j) as [<-|Nj]; [assumption|].
  destruct (D j) as (D1 & D2); [congruence|]. rewrite D1. apply (pc_ok_other h); [assumption|apply IP].
Qed.
Lemma stay_inv h v s i p : inv h v s -> pc_ok h (w_temp E s i) i p -> passed p = passed (w_pc E s i) -> inv h v (upd s i p (w_disk E s)).
Proof.
  intros I P Q. apply (move_inv h v); try assumption.
  - intro b. exact (i_at _ _ _ I b).
  - now intros j _.
  - exact (i_two _ _ _ I).
  - rewrite count_same by assumption. exact (i_odd _ _ _ I).
Qed.

Lemma step_inv h v s i : inv h v s -> i < n -> exists h' v', inv h' v' (wstep E ok a s i).
Proof.
  intros I L. assert (P := i_pc _ _ _ I i). assert (A := i_at _ _ _ I). assert (T := i_two _ _ _ I).
  assert (O := i_odd _ _ _ I).
  unfold wstep. 
  assert (U : forall p d, mkWS E d (fun j => if Nat.eqb i j then p else w_pc E s j) = upd s i p d) by reflexivity.
  destruct (w_pc E s i) as [| se | | | | | | | | | | |r] eqn:Ep; cbn [wturn]; cbn [pc_ok] in P.
  - exists h, v. rewrite U. apply stay_inv; [assumption|exact P|now rewrite Ep].
  - exists h, v. destruct se; [destruct (w_at E (w_disk E s) _)|]; rewrite U; (apply stay_inv; [assumption|exact P|now rewrite Ep]).
  - exists h, v. destruct (w_at E (w_disk E s) _); rewrite U; (apply stay_inv; [assumption|exact P|now rewrite Ep]).
  - exists h, v. destruct (w_at E (w_disk E s) _); rewrite U; (apply stay_inv; [assumption|exact P|now rewrite Ep]).
  - exists h, v. destruct (w_at E (w_disk E s) _); rewrite U; (apply stay_inv; [assumption|exact P|now rewrite Ep]).
  - exists h, v. destruct (w_at E (w_disk E s) _); rewrite U; (apply stay_inv; [assumption|exact P|now rewrite Ep]).
  - (* exchange *)
    destruct (w_at E (w_disk E s) (a i)) as [u|] eqn:Ea; [|exists h, v; rewrite U; apply stay_inv; [assumption|exact P|now rewrite Ep]].
    destruct (w_at E (w_disk E s) (negb (a i))) as [w|] eqn:Eb; [|exists h, v; rewrite U; apply stay_inv; [assumption|exact P|now rewrite Ep]].
    destruct (ok i); [|exists h, v; rewrite U; apply stay_inv; [assumption|exact P|now rewrite Ep]].
    assert (H1 := A (a i)). assert (H2 := A (negb (a i))). unfold w_path in H1, H2. rewrite Ea in H1. rewrite Eb in H2.
    destruct (h (a i)) as [k|] eqn:Ha; [destruct H1 as (_ & H1 & _); discriminate|].
    destruct (h (negb (a i))) as [k|] eqn:Hb; [destruct H2 as (_ & H2 & _); discriminate|].
    injection H1 as ->. injection H2 as ->. exists h, (negb v). rewrite U. apply (move_inv h v); try assumption.
    + intro b. assert (Hn : h b = None) by (destruct (a i), b; assumption). rewrite Hn. cbn.
      destruct (a i), b, v; reflexivity.
    + now intros j _.
    + rewrite count_more; [rewrite Nat.odd_succ, <- Nat.negb_odd; congruence|assumption|now rewrite Ep|reflexivity].
  - (* mkdtemp *)
    destruct P as (Pi & Pt). exists h, v. rewrite U. apply (move_inv h v); try assumption.
    + intro b. specialize (A b). destruct (h b) as [k|] eqn:Hb; [|exact A]. cbn. destruct (Nat.eqb_spec i k) as [<-|]; [now apply Pi in Hb|exact A].
    + intros j Nj. split; [|easy]. cbn. destruct (Nat.eqb_spec i j); [congruence|reflexivity].
    + cbn. rewrite Nat.eqb_refl. now split.
    + rewrite count_same; [assumption|now rewrite Ep].
  - (* target to temp *)
    destruct P as (Pi & Pt). destruct (w_at E (w_disk E s) (negb (a i))) as [w|] eqn:Eb.
    + assert (H2 := A (negb (a i))). unfold w_path in H2. rewrite Eb in H2.
      destruct (h (negb (a i))) as [k|] eqn:Hb; [destruct H2 as (_ & H2 & _); discriminate|]. injection H2 as ->.
      exists (fun b => if Bool.eqb (negb (a i)) b then Some i else h b), v. rewrite U. apply (move_inv h v); try assumption.
      * intro b. cbn. destruct (Bool.eqb_spec (negb (a i)) b) as [<-|Nb].
        { rewrite Nat.eqb_refl. now split. }
        specialize (A b). destruct (h b) as [k|] eqn:Hb'; [|exact A]. destruct (Nat.eqb_spec i k) as [<-|]; [now apply Pi in Hb'|exact A].
      * intros j Nj. split; [cbn; destruct (Nat.eqb_spec i j); [congruence|reflexivity]|].
        intro b. destruct (Bool.eqb_spec (negb (a i)) b) as [<-|Nb]; [|easy]. rewrite Hb. split; congruence.
      * intros j. assert (Q := Pi (a i)). destruct (a i); cbn; intros H1 H2; congruence.
      * cbn. now rewrite Bool.eqb_reflx.
      * rewrite count_same; [assumption|now rewrite Ep].
    + exists h, v. rewrite U. apply stay_inv; [assumption| |now rewrite Ep]. cbn. split; [easy|]. left. now split.
  - (* self to target *)
    destruct (w_at E (w_disk E s) (a i)) as [u|] eqn:Ea.
    + assert (H1 := A (a i)). assert (H2 := A (negb (a i))). unfold w_path in H1. rewrite Ea in H1. rewrite P in H2.
      destruct (h (a i)) as [k|] eqn:Ha; [destruct H1 as (_ & H1 & _); discriminate|]. injection H1 as ->. destruct H2 as (_ & H2 & H3).
      exists (fun b => if Bool.eqb (a i) b then Some i else None), (negb v). rewrite U. apply (move_inv h v); try assumption.
      * intro b. cbn. destruct (Bool.eqb_spec (a i) b) as [<-|Nb].
        { split; [assumption|]. split; [reflexivity|]. unfold w_temp in H3. rewrite H3. destruct (a i), v; reflexivity. }
        destruct (a i), b, v; try congruence; reflexivity.
      * intros j Nj. split; [reflexivity|]. intro b. destruct (Bool.eqb_spec (a i) b) as [<-|Nb]; [rewrite Ha; split; congruence|].
        assert (b = negb (a i)) as -> by (destruct (a i), b; cbn; congruence). rewrite P. split; congruence.
      * intros j. destruct (a i); cbn; congruence.
      * cbn. now rewrite Bool.eqb_reflx.
      * rewrite count_more; [rewrite Nat.odd_succ, <- Nat.negb_odd; congruence|assumption|now rewrite Ep|reflexivity].
    + exists h, v. rewrite U. apply stay_inv; [assumption| |now rewrite Ep]. cbn. split; [easy|]. now right.
  - (* temp to self *)
    assert (H1 := A (a i)). rewrite P in H1. destruct H1 as (_ & H1 & H2). unfold w_temp in H2. rewrite H2.
    exists (fun b => if Bool.eqb (a i) b then None else h b), v. rewrite U.
    assert (Q : forall b, a i <> b -> h b <> Some i). { intros b Nb Hb. apply (T i); destruct (a i), b; congruence. }
    apply (move_inv h v); try assumption.
    + intro b. cbn. destruct (Bool.eqb_spec (a i) b) as [<-|Nb]; [reflexivity|].
      specialize (A b). destruct (h b) as [k|] eqn:Hb'; [|exact A]. destruct (Nat.eqb_spec i k) as [<-|]; [now apply Q in Hb'|exact A].
    + intros j Nj. split; [cbn; destruct (Nat.eqb_spec i j); [congruence|reflexivity]|].
      intro b. destruct (Bool.eqb_spec (a i) b) as [<-|Nb]; [|easy]. rewrite P. split; congruence.
    + intros j. destruct (a i); cbn; congruence.
    + cbn. rewrite Nat.eqb_refl. split; [|easy]. intro b. destruct (Bool.eqb_spec (a i) b); [congruence|now apply Q].
    + rewrite count_same; [assumption|now rewrite Ep].
  - (* rmdir *)
    destruct P as (Pi & Pt). unfold w_temp in Pt. rewrite Pt. exists h, v. rewrite U. apply (move_inv h v); try assumption.
    + intro b. specialize (A b). destruct (h b) as [k|] eqn:Hb; [|exact A]. cbn. destruct (Nat.eqb_spec i k) as [<-|]; [now apply Pi in Hb|exact A].
    + intros j Nj. split; [|easy]. cbn. destruct (Nat.eqb_spec i j); [congruence|reflexivity].
    + cbn. rewrite Nat.eqb_refl. now split.
    + rewrite count_same; [assumption|now rewrite Ep].
  - exists h, v. rewrite U. apply stay_inv; [assumption|exact P|now rewrite Ep].
Qed.

Lemma run_inv l : Forall (fun i => i < n) l -> forall h v s, inv h v s -> exists h' v', inv h' v' (wrun E ok a s l).
Proof.
  induction 1 as [|i l Hi _ IH]; intros h v s I; [now exists h, v|].
  destruct (step_inv h v s i I Hi) as (h1 & v1 & I1). exact (IH _ _ _ I1).
Qed.
Lemma reach l : Forall (fun i => i < n) l -> exists h v, inv h v (wrun E ok a (w_fresh E x y) l).
Proof. intro F. exact (run_inv l F _ _ _ start_inv). Qed.
End P.

Lemma kept E ok a (x y : E) n l : Forall (fun i => i < n) l -> Permutation (w_all E n (wrun E ok a (w_fresh E x y) l)) [x; y].
Proof.
  intro F. destruct (reach E ok a x y n l F) as (h & v & I). set (s := wrun E ok a (w_fresh E x y) l) in *. clearbody s. clear F l.
  unfold w_all. set (f := fun i => match w_temp E s i with Some o => o2l E o | None => [] end).
  assert (N : forall i, idle h i -> f i = []).
  { intros i Hi. assert (P := i_pc _ _ _ _ _ _ _ _ I i). unfold f. destruct (w_pc E s i) as [| | | | | | | | | | | |[u|e]]; cbn in P;
    try (destruct P as (_ & ->); reflexivity); try (now apply Hi in P).
    destruct P as (_ & [(_ & ->)|P]); [reflexivity|now apply Hi in P]. }
  assert (A0 := i_at _ _ _ _ _ _ _ _ I false). assert (A1 := i_at _ _ _ _ _ _ _ _ I true). assert (T := i_two _ _ _ _ _ _ _ _ I).
  assert (C : Permutation [cur E x y v false; cur E x y v true] [x; y]). { unfold cur. destruct v; cbn; [apply perm_swap|reflexivity]. }
  destruct (h false) as [i|] eqn:H0, (h true) as [j|] eqn:H1.
  - destruct A0 as (Li & -> & A0), A1 as (Lj & -> & A1). cbn [o2l app].
    rewrite (flat_pick f i) by (try apply seq_NoDup; apply in_seq; lia).
    rewrite (flat_pick _ j) by (try apply seq_NoDup; apply in_seq; lia).
    destruct (Nat.eqb_spec j i) as [->|Nj]; [now destruct (T i)|]. rewrite flat_none.
    + unfold f. rewrite A0, A1. cbn. exact C.
    + intros k _. destruct (Nat.eqb_spec k j); [reflexivity|]. destruct (Nat.eqb_spec k i); [reflexivity|]. apply N. intros []; congruence.
  - destruct A0 as (Li & -> & A0). rewrite A1. cbn [o2l app].
    rewrite (flat_pick f i) by (try apply seq_NoDup; apply in_seq; lia). rewrite flat_none.
    + unfold f. rewrite A0. cbn. rewrite perm_swap. exact C.
    + intros k _. destruct (Nat.eqb_spec k i); [reflexivity|]. apply N. intros []; congruence.
  - destruct A1 as (Lj & -> & A1). rewrite A0. cbn [o2l app].
    rewrite (flat_pick f j) by (try apply seq_NoDup; apply in_seq; lia). rewrite flat_none.
    + unfold f. rewrite A1. cbn. exact C.
    + intros k _. destruct (Nat.eqb_spec k j); [reflexivity|]. apply N. intros []; congruence.
  - rewrite A0, A1. cbn [o2l app]. rewrite flat_none; [exact C|]. intros k _. apply N. intros []; congruence.
Qed.

(** When no program is in the middle *)
Lemma settled E ok a (x y : E) n l : Forall (fun i => i < n) l ->
  let s := wrun E ok a (w_fresh E x y) l in
  (forall i, i < n -> w_returned E s i \/ exists e, w_raised E s i e) ->
  let there b := if xorb (Nat.odd (w_count E n s)) b then y else x in
  (forall i, i < n -> w_returned E s i -> w_temp E s i = None) /\
  (forall i e, w_raised E s i e -> e = OSErr ENOENT /\ (w_temp E s i = Some None \/ w_temp E s i = Some (Some (there (negb (a i)))) /\ w_path E s (negb (a i)) = None)) /\
  (forall b, w_path E s b = Some (there b) \/
     w_path E s b = None /\ exists i, i < n /\ a i = negb b /\ w_raised E s i (OSErr ENOENT) /\ w_temp E s i = Some (Some (there b))).
Proof.
  intros F s Q there. destruct (reach E ok a x y n l F) as (h & v & I). fold s in I.
  assert (V : v = Nat.odd (w_count E n s)).
  { rewrite (i_odd _ _ _ _ _ _ _ _ I). unfold pcount, w_count. do 2 f_equal. apply filter_ext_in'. intros j Hj. apply in_seq in Hj.
    destruct (Q j) as [H|(e & H)]; [lia| |]; unfold w_returned, w_raised in H; rewrite H; reflexivity. }
  assert (W : forall b, there b = cur E x y v b) by (intro b; unfold there, cur; now rewrite V).
  split; [|split].
  - intros i _ R. assert (P := i_pc _ _ _ _ _ _ _ _ I i). unfold w_returned in R. rewrite R in P. apply P.
  - intros i e R. assert (P := i_pc _ _ _ _ _ _ _ _ I i). unfold w_raised in R. rewrite R in P. destruct P as (-> & [(_ & P)|P]); split; try reflexivity; [now left|].
    right. assert (A := i_at _ _ _ _ _ _ _ _ I (negb (a i))). rewrite P in A. destruct A as (_ & A1 & A2). rewrite W. now split.
  - intro b. assert (A := i_at _ _ _ _ _ _ _ _ I b). rewrite W. destruct (h b) as [i|] eqn:Hb; [right|now left].
    destruct A as (Li & A1 & A2). split; [assumption|]. exists i. split; [assumption|].
    assert (P := i_pc _ _ _ _ _ _ _ _ I i).
    destruct (Q i Li) as [H|(e & H)]; unfold w_returned, w_raised in H; rewrite H in P; cbn in P; [now apply (proj1 P) in Hb|].
    destruct P as (-> & [(P & _)|P]); [now apply P in Hb|]. split; [|now split].
    assert (T := i_two _ _ _ _ _ _ _ _ I i). destruct b, (a i); cbn in *; try reflexivity; exfalso; now apply T.
Qed.

Lemma count_all E n (s : wstate E) : (forall i, i < n -> w_returned E s i) -> w_count E n s = n.
Proof.
  intro H. unfold w_count. assert (G : forall l, (forall i, In i l -> i < n) -> length (filter (fun i => is_returned (w_pc E s i)) l) = length l).
  { induction l as [|i l IH]; intro K; [easy|]. cbn. rewrite (H i) by (apply K; now left). cbn. f_equal. apply IH. intros; apply K; now right. }
  rewrite G; [apply seq_length|]. intros i Hi. apply in_seq in Hi. lia.
Qed.
Lemma all_returned E ok a (x y : E) n l : Forall (fun i => i < n) l ->
  let s := wrun E ok a (w_fresh E x y) l in
  (forall i, i < n -> w_returned E s i) ->
  (forall b, w_path E s b = Some (if xorb (Nat.odd n) b then y else x)) /\ forall i, i < n -> w_temp E s i = None.
Proof.
  intros F s R. assert (Z := settled E ok a x y n l F). cbv zeta in Z. fold s in Z.
  destruct Z as (S1 & S2 & S3); [intros i Hi; left; now apply R|]. rewrite (count_all E n s R) in S3. split; [|intros i Hi; now apply S1, R].
  intro b. destruct (S3 b) as [H|(_ & i & Li & _ & Ra & _)]; [assumption|]. exfalso. specialize (R i Li). unfold w_returned, w_raised in *. congruence.
Qed.

(** ** With the exchange of the system *)
Definition trying (p : wpc) : Prop :=
  match p with WHere1 | WStat1 | WStat2 | WOpen1 | WOpen2 | WXchg => True | WHere2 se => se = true | WDone r => r = Ok tt | _ => False end.
Lemma atomic_run E ok a (x y : E) : (forall i, ok i = true) -> forall l s,
  (forall b, w_path E s b <> None) -> (forall i, w_temp E s i = None /\ trying (w_pc E s i)) ->
  let s' := wrun E ok a s l in (forall b, w_path E s' b <> None) /\ (forall i, w_temp E s' i = None /\ trying (w_pc E s' i)).
Proof.
  intros O. induction l as [|i l IH]; intros s A B; [now split|]. cbn. apply IH; clear IH.
  - intro b. unfold wstep. destruct (B i) as (_ & Bi). assert (A1 := A (a i)). assert (A2 := A (negb (a i))). unfold w_path in *.
    destruct (w_pc E s i) as [| [] | | | | | | | | | | |r]; cbn [wturn trying] in *; try contradiction; try discriminate;
      try (destruct (w_at E (w_disk E s) (a i)), (w_at E (w_disk E s) (negb (a i))); cbn; try congruence; apply A); try apply A.
    destruct (w_at E (w_disk E s) (a i)) as [u|]; [|congruence]. destruct (w_at E (w_disk E s) (negb (a i))) as [w|]; [|congruence].
    rewrite O. cbn. destruct (Bool.eqb (a i) b); [discriminate|]. destruct (Bool.eqb (negb (a i)) b); [discriminate|]. apply A.
  - intro j. unfold wstep. destruct (B i) as (_ & Bi). assert (A1 := A (a i)). assert (A2 := A (negb (a i))). destruct (B j) as (Tj & Bj).
    unfold w_temp, w_path in *.
    destruct (w_pc E s i) as [| [] | | | | | | | | | | |r] eqn:Ep; cbn [wturn trying] in *; try contradiction; try discriminate;
      (destruct (w_at E (w_disk E s) (a i)) as [u|]; [|congruence]); (destruct (w_at E (w_disk E s) (negb (a i))) as [w|]; [|congruence]);
      rewrite ?O; cbn; (split; [exact Tj|]); destruct (Nat.eqb_spec i j); cbn; auto.
Qed.
Lemma atomic E ok a (x y : E) n l : (forall i, ok i = true) -> Forall (fun i => i < n) l ->
  let s := wrun E ok a (w_fresh E x y) l in
  (forall b, w_path E s b = Some (if xorb (Nat.odd (w_count E n s)) b then y else x)) /\
  (forall i, w_temp E s i = None /\ forall e, ~ w_raised E s i e).
Proof.
  intros O F s. destruct (atomic_run E ok a x y O l (w_fresh E x y)) as (A & B); [intros b; discriminate|intro i; now split|]. fold s in A, B.
  split.
  - destruct (reach E ok a x y n l F) as (h & v & I). fold s in I.
    assert (V : v = Nat.odd (w_count E n s)).
    { rewrite (i_odd _ _ _ _ _ _ _ _ I). unfold pcount, w_count. do 2 f_equal. apply filter_ext_in'. intros j _.
      destruct (B j) as (_ & Bj). destruct (w_pc E s j) as [| | | | | | | | | | | |r]; cbn in *; easy. }
    intro b. assert (P := i_at _ _ _ _ _ _ _ _ I b). destruct (h b) as [i|].
    + destruct P as (_ & P & _). now apply A in P.
    + rewrite P. unfold cur. now rewrite V.
  - intro i. destruct (B i) as (T & Bi). split; [assumption|]. intros e R. unfold w_raised in R. rewrite R in Bi. discriminate.
Qed.
