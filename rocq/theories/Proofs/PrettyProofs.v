(** * Proofs about the metadata diff *)
From Coq Require Import String NArith ZArith Bool List Lia.
From Verif Require Import Model.Py Model.Meta Model.Pretty Spec.PrettySpec Proofs.PyLemmas.
Import ListNotations.

Lemma field_eqb_eq a b : field_eqb a b = true <-> a = b.
Proof. destruct a, b; cbn; split; intro; congruence. Qed.
Lemma field_eqb_refl a : field_eqb a a = true.
Proof. now apply field_eqb_eq. Qed.

Lemma exf_In f l : existsb (field_eqb f) l = true <-> In f l.
Proof.
  rewrite existsb_exists. split.
  - intros (x & I' & E). apply field_eqb_eq in E. now subst.
  - intro H. exists f. split; [assumption|apply field_eqb_refl].
Qed.

(** ** index_of *)
Lemma index_of_nth k l i : index_of k l = Some i -> nth_error l i = Some k.
Proof.
  revert i. induction l as [|x l IH]; intros i H; [discriminate|]. cbn in H.
  destruct (field_eqb x k) eqn:E.
  - apply field_eqb_eq in E. injection H as <-. now subst.
  - destruct (index_of k l) as [j|]; [|discriminate]. injection H as <-. cbn. now apply IH.
Qed.
Lemma index_of_none k l : index_of k l = None <-> ~ In k l.
Proof.
  induction l as [|x l IH]; cbn; [tauto|]. destruct (field_eqb x k) eqn:E.
  - apply field_eqb_eq in E. subst. split; [discriminate|tauto].
  - assert (x <> k) by (intros ->; now rewrite field_eqb_refl in E).
    destruct (index_of k l); cbn; split; intro H'; try discriminate; try tauto.
    + exfalso. assert (~ In k l) as K by tauto. apply IH in K. discriminate.
Qed.

(** ** Aligning *)
Definition entry := (option Z * field)%type.
Definition low (e : entry) : Prop := match fst e with Some v => (v <= 0)%Z | None => True end.

Lemma align_started short : forall long i off, Forall low long ->
  align short long i true off = Ok (map snd long).
Proof.
  induction long as [|[[v|] f] long IH]; intros i off H; [reflexivity| |]; inversion H; subst; cbn [align].
  - unfold low in *. cbn [fst] in *. apply Z.leb_le in H2. rewrite H2, IH by assumption. reflexivity.
  - rewrite IH by assumption. reflexivity.
Qed.

(** Before the first common key each one takes one of short with it. *)
Fixpoint weave (u short : list field) : list field :=
  match u, short with
  | x :: u', y :: s' => x :: y :: weave u' s'
  | _, _ => u
  end.

Lemma py_nth_ok {A} (l : list A) i : py_nth l (Z.of_nat i) =
  match nth_error l i with Some x => Ok x | None => Err IndexError end.
Proof.
  unfold py_nth. destruct (Z.ltb_spec (Z.of_nat i) 0); [lia|].
  destruct (Z.ltb_spec (Z.of_nat i) 0); [lia|]. rewrite Nat2Z.id. reflexivity.
Qed.

Lemma skipn_nth {A} (l : list A) i x : nth_error l i = Some x -> skipn i l = x :: skipn (S i) l.
Proof.
  revert l. induction i as [|i IH]; intros [|y l] H; try discriminate.
  - injection H as ->. reflexivity.
  - cbn in *. now apply IH.
Qed.

Lemma align_lead short : forall u i v f rest,
  (v <= 0)%Z -> Forall low rest ->
  align short (map (fun x => (None, x)) u ++ (Some v, f) :: rest) i false 0 =
  if Nat.leb (i + length u) (length short) || Nat.eqb (length u) 0
  then Ok (weave u (skipn i short) ++ f :: map snd rest) else Err IndexError.
Proof.
  induction u as [|x u IH]; intros i v f rest V R.
  - cbn [map app align length]. rewrite orb_true_r. apply Z.leb_le in V. rewrite V, align_started by assumption. reflexivity.
  - cbn [map app align length]. rewrite Z.sub_0_r, py_nth_ok. rewrite IH by assumption. cbn [Nat.eqb]. rewrite orb_false_r.
    destruct (nth_error short i) as [y|] eqn:E.
    + cbn [rbind]. assert (L : (i < length short)%nat) by (apply nth_error_Some; congruence).
      assert (B : (Nat.leb (S i + length u) (length short) || Nat.eqb (length u) 0)%bool
                  = Nat.leb (i + S (length u)) (length short)).
      { replace (i + S (length u))%nat with (S i + length u)%nat by lia.
        destruct (Nat.eqb_spec (length u) 0) as [Z|Z]; [|now rewrite orb_false_r].
        rewrite Z, Nat.add_0_r. destruct (Nat.leb_spec (S i) (length short)); [reflexivity|lia]. }
      rewrite B. clear B. destruct (Nat.leb (i + S (length u)) (length short)); [|reflexivity]. cbn [rbind]. rewrite (skipn_nth _ _ _ E). reflexivity.
    + cbn [rbind]. apply nth_error_None in E. destruct (Nat.leb_spec (i + S (length u)) (length short)); [lia|reflexivity].
Qed.

(** ** kinds *)
Definition entry_ok (others : list field) (i : nat) (k : field) (e : entry) : Prop :=
  snd e = k /\ match fst e with
               | None => ~ In k others
               | Some v => exists j, index_of k others = Some j /\ v = (Z.of_nat j - Z.of_nat i)%Z
               end.

Lemma kinds_snd keys others : map snd (kinds keys others) = keys.
Proof.
  unfold kinds. rewrite map_map. generalize 0%nat. induction keys as [|k keys IH]; intro n; [reflexivity|].
  cbn. f_equal. apply IH.
Qed.

Lemma kinds_nth keys others i e : nth_error (kinds keys others) i = Some e ->
  exists k, nth_error keys i = Some k /\ entry_ok others i k e.
Proof.
  unfold kinds. rewrite nth_error_map. intro H.
  destruct (nth_error (combine (seq 0 (length keys)) keys) i) as [[n k]|] eqn:E; [|discriminate].
  injection H as <-.
  assert (X : forall a b j, nth_error (combine (seq a (length b)) b) j = Some (n, k) -> n = (a + j)%nat /\ nth_error b j = Some k).
  { intros a b. revert a. induction b as [|y b IH]; intros a j Hj; [destruct j; discriminate|].
    destruct j as [|j]; cbn in Hj.
    - injection Hj as <- <-. split; [lia|reflexivity].
    - apply IH in Hj as [-> Hj]. split; [lia|exact Hj]. }
  apply X in E as [-> E]. exists k. split; [exact E|]. split; [reflexivity|]. cbn [fst].
  destruct (index_of k others) as [j|] eqn:J; cbn.
  - exists j. split; [reflexivity|lia].
  - now apply index_of_none.
Qed.

(** Common keys not later in [others]. *)
Definition not_later (keys others : list field) : Prop :=
  forall k i j, nth_error keys i = Some k -> index_of k others = Some j -> (j <= i)%nat.

Lemma kinds_low keys others : not_later keys others -> Forall low (kinds keys others).
Proof.
  intro H. apply Forall_forall. intros e He. apply In_nth_error in He as (i & He).
  apply kinds_nth in He as (k & Hk & _ & E). unfold low. destruct (fst e) as [v|]; [|exact I].
  destruct E as (j & J & ->). pose proof (H k i j Hk J). lia.
Qed.

Definition lead_keys (long short : list field) : list field := firstn (lead long short) long.

Lemma kinds_split keys others : (exists k, In k keys /\ In k others) ->
  exists v f rest, kinds keys others = map (fun x => (None, x)) (lead_keys keys others) ++ (Some v, f) :: rest /\
    keys = lead_keys keys others ++ f :: map snd rest /\ length (lead_keys keys others) = lead keys others.
Proof.
  intro H. unfold lead_keys.
  assert (X : forall n keys, (exists k, In k keys /\ In k others) ->
    exists v f rest, map (fun '(i, k) => (option_map (fun j => (Z.of_nat j - Z.of_nat i)%Z) (index_of k others), k))
      (combine (seq n (length keys)) keys) =
      map (fun x => (None, x)) (firstn (lead keys others) keys) ++ (Some v, f) :: rest /\
    keys = firstn (lead keys others) keys ++ f :: map snd rest /\ length (firstn (lead keys others) keys) = lead keys others).
  { clear. intros n keys. revert n. induction keys as [|k keys IH]; intros n (k0 & I1 & I2); [destruct I1|].
    cbn [lead length seq combine map].
    destruct (existsb (field_eqb k) others) eqn:E.
    - apply exf_In in E. destruct (index_of k others) as [j|] eqn:J; [|apply index_of_none in J; contradiction].
      cbn [firstn map app option_map]. eexists _, k, _. split; [reflexivity|]. split; [|reflexivity].
      f_equal. rewrite map_map. clear. generalize (S n). induction keys as [|k' keys IH]; intro m; [reflexivity|].
      cbn. f_equal. apply IH.
    - assert (N : ~ In k others) by (rewrite <- exf_In, E; discriminate).
      destruct I1 as [->|I1]; [contradiction|].
      destruct (IH (S n) (ex_intro _ k0 (conj I1 I2))) as (v & f & rest & A & B & C).
      apply index_of_none in N. rewrite N. cbn [firstn map app option_map length].
      exists v, f, rest. split; [now rewrite A|]. split; [now rewrite <- B|now rewrite C]. }
  exact (X 0%nat keys H).
Qed.

Lemma align_exact keys others : not_later keys others -> (exists k, In k keys /\ In k others) ->
  align others (kinds keys others) 0 false 0 =
  if Nat.leb (lead keys others) (length others)
  then Ok (weave (lead_keys keys others) others ++ skipn (lead keys others) keys) else Err IndexError.
Proof.
  intros L H. destruct (kinds_split keys others H) as (v & f & rest & A & B & C).
  pose proof (kinds_low keys others L) as F. rewrite A in F. apply Forall_app in F as [_ F].
  inversion F as [|? ? V R]; subst. unfold low in V. cbn [fst] in V.
  rewrite A, align_lead by assumption. rewrite C. cbn [Nat.add skipn].
  assert (E : (Nat.leb (lead keys others) (length others) || Nat.eqb (lead keys others) 0)%bool
    = Nat.leb (lead keys others) (length others)).
  { destruct (Nat.eqb_spec (lead keys others) 0) as [->|]; [reflexivity|now rewrite orb_false_r]. }
  rewrite E. destruct (Nat.leb _ _); [|reflexivity]. f_equal. f_equal.
  pose proof (firstn_skipn (lead keys others) keys) as X. fold (lead_keys keys others) in X.
  apply (app_inv_head (lead_keys keys others)). congruence.
Qed.

Lemma weave_In u s x : In x (weave u s) -> In x u \/ In x s.
Proof.
  revert s. induction u as [|y u IH]; intros [|z s]; cbn; try tauto.
  intros [->|[->|H]]; auto. apply IH in H as [H|H]; auto.
Qed.
Lemma In_weave u s x : In x u -> In x (weave u s).
Proof.
  revert s. induction u as [|y u IH]; intros [|z s]; cbn; try tauto.
  intros [->|H]; auto.
Qed.

Lemma align_keys keys others l : not_later keys others -> (exists k, In k keys /\ In k others) ->
  align others (kinds keys others) 0 false 0 = Ok l ->
  (forall k, In k keys -> In k l) /\ (forall k, In k l -> In k keys \/ In k others).
Proof.
  intros L H E. rewrite align_exact in E by assumption. destruct (Nat.leb _ _); [|discriminate].
  injection E as <-. split.
  - intros k Hk. rewrite <- (firstn_skipn (lead keys others) keys) in Hk. apply in_app_or in Hk as [Hk|Hk]; apply in_or_app; [left|now right].
    now apply In_weave.
  - intros k Hk. apply in_app_or in Hk as [Hk|Hk].
    + apply weave_In in Hk as [Hk|Hk]; [left|now right]. unfold lead_keys in Hk.
      rewrite <- (firstn_skipn (lead keys others) keys). apply in_or_app. now left.
    + left. rewrite <- (firstn_skipn (lead keys others) keys). apply in_or_app. now right.
Qed.

(** ** Rows *)
Section Dates.
Variable dateparse : pyval -> res pyval.

Lemma in_rows_spec v : in_rows v = true <-> v <> PNone /\ v <> PStrs [].
Proof.
  unfold in_rows. destruct v as [| | | | | |[|x l]|]; cbn; split; intro H; try (split; discriminate); try discriminate;
    try reflexivity; destruct H as [H1 H2]; congruence.
Qed.

Lemma items_values m l : items dateparse m = Ok l ->
  exists val, (forall f, getf dateparse m f = Ok (val f)) /\ l = map (fun f => (f, val f)) item_fields.
Proof.
  intro H. unfold items in H.
  assert (C : forall f, In f item_fields -> exists v, getf dateparse m f = Ok v).
  { revert H. generalize item_fields l. induction l0 as [|x r IH]; intros l' H f Hf; [destruct Hf|].
    cbn [rmap] in H. destruct (getf dateparse m x) as [v|] eqn:E; [|discriminate]. cbn [rbind] in H.
    destruct (rmap _ r) as [ys|] eqn:R; [|discriminate]. destruct Hf as [<-|Hf]; [eauto|]. eapply IH; eauto. }
  exists (fun f => match getf dateparse m f with Ok v => v | Err _ => PNone end).
  assert (G : forall f, getf dateparse m f = Ok (match getf dateparse m f with Ok v => v | Err _ => PNone end)).
  { intro f. destruct (C f) as (v & E); [destruct f; cbn; tauto|]. now rewrite E. }
  split; [exact G|].
  assert (X : forall fs l, rmap (fun f => do v <- getf dateparse m f ; Ok (f, v)) fs = Ok l ->
    l = map (fun f => (f, match getf dateparse m f with Ok v => v | Err _ => PNone end)) fs).
  { induction fs as [|f fs IH]; intros l' K; cbn [rmap] in K; [injection K as <-; reflexivity|].
    rewrite G in K. cbn [rbind] in K. destruct (rmap _ fs) as [ys|] eqn:R; [|discriminate]. cbn [rbind] in K.
    injection K as <-. cbn [map]. f_equal. now apply IH. }
  now apply X.
Qed.

Lemma rows_values m a : rows dateparse m = Ok a ->
  exists val, (forall f, getf dateparse m f = Ok (val f)) /\
    a = flat_map (fun f => if in_rows (val f) then [(f, val f)] else []) order.
Proof.
  unfold rows. intro H. destruct (items dateparse m) as [l|] eqn:E; [|discriminate]. cbn [rbind] in H.
  apply items_values in E as (val & G & ->). exists val. split; [exact G|]. injection H as <-. reflexivity.
Qed.

Lemma keys_filter val : map fst (flat_map (fun f => if in_rows (val f) then [(f, val f)] else []) order)
  = filter (fun f => in_rows (val f)) order.
Proof.
  induction order as [|f l IH]; [reflexivity|]. cbn [flat_map filter]. rewrite map_app, IH.
  destruct (in_rows (val f)); reflexivity.
Qed.

Lemma order_all f : In f order.
Proof. destruct f; cbn; tauto. Qed.
Lemma order_nodup : NoDup order.
Proof. unfold order. repeat (constructor; [cbn; intuition discriminate|]). constructor. Qed.

Lemma values_present m val f : (forall f, getf dateparse m f = Ok (val f)) ->
  forall v, present dateparse m f v <-> in_rows (val f) = true /\ v = val f.
Proof.
  intros G v. unfold present. rewrite G, in_rows_spec. split.
  - intros (E & A & B). injection E as <-. auto.
  - intros ((A & B) & ->). auto.
Qed.

Lemma rows_listing m a : rows dateparse m = Ok a -> listing dateparse m (map fst a).
Proof.
  intro H. apply rows_values in H as (val & G & ->). exists (fun f => in_rows (val f)). split.
  - intro f. unfold has_field. split.
    + intro K. exists (val f). now apply (values_present m val f G).
    + intros (v & K). now apply (values_present m val f G) in K as [K _].
  - apply keys_filter.
Qed.

Lemma listing_unique m l l' : listing dateparse m l -> listing dateparse m l' -> l = l'.
Proof.
  intros (p & P & ->) (q & Q & ->). apply filter_ext. intro f.
  destruct (p f) eqn:E1, (q f) eqn:E2; try reflexivity; exfalso.
  - apply P, Q in E1. congruence.
  - apply Q, P in E2. congruence.
Qed.

Lemma lookup_cell m a f : rows dateparse m = Ok a -> cell dateparse m f (lookup f a).
Proof.
  intro H. apply rows_values in H as (val & G & ->). pose proof (values_present m val f G) as P.
  assert (X : forall l, lookup f (flat_map (fun f => if in_rows (val f) then [(f, val f)] else []) l) =
    if (existsb (field_eqb f) l && in_rows (val f))%bool then Some (f, val f) else None).
  { unfold lookup. induction l as [|x l IH]; [reflexivity|]. cbn [flat_map existsb].
    destruct (field_eqb f x) eqn:E.
    - apply field_eqb_eq in E. subst x. cbn [orb andb]. destruct (in_rows (val f)) eqn:R.
      + cbn [app find fst]. now rewrite field_eqb_refl.
      + cbn [app]. rewrite IH. now rewrite andb_false_r.
    - assert (N : field_eqb x f = false).
      { destruct (field_eqb x f) eqn:K; [|reflexivity]. apply field_eqb_eq in K. subst. rewrite field_eqb_refl in E. discriminate. }
      cbn [orb]. destruct (in_rows (val x)); [cbn [app find fst]; rewrite N|cbn [app]]; exact IH. }
  rewrite X. assert (O : existsb (field_eqb f) order = true) by (apply exf_In, order_all). rewrite O. cbn [andb].
  unfold cell. destruct (in_rows (val f)) eqn:R.
  - split; [reflexivity|]. apply P. now split.
  - intros v K. apply P in K as [K _]. congruence.
Qed.

(** Positions in two listings of the same order. *)
Lemma filter_index (p q : field -> bool) : forall l k i j, (forall f, In f l -> p f = true -> q f = true) ->
  nth_error (filter q l) i = Some k -> index_of k (filter p l) = Some j -> NoDup l -> (j <= i)%nat.
Proof.
  induction l as [|x l IH]; intros k i j S N J D; [destruct i; discriminate|].
  inversion D; subst. cbn [filter] in *. destruct (q x) eqn:Q.
  - destruct (p x) eqn:P.
    + cbn in J. destruct (field_eqb x k) eqn:E; [injection J as <-; lia|].
      destruct (index_of k (filter p l)) as [j'|] eqn:J'; [|discriminate]. injection J as <-.
      destruct i as [|i]; [cbn in N; injection N as ->; rewrite field_eqb_refl in E; discriminate|].
      cbn in N. enough (j' <= i)%nat by lia. apply (IH k i j'); auto. intros; apply S; [now right|assumption].
    + destruct i as [|i].
      * cbn in N. injection N as ->. exfalso. apply index_of_nth in J. apply nth_error_In, filter_In in J as [J _]. contradiction.
      * cbn in N. enough (j <= i)%nat by lia. apply (IH k i j); auto. intros; apply S; [now right|assumption].
  - destruct (p x) eqn:P; [rewrite (S x (or_introl eq_refl) P) in Q; discriminate|].
    apply (IH k i j); auto. intros; apply S; [now right|assumption].
Qed.

Lemma listing_not_later m o l s : listing dateparse m l -> listing dateparse o s -> incl s l -> not_later l s.
Proof.
  intros (q & Q & ->) (p & P & ->) H k i j N J. apply (filter_index p q order k i j); auto using order_nodup.
  intros f Hf Pf. assert (X : In f (filter q order)) by (apply H, filter_In; split; assumption).
  now apply filter_In in X.
Qed.

Lemma rows_complete m o a b l :
  rows dateparse m = Ok a -> rows dateparse o = Ok b ->
  (forall k, In k (map fst a) -> In k l) -> (forall k, In k (map fst b) -> In k l) ->
  complete dateparse m o (map (fun k => (lookup k a, lookup k b)) l).
Proof.
  intros A B Ia Ib. split.
  - intros f v H. exists (lookup f a), (lookup f b). split; [|split; now apply lookup_cell].
    apply in_map_iff. exists f. split; [reflexivity|].
    destruct H as [H|H].
    + apply Ia. destruct (rows_listing m a A) as (p & P & E). rewrite E. apply filter_In. split; [apply order_all|].
      apply P. now exists v.
    + apply Ib. destruct (rows_listing o b B) as (p & P & E). rewrite E. apply filter_In. split; [apply order_all|].
      apply P. now exists v.
  - intros c d H. apply in_map_iff in H as (f & E & _). injection E as <- <-. exists f. split; now apply lookup_cell.
Qed.

Lemma merge_rows_eq a b : merge_rows a b =
  do aligned <- align (shorter (map fst a) (map fst b)) (kinds (longer (map fst a) (map fst b)) (shorter (map fst a) (map fst b))) 0 false 0 ;
  match a, b with
  | _ :: _, _ :: _ => Ok (map (fun k => (lookup k a, lookup k b)) aligned)
  | _, _ => Err IndexError
  end.
Proof. unfold merge_rows, longer, shorter. destruct (Nat.ltb _ _); reflexivity. Qed.

Lemma rows_readable m : readable dateparse m -> exists a, rows dateparse m = Ok a.
Proof.
  intro R. unfold rows, items.
  assert (X : forall fs, exists l, rmap (fun f => do v <- getf dateparse m f ; Ok (f, v)) fs = Ok l).
  { induction fs as [|f fs (l & IH)]; [now exists []|]. destruct (R f) as (v & E). exists ((f, v) :: l).
    cbn [rmap]. rewrite E. cbn [rbind]. now rewrite IH. }
  destruct (X item_fields) as (l & E). rewrite E. cbn [rbind]. now eexists.
Qed.

Lemma diff_exact m o x y d : content_different dateparse m o = Ok d ->
  readable dateparse m -> readable dateparse o ->
  listing dateparse m x -> listing dateparse o y ->
  incl (shorter x y) (longer x y) ->
  ((exists out, pretty_diff dateparse m o = Ok out) <->
    shorter x y <> [] /\ (lead (longer x y) (shorter x y) <= length (shorter x y))%nat) /\
  (forall out, pretty_diff dateparse m o = Ok out -> complete dateparse m o out).
Proof.
  intros D Rm Ro X Y S.
  destruct (rows_readable m Rm) as (a & A), (rows_readable o Ro) as (b & B).
  assert (Ex : x = map fst a) by (apply (listing_unique m); [assumption|now apply rows_listing]).
  assert (Ey : y = map fst b) by (apply (listing_unique o); [assumption|now apply rows_listing]).
  assert (NL : not_later (longer x y) (shorter x y)).
  { revert S. unfold longer, shorter. destruct (Nat.ltb _ _); intro S; eapply listing_not_later; eauto. }
  unfold pretty_diff. rewrite D, A, B. cbn [rbind]. rewrite merge_rows_eq, <- Ex, <- Ey.
  destruct (shorter x y) as [|k0 s] eqn:Es.
  - split.
    + split.
      * intros (out & H). exfalso.
        assert (Z : a = [] \/ b = []).
        { unfold shorter in Es. destruct (Nat.ltb _ _).
          - right. subst y. destruct b; [reflexivity|discriminate].
          - left. subst x. destruct a; [reflexivity|discriminate]. }
        destruct (align _ _ _ _ _); [|discriminate]. cbn [rbind] in H.
        destruct Z as [-> | ->]; [discriminate|]. destruct a; discriminate.
      * intros [H _]. congruence.
    + intros out H. exfalso.
      assert (Z : a = [] \/ b = []).
      { unfold shorter in Es. destruct (Nat.ltb _ _).
        - right. subst y. destruct b; [reflexivity|discriminate].
        - left. subst x. destruct a; [reflexivity|discriminate]. }
      destruct (align _ _ _ _ _); [|discriminate]. cbn [rbind] in H.
      destruct Z as [-> | ->]; [discriminate|]. destruct a; discriminate.
  - rewrite <- Es in *.
    assert (C : exists k, In k (longer x y) /\ In k (shorter x y)).
    { exists k0. split; [apply S|]; rewrite Es; now left. }
    assert (NE : a <> [] /\ b <> []).
    { unfold shorter in Es. destruct C as (k & K1 & K2). unfold longer, shorter in K1, K2.
      destruct (Nat.ltb _ _); subst x y; split; intros ->; cbn in *; try discriminate; contradiction. }
    assert (NN : shorter x y <> []) by (rewrite Es; discriminate).
    destruct a as [|a0 a]; [now destruct NE|]. destruct b as [|b0 b]; [now destruct NE|].
    destruct (align (shorter x y) (kinds (longer x y) (shorter x y)) 0 false 0) as [l|e] eqn:L.
    + pose proof (align_keys _ _ _ NL C L) as [K1 K2]. rewrite align_exact in L by assumption.
      destruct (Nat.leb_spec (lead (longer x y) (shorter x y)) (length (shorter x y))); [|discriminate].
      cbn [rbind]. split.
      * split; [intros _; split; assumption|]. intros _. eexists. reflexivity.
      * intros out H'. apply Ok_inj in H'. subst out. apply rows_complete; try assumption.
        -- intros k Hk. rewrite <- Ex in Hk. apply K1. unfold longer in *. unfold shorter in S.
           destruct (Nat.ltb _ _); [assumption|now apply S].
        -- intros k Hk. rewrite <- Ey in Hk. apply K1. unfold longer in *. unfold shorter in S.
           destruct (Nat.ltb _ _); [now apply S|assumption].
    + rewrite align_exact in L by assumption.
      destruct (Nat.leb_spec (lead (longer x y) (shorter x y)) (length (shorter x y))); [discriminate|].
      cbn [rbind]. split; [|intros out H'; discriminate]. split; [intros (out & H'); discriminate|lia].
Qed.

Lemma diff_same_fields m o d x : content_different dateparse m o = Ok d ->
  readable dateparse m -> readable dateparse o ->
  listing dateparse m x -> listing dateparse o x -> x <> [] ->
  exists out, pretty_diff dateparse m o = Ok out /\ complete dateparse m o out.
Proof.
  intros D A B X Y N.
  assert (L : longer x x = x) by (unfold longer; now destruct (Nat.ltb _ _)).
  assert (S : shorter x x = x) by (unfold shorter; now destruct (Nat.ltb _ _)).
  destruct (diff_exact m o x x d D A B X Y) as [I1 I2]; [rewrite L, S; apply incl_refl|].
  rewrite L, S in I1. assert (K : lead x x = 0%nat).
  { destruct x as [|f r]; [reflexivity|]. cbn [lead existsb]. now rewrite field_eqb_refl. }
  rewrite K in I1. destruct I1 as [_ I1]. destruct I1 as (out & E); [split; [assumption|lia]|].
  exists out. split; [exact E|now apply I2].
Qed.

Lemma diff_drops m o d x y f0 : content_different dateparse m o = Ok d ->
  readable dateparse m -> readable dateparse o ->
  listing dateparse m x -> listing dateparse o y ->
  hd_error x = Some f0 -> hd_error y = Some f0 ->
  (forall f i j, at_ (longer x y) f i -> at_ (shorter x y) f j -> (j <= i)%nat) ->
  exists out, pretty_diff dateparse m o = Ok out /\
    forall c d, In (c, d) out -> exists f, In f (longer x y) /\ cell dateparse m f c /\ cell dateparse o f d.
Proof.
  intros D Rm Ro X Y Hx Hy NL.
  destruct (rows_readable m Rm) as (a & A), (rows_readable o Ro) as (b & B).
  assert (Ex : x = map fst a) by (apply (listing_unique m); [assumption|now apply rows_listing]).
  assert (Ey : y = map fst b) by (apply (listing_unique o); [assumption|now apply rows_listing]).
  assert (NL' : not_later (longer x y) (shorter x y)).
  { intros k i j Hi Hj. apply (NL k i j Hi). now apply index_of_nth. }
  assert (H1 : hd_error (longer x y) = Some f0) by (unfold longer; now destruct (Nat.ltb _ _)).
  assert (H2 : hd_error (shorter x y) = Some f0) by (unfold shorter; now destruct (Nat.ltb _ _)).
  assert (I1 : In f0 (longer x y)) by (destruct (longer x y); [discriminate|injection H1 as <-; now left]).
  assert (I2 : In f0 (shorter x y)) by (destruct (shorter x y); [discriminate|injection H2 as <-; now left]).
  assert (Z : lead (longer x y) (shorter x y) = 0%nat).
  { destruct (longer x y) as [|g r]; [discriminate|]. injection H1 as ->. cbn [lead].
    apply exf_In in I2. now rewrite I2. }
  unfold pretty_diff. rewrite D, A, B. cbn [rbind]. rewrite merge_rows_eq, <- Ex, <- Ey.
  rewrite align_exact by eauto. unfold lead_keys. rewrite Z. cbn [Nat.leb firstn skipn weave app rbind].
  destruct a as [|a0 a]; [subst x; discriminate|]. destruct b as [|b0 b]; [subst y; discriminate|].
  eexists. split; [reflexivity|]. intros c e H. apply in_map_iff in H as (f & E & Hf).
  apply pair_equal_spec in E as [<- <-]. exists f. split; [assumption|]. split; now apply lookup_cell.
Qed.

Lemma diff_empty m o : listing dateparse m [] \/ listing dateparse o [] ->
  exists e, pretty_diff dateparse m o = Err e.
Proof.
  intro H. unfold pretty_diff. destruct (content_different _ _ _) as [d|e]; [|now exists e]. cbn [rbind].
  destruct (rows dateparse m) as [a|e] eqn:A; [|now exists e]. cbn [rbind].
  destruct (rows dateparse o) as [b|e] eqn:B; [|now exists e]. cbn [rbind]. rewrite merge_rows_eq.
  destruct (align _ _ _ _ _) as [l|e]; [|now exists e]. cbn [rbind].
  destruct H as [H|H].
  - apply (listing_unique m _ (map fst a)) in H; [|now apply rows_listing]. symmetry in H. apply map_eq_nil in H. subst a. now eexists.
  - apply (listing_unique o _ (map fst b)) in H; [|now apply rows_listing]. symmetry in H. apply map_eq_nil in H. subst b. destruct a; now eexists.
Qed.
End Dates.
