(** * Proofs about the commands sent to a shell *)
From Coq Require Import String NArith ZArith Bool List Lia.
From Verif Require Import Model.Py Model.Shell Spec.ShellSpec Proofs.PyLemmas Proofs.StatProofs.
Import ListNotations.
Local Open Scope N_scope.

Fixpoint tot (l : list str) : nat := match l with [] => 0 | w :: l => (length w + tot l) end%nat.
Definition acc (q : st) : str := match q with Out => [] | Wd w | Single w | Double w => w end.

Lemma lex_single w c r : lex (Single w) (c :: r) =
  if c =? 39 then lex (Wd w) r else lex (Single (w ++ [c])) r.
Proof. reflexivity. Qed.
Lemma lex_double w c r : lex (Double w) (c :: r) =
  if c =? 34 then lex (Wd w) r
  else if ((c =? 36) || (c =? 96))%bool then None
  else if c =? 92 then
    match r with
    | d :: r' => if escapable d
                 then lex (Double (if d =? 10 then w else w ++ [d])) r'
                 else lex (Double (w ++ [c])) r
    | [] => None
    end
  else lex (Double (w ++ [c])) r.
Proof. reflexivity. Qed.
Lemma lex_out c r : lex Out (c :: r) =
  if blank c then lex Out r
  else if c =? 124 then Some ([], Some r)
  else if (special c || special_first c)%bool then None
  else if c =? 39 then lex (Single []) r
  else if c =? 34 then lex (Double []) r
  else if c =? 92 then
    match r with
    | d :: r' => if d =? 10 then lex Out r' else lex (Wd [d]) r'
    | [] => None
    end
  else lex (Wd [c]) r.
Proof. reflexivity. Qed.
Lemma lex_wd w c r : lex (Wd w) (c :: r) =
  if blank c then word w (lex Out r)
  else if c =? 124 then Some ([w], Some r)
  else if special c then None
  else if c =? 39 then lex (Single w) r
  else if c =? 34 then lex (Double w) r
  else if c =? 92 then
    match r with
    | d :: r' => if d =? 10 then lex (Wd w) r' else lex (Wd (w ++ [d])) r'
    | [] => None
    end
  else lex (Wd (w ++ [c])) r.
Proof. reflexivity. Qed.

(** Unfold one step in [H : lex q (c :: r) = Some _] and split the cases. *)
Ltac lexstep H :=
  match type of H with
  | None = Some _ => discriminate H
  | word _ ?x = Some _ =>
      let l := fresh "l" in let r := fresh "rest" in let E := fresh "E" in
      destruct x as [[l r]|] eqn:E; cbn [word] in H; [injection H as <- <-|discriminate H]
  | (if ?c then _ else _) = Some _ => destruct c eqn:?
  | Some _ = Some _ => injection H as <- <-
  end.
Ltac lexgo H := first [rewrite lex_single in H | rewrite lex_double in H | rewrite lex_out in H | rewrite lex_wd in H | idtac]; repeat lexstep H.
Ltac lens := cbn [tot acc length app] in *; rewrite ?app_length in *; cbn [length] in *; try lia.

Lemma lex_total : forall s q l rest, lex q s = Some (l, rest) -> (tot l <= length (acc q) + length s)%nat.
Proof.
  induction s as [|c|c d r IH1 IH2] using two_step; intros q l rest H.
  - destruct q; cbn in H; try discriminate; injection H as <- <-; lens.
  - destruct q; lexgo H; repeat match goal with K : lex _ [] = Some _ |- _ => cbn in K; try discriminate; injection K as <- <- end; lens.
  - destruct q; lexgo H;
      repeat match goal with
        | K : lex _ (d :: r) = Some _ |- _ => apply IH2 in K
        | K : lex _ r = Some _ |- _ => apply IH1 in K
        end; lens;
      repeat match goal with K : context [if ?b then _ else _] |- _ => destruct b; lens end.
Qed.

Lemma lex_strict : forall s q l rest, last s 0 = 34 -> lex q s = Some (l, rest) -> (tot l < length (acc q) + length s)%nat.
Proof.
  induction s as [|c|c d r IH1 IH2] using two_step; intros q l rest L H.
  - discriminate.
  - cbn in L. subst c. destruct q; lexgo H; try discriminate;
      repeat match goal with K : lex _ [] = Some _ |- _ => cbn in K; try discriminate; injection K as <- <- end; lens.
  - assert (L' : last (d :: r) 0 = 34) by exact L. clear L.
    assert (IH1' : r <> [] -> last r 0 = 34).
    { intro N. destruct r; [congruence|exact L']. }
    destruct r as [|e r].
    + cbn in L'. subst d. clear IH1 IH1'. destruct q; lexgo H; try discriminate;
      repeat match goal with
        | K : lex _ [34] = Some _ |- _ => apply IH2 in K; [|reflexivity]
        | K : lex _ [] = Some _ |- _ => cbn in K; try discriminate; injection K as <- <-
        end; lens;
      repeat match goal with K : context [if ?b then _ else _] |- _ => destruct b; lens end.
    + specialize (IH1' ltac:(discriminate)).
      destruct q; lexgo H;
      repeat match goal with
        | K : lex _ (d :: e :: r) = Some _ |- _ => apply IH2 in K; [|exact L']
        | K : lex _ (e :: r) = Some _ |- _ => apply IH1 in K; [|exact IH1']
        end; lens;
      repeat match goal with K : context [if ?b then _ else _] |- _ => destruct b; lens end.
Qed.

(** ** Between double quotes *)
Fixpoint qok (p : str) : bool :=
  match p with
  | [] => true
  | c :: r =>
      (negb (c =? 34) && negb ((c =? 36) || (c =? 96)) &&
       (if c =? 92 then match r with d :: _ => negb ((d =? 92) || (d =? 10)) | [] => false end else true) && qok r)%bool
  end.

Lemma dq_ok : forall p w, qok p = true -> lex (Double w) (p ++ [34]) = Some ([w ++ p], None).
Proof.
  induction p as [|c r IH]; intros w H.
  - cbn. now rewrite app_nil_r.
  - cbn [qok] in H. rewrite !andb_true_iff, !negb_true_iff in H. destruct H as [[[A B] C] D].
    cbn [app]. rewrite lex_double, A, B.
    assert (G : lex (Double (w ++ [c])) (r ++ [34]) = Some ([w ++ c :: r], None)).
    { rewrite IH by assumption. now rewrite <- app_assoc. }
    destruct (N.eqb_spec c 92) as [->|N]; [|exact G].
    destruct r as [|d r]; [discriminate|]. cbn [app] in *.
    assert (E : escapable d = false).
    { cbn [qok] in D. rewrite !andb_true_iff, !negb_true_iff, orb_false_iff in D. destruct D as [[[A' [B1 B2]] _] _].
      apply negb_true_iff, orb_false_iff in C as [C1 C2].
      unfold escapable. cbn [existsb]. now rewrite A', B1, B2, C1, C2. }
    rewrite E. exact G.
Qed.

Lemma last_snoc34 (p : str) : last (p ++ [34]) 0 = 34.
Proof. apply last_last. Qed.

Lemma dq_exact : forall p w l rest,
  lex (Double w) (p ++ [34]) = Some (l, rest) -> tot l = (length w + length p)%nat ->
  qok p = true.
Proof.
  induction p as [|c|c d r IH1 IH2] using two_step; intros w l rest H T.
  - reflexivity.
  - cbn [app] in H. rewrite lex_double in H. cbn [qok].
    destruct (N.eqb_spec c 34) as [->|N34].
    + apply lex_strict in H; [|reflexivity]. lens.
    + destruct ((c =? 36) || (c =? 96))%bool; [discriminate|].
      destruct (N.eqb_spec c 92) as [->|N92]; [|reflexivity].
      cbn [escapable existsb N.eqb Pos.eqb orb] in H. cbn in H. discriminate.
  - change ((c :: d :: r) ++ [34]) with (c :: d :: (r ++ [34])) in H. rewrite lex_double in H.
    change (d :: r ++ [34]) with ((d :: r) ++ [34]) in H.
    change (qok (c :: d :: r)) with (negb (c =? 34) && negb ((c =? 36) || (c =? 96)) &&
       (if c =? 92 then negb ((d =? 92) || (d =? 10)) else true) && qok (d :: r))%bool.
    destruct (N.eqb_spec c 34) as [->|N34].
    { apply lex_strict in H; [|apply last_snoc34]. lens. }
    destruct ((c =? 36) || (c =? 96))%bool; [discriminate|]. cbn [negb andb].
    destruct (N.eqb_spec c 92) as [->|N92].
    + cbn [app] in H. destruct (escapable d) eqn:E.
      * exfalso. assert (K := H). apply lex_strict in K; [|apply last_snoc34]. destruct (d =? 10); lens.
      * change (d :: r ++ [34]) with ((d :: r) ++ [34]) in H.
        apply IH2 in H; [|lens]. rewrite H, andb_true_r.
        unfold escapable in E. cbn [existsb] in E. rewrite !orb_false_iff in E.
        destruct E as (E1 & _ & _ & E2 & _). now rewrite E1, E2.
    + apply IH2 in H; [|lens]. now rewrite H.
Qed.

Lemma qok_spec p : qok p = true <-> quotable p.
Proof.
  unfold quotable. split.
  - induction p as [|c r IH]; intro H.
    + split; [intros []|]. split; [intros []|]. split; [intros []|].
      split; [intros [|] b; discriminate|]. split; [intros [|] b; discriminate|]. intros [|]; discriminate.
    + cbn [qok] in H. rewrite !andb_true_iff, !negb_true_iff, orb_false_iff in H.
      destruct H as [[[A [B1 B2]] C] D]. apply N.eqb_neq in A, B1, B2.
      destruct (IH D) as (I1 & I2 & I3 & I4 & I5 & I6).
      split; [intros [K|K]; [congruence|contradiction]|].
      split; [intros [K|K]; [congruence|contradiction]|].
      split; [intros [K|K]; [congruence|contradiction]|].
      split; [|split].
      * intros [|x a] b E; cbn in E; injection E as -> E; [|now apply (I4 a b)].
        subst r. discriminate C.
      * intros [|x a] b E; cbn in E; injection E as -> E; [|now apply (I5 a b)].
        subst r. discriminate C.
      * intros [|x a] E; cbn in E; injection E as -> E; [|now apply (I6 a)].
        subst r. discriminate C.
  - intros (I1 & I2 & I3 & I4 & I5 & I6). induction p as [|c r IH]; [reflexivity|].
    cbn [qok]. rewrite !andb_true_iff, !negb_true_iff, orb_false_iff.
    split; [split; [split; [|split]|]|].
    + apply N.eqb_neq. intros ->. apply I1. now left.
    + apply N.eqb_neq. intros ->. apply I2. now left.
    + apply N.eqb_neq. intros ->. apply I3. now left.
    + destruct (N.eqb_spec c 92) as [->|]; [|reflexivity]. destruct r as [|d r]; [now destruct (I6 [])|].
      apply negb_true_iff, orb_false_iff. split; apply N.eqb_neq; intros ->.
      * now apply (I4 [] r).
      * now apply (I5 [] r).
    + apply IH.
      * intro K. apply I1. now right.
      * intro K. apply I2. now right.
      * intro K. apply I3. now right.
      * intros a b ->. now apply (I4 (c :: a) b).
      * intros a b ->. now apply (I5 (c :: a) b).
      * intros a ->. now apply (I6 (c :: a)).
Qed.

Lemma tot_one p : tot [p] = length p.
Proof. cbn. lia. Qed.

Lemma stat_lex darwin p : p <> [] -> lex Out (stat_cmd darwin stat_format p) =
  word (if darwin then $"gstat" else $"stat") (word $"-c" (word stat_format_text (lex (Double []) (p ++ [34])))).
Proof. intro N. destruct p as [|c p]; [congruence|]. destruct darwin; reflexivity. Qed.

Lemma stat_command darwin p : p <> [] ->
  (runs (stat_cmd darwin stat_format p)
     [if darwin then $"gstat" else $"stat"; $"-c"; stat_format_text; p] <-> quotable p).
Proof.
  intro N. unfold runs, words. rewrite stat_lex by assumption. rewrite <- qok_spec. split.
  - intro H. destruct (lex (Double []) (p ++ [34])) as [[l rest]|] eqn:E; [|discriminate].
    cbn [word option_map fst] in H. apply (dq_exact p [] l rest E).
    assert (l = [p]) by congruence. subst l. apply tot_one.
  - intro H. rewrite (dq_ok p [] H). reflexivity.
Qed.

(** ** Without quotes *)
Definition plainc (c : N) : Prop :=
  blank c = false /\ special c = false /\ c <> 124 /\ c <> 39 /\ c <> 34 /\ c <> 92.

Lemma wd_plain p : forall w r, (forall c, In c p -> plainc c) ->
  lex (Wd w) (p ++ 32 :: r) = word (w ++ p) (lex Out r).
Proof.
  induction p as [|c p IH]; intros w r H.
  - cbn [app]. rewrite app_nil_r. reflexivity.
  - destruct (H c (or_introl eq_refl)) as (B & S & N1 & N2 & N3 & N4).
    apply N.eqb_neq in N1, N2, N3, N4. cbn [app]. rewrite lex_wd, B, N1, S, N2, N3, N4.
    rewrite IH by (intros; apply H; now right). now rewrite <- app_assoc.
Qed.

Lemma out_bare p r : bare p -> lex Out (p ++ 32 :: r) = word p (lex Out r).
Proof.
  intros (N & F & H). destruct p as [|c p]; [congruence|]. cbn [hd] in F.
  destruct (H c (or_introl eq_refl)) as (B & S & N1 & N2 & N3 & N4).
  apply N.eqb_neq in N1, N2, N3, N4. cbn [app]. rewrite lex_out, B, N1, S, F, N2, N3, N4. cbn [orb].
  rewrite wd_plain; [reflexivity|]. intros; apply H. now right.
Qed.

Definition tail_text : str := $" | awk '{ print $1 }';".
Definition swallow (p : str) (l : list str) : Prop := last p 0 = 92 /\ exists l' v, l = l' ++ [v ++ [32]].

Lemma swallow_cons c p l : swallow p l -> swallow (c :: p) l.
Proof. intros [A B]. split; [|exact B]. destruct p; [discriminate|exact A]. Qed.
Lemma swallow_word p w l : swallow p l -> swallow p (w :: l).
Proof. intros [A (l' & v & ->)]. split; [exact A|]. now exists (w :: l'), v. Qed.
Lemma swallow_word2 c p w l : swallow p l -> swallow (c :: p) (w :: l).
Proof. intro H. now apply swallow_cons, swallow_word. Qed.

Definition good_run (q : st) (p : str) (l : list str) : Prop :=
  match q with
  | Out => (p = [] /\ l = []) \/ (bare p /\ l = [p]) \/ (tot l < length p)%nat \/ swallow p l
  | Wd w => ((forall c, In c p -> plainc c) /\ l = [w ++ p]) \/
            (tot l < length w + length p)%nat \/ swallow p l
  | Single w | Double w => (tot l < length w + length p)%nat \/ swallow p l
  end.

Lemma run_total q p l : good_run q p l -> (tot l <= length (acc q) + length p)%nat \/ swallow p l.
Proof.
  destruct q; cbn [good_run acc length].
  - intros [[-> ->]|[[_ ->]|[H|H]]]; auto; left; lens.
  - intros [[_ ->]|[H|H]]; auto; left; lens.
  - intros [H|H]; auto; left; lens.
  - intros [H|H]; auto; left; lens.
Qed.

Lemma tail_runs : forall p q l rest, lex q (p ++ tail_text) = Some (l, rest) -> good_run q p l.
Proof.
  induction p as [|c|c d r IH1 IH2] using two_step; intros q l rest H.
  - destruct q; cbn in H; try discriminate; injection H as <- <-; cbn [good_run].
    + left. split; reflexivity.
    + left. split; [intros ? []|]. now rewrite app_nil_r.
  - assert (IH : forall q l rest, lex q tail_text = Some (l, rest) ->
        match q with Out => l = [] | Wd w => l = [w] | _ => False end).
    { intros q' l' rest' K. destruct q'; cbn in K; try discriminate; injection K as <- <-; reflexivity. }
    change ([c] ++ tail_text) with (c :: tail_text) in H.
    assert (P : blank c = false -> special c = false -> (c =? 124) = false -> (c =? 39) = false -> (c =? 34) = false ->
      (c =? 92) = false -> plainc c).
    { intros. repeat split; try assumption; apply N.eqb_neq; assumption. }
    destruct q.
    + rewrite lex_out in H. cbn [good_run].
      destruct (blank c) eqn:B; [apply IH in H; cbn in H; subst l; right; right; left; lens|].
      destruct (c =? 124) eqn:N1; [repeat lexstep H; right; right; left; lens|].
      destruct (special c || special_first c)%bool eqn:S; [discriminate|]. apply orb_false_iff in S as [S S'].
      destruct (c =? 39) eqn:N2; [apply IH in H; destruct H|].
      destruct (c =? 34) eqn:N3; [apply IH in H; destruct H|].
      destruct (N.eqb_spec c 92) as [->|N4].
      * cbn in H. injection H as <- <-. right. right. right. split; [reflexivity|]. now exists [], [].
      * apply IH in H. cbn in H. subst l. right. left. split; [|reflexivity].
        split; [discriminate|]. split; [exact S'|]. intros x [<-|[]]. apply P; auto; now apply N.eqb_neq.
    + rewrite lex_wd in H. cbn [good_run].
      destruct (blank c) eqn:B; [repeat lexstep H; apply IH in E; cbn in E; subst; right; left; lens|].
      destruct (c =? 124) eqn:N1; [repeat lexstep H; right; left; lens|].
      destruct (special c) eqn:S; [discriminate|].
      destruct (c =? 39) eqn:N2; [apply IH in H; destruct H|].
      destruct (c =? 34) eqn:N3; [apply IH in H; destruct H|].
      destruct (N.eqb_spec c 92) as [->|N4].
      * cbn in H. injection H as <- <-. right. right. split; [reflexivity|]. now exists [], w.
      * apply IH in H. cbn in H. subst l. left. split; [|reflexivity].
        intros x [<-|[]]. apply P; auto; now apply N.eqb_neq.
    + rewrite lex_single in H. cbn [good_run]. destruct (c =? 39); apply IH in H; cbn in H; [|destruct H].
      subst l. left. lens.
    + rewrite lex_double in H. cbn [good_run]. destruct (c =? 34); [apply IH in H; cbn in H; subst l; left; lens|].
      destruct (_ || _)%bool; [discriminate|]. destruct (c =? 92); [cbn in H; discriminate|]. apply IH in H. destruct H.
  - change ((c :: d :: r) ++ tail_text) with (c :: d :: (r ++ tail_text)) in H.
    assert (J1 := fun q l rest (K : lex q (r ++ tail_text) = Some (l, rest)) => run_total q r l (IH1 q l rest K)).
    assert (J2 := fun q l rest (K : lex q (d :: r ++ tail_text) = Some (l, rest)) => run_total q (d :: r) l (IH2 q l rest K)).
    assert (P : blank c = false -> special c = false -> (c =? 124) = false -> (c =? 39) = false -> (c =? 34) = false ->
      (c =? 92) = false -> plainc c).
    { intros. repeat split; try assumption; apply N.eqb_neq; assumption. }
    destruct q.
    + rewrite lex_out in H. cbn [good_run].
      destruct (blank c) eqn:B; [apply J2 in H as [H|H]; right; right; [left; lens|right; now apply swallow_cons]|].
      destruct (c =? 124) eqn:N1; [repeat lexstep H; right; right; left; lens|].
      destruct (special c || special_first c)%bool eqn:S; [discriminate|]. apply orb_false_iff in S as [S S'].
      destruct (c =? 39) eqn:N2; [apply J2 in H as [H|H]; right; right; [left; lens|right; now apply swallow_cons]|].
      destruct (c =? 34) eqn:N3; [apply J2 in H as [H|H]; right; right; [left; lens|right; now apply swallow_cons]|].
      destruct (c =? 92) eqn:N4.
      * destruct (d =? 10); apply J1 in H as [H|H]; right; right; [left; lens| |left; lens|];
          right; now apply swallow_cons, swallow_cons.
      * apply IH2 in H. cbn [good_run] in H. destruct H as [[H ->]|[H|H]].
        -- right. left. split; [|reflexivity]. split; [discriminate|]. split; [exact S'|].
           intros x [<-|Hx]; [now apply P|now apply H].
        -- right. right. left. lens.
        -- right. right. right. now apply swallow_cons.
    + rewrite lex_wd in H. cbn [good_run].
      destruct (blank c) eqn:B.
      { repeat lexstep H. apply J2 in E as [E|E]; right; [left; lens|right; now apply swallow_word2]. }
      destruct (c =? 124) eqn:N1; [repeat lexstep H; right; left; lens|].
      destruct (special c) eqn:S; [discriminate|].
      destruct (c =? 39) eqn:N2; [apply J2 in H as [H|H]; right; [left; lens|right; now apply swallow_cons]|].
      destruct (c =? 34) eqn:N3; [apply J2 in H as [H|H]; right; [left; lens|right; now apply swallow_cons]|].
      destruct (c =? 92) eqn:N4.
      * destruct (d =? 10); apply J1 in H as [H|H]; right; [left; lens| |left; lens|];
          right; now apply swallow_cons, swallow_cons.
      * apply IH2 in H. cbn [good_run] in H. destruct H as [[H ->]|[H|H]].
        -- left. split; [|now rewrite <- app_assoc]. intros x [<-|Hx]; [now apply P|now apply H].
        -- right. left. lens.
        -- right. right. now apply swallow_cons.
    + rewrite lex_single in H. cbn [good_run]. destruct (c =? 39).
      * apply J2 in H as [H|H]; [left; lens|right; now apply swallow_cons].
      * apply IH2 in H. cbn [good_run] in H. destruct H as [H|H]; [left; lens|right; now apply swallow_cons].
    + rewrite lex_double in H. cbn [good_run]. destruct (c =? 34).
      { apply J2 in H as [H|H]; [left; lens|right; now apply swallow_cons]. }
      destruct (_ || _)%bool; [discriminate|]. destruct (c =? 92).
      * destruct (escapable d).
        -- apply IH1 in H. cbn [good_run] in H. destruct H as [H|H]; [left; destruct (d =? 10); lens|].
           right. now apply swallow_cons, swallow_cons.
        -- apply IH2 in H. cbn [good_run] in H. destruct H as [H|H]; [left; lens|right; now apply swallow_cons].
      * apply IH2 in H. cbn [good_run] in H. destruct H as [H|H]; [left; lens|right; now apply swallow_cons].
Qed.

Lemma checksum_command cypher p : bare cypher ->
  (runs (checksum_cmd cypher p) [cypher; p] <-> bare p).
Proof.
  intro C. unfold runs, words, checksum_cmd. change ($" " ++ p ++ $" | awk '{ print $1 }';") with (32 :: (p ++ tail_text)).
  rewrite out_bare by assumption. split.
  - intro H. destruct (lex Out (p ++ tail_text)) as [[l rest]|] eqn:E; [|discriminate].
    cbn [word option_map fst] in H. assert (l = [p]) by congruence. subst l. apply tail_runs in E. cbn [good_run] in E.
    destruct E as [[_ E]|[[E _]|[E|E]]].
    + discriminate.
    + exact E.
    + rewrite tot_one in E. lia.
    + exfalso. destruct E as (L & l' & v & E). destruct l' as [|x l']; [|destruct l'; discriminate].
      injection E as ->. rewrite last_last in L. discriminate.
  - intro H. change tail_text with (32 :: $"| awk '{ print $1 }';"). rewrite out_bare by assumption. reflexivity.
Qed.

(** ** repr *)
Lemma lex_extends : forall s q l rest, q <> Out -> lex q s = Some (l, rest) -> exists u l', l = (acc q ++ u) :: l'.
Proof.
  induction s as [|c|c d r IH1 IH2] using two_step; intros q l rest N H.
  - destruct q; cbn in H; try discriminate; [congruence|]. injection H as <- <-. exists [], []. cbn. now rewrite app_nil_r.
  - destruct q; [congruence| | |]; lexgo H;
      repeat match goal with K : lex _ [] = Some _ |- _ => cbn in K; try discriminate; injection K as <- <- end;
      cbn [acc];
      try (eexists; eexists; rewrite ?app_nil_r; reflexivity);
      try (exists [], []; now rewrite app_nil_r);
      try (exists [c], []; reflexivity);
      exists [], l0; now rewrite app_nil_r.
  - assert (Done : forall w u l', l = ((w ++ u) :: l') -> forall v w0, w = w0 ++ v -> exists u l', l = (w0 ++ u) :: l').
    { intros w u l' -> v w0 ->. exists (v ++ u), l'. now rewrite app_assoc. }
    destruct q; [congruence| | |]; lexgo H; cbn [acc];
      try (match goal with
        | K : lex ?q (d :: r) = Some (?l, _) |- _ => apply IH2 in K; [|discriminate]; destruct K as (u & l' & ->); cbn [acc]
        | K : lex ?q r = Some (?l, _) |- _ => apply IH1 in K; [|discriminate]; destruct K as (u & l' & ->); cbn [acc]
        end; rewrite <- ?app_assoc; try destruct (d =? 10); rewrite <- ?app_assoc; eexists; eexists; reflexivity);
      eexists []; eexists; now rewrite app_nil_r.
Qed.

Section Repr.
Variable printable : N -> bool.
Hypothesis ascii92 : printable 92 = true.

(** Characters that repr leaves alone, apart from quotes and backslashes. *)
Definition shown_as_is (c : N) : Prop := printable c = true /\ c <> 9 /\ c <> 10 /\ c <> 13.

Lemma repr1_as_is q c : shown_as_is c -> c <> q -> c <> 92 -> repr1 printable q c = [c].
Proof.
  intros (P & A & B & C) Q D. apply N.eqb_neq in A, B, C, Q, D. unfold repr1, BS. rewrite Q, D, A, B, C, P. reflexivity.
Qed.

Lemma repr1_quote q c : c = q \/ c = 92 -> repr1 printable q c = [92; c].
Proof.
  unfold repr1, BS. intros [->| ->]; rewrite N.eqb_refl, ?orb_true_r; reflexivity.
Qed.

(** Otherwise it starts with a backslash and a letter. *)
Lemma repr1_other q c : c <> q -> c <> 92 -> ~ shown_as_is c ->
  exists x t, repr1 printable q c = 92 :: x :: t /\ In x $"tnrxuU".
Proof.
  intros Q D S. apply N.eqb_neq in Q, D. unfold repr1, BS. rewrite Q, D. cbn [orb].
  destruct (N.eqb_spec c 9); [exists 116, []; split; [reflexivity|cbn; tauto]|].
  destruct (N.eqb_spec c 10); [exists 110, []; split; [reflexivity|cbn; tauto]|].
  destruct (N.eqb_spec c 13); [exists 114, []; split; [reflexivity|cbn; tauto]|].
  destruct (printable c) eqn:P; [exfalso; apply S; repeat split; assumption|].
  destruct (c <? 256); [exists 120, (hex_n 2 c); split; [reflexivity|cbn; tauto]|].
  destruct (c <? 65536); [exists 117, (hex_n 4 c); split; [reflexivity|cbn; tauto]|].
  exists 85, (hex_n 8 c). split; [reflexivity|cbn; tauto].
Qed.

Lemma as_is_dec c : {shown_as_is c} + {~ shown_as_is c}.
Proof.
  unfold shown_as_is. destruct (printable c); [|right; intros [K _]; discriminate].
  destruct (N.eq_dec c 9); [right; tauto|]. destruct (N.eq_dec c 10); [right; tauto|].
  destruct (N.eq_dec c 13); [right; tauto|]. left. tauto.
Qed.

(** Shown between double quotes. *)
Lemma repr_double : forall p w, ~ In 34 p ->
  (forall c, In c p -> shown_as_is c /\ c <> 36 /\ c <> 96) ->
  lex (Double w) (flat_map (repr1 printable 34) p ++ [34]) = Some ([w ++ p], None).
Proof.
  induction p as [|c p IH]; intros w Q H.
  - cbn. now rewrite app_nil_r.
  - destruct (H c (or_introl eq_refl)) as (A & D & B).
    assert (Q' : c <> 34) by (intros ->; apply Q; now left).
    assert (G : lex (Double (w ++ [c])) (flat_map (repr1 printable 34) p ++ [34]) = Some ([w ++ c :: p], None)).
    { rewrite IH; [now rewrite <- app_assoc| |]; [intro K; apply Q; now right|intros x Hx; apply H; now right]. }
    cbn [flat_map]. rewrite <- app_assoc. destruct (N.eq_dec c 92) as [->|N].
    + rewrite repr1_quote by now right. cbn [app]. rewrite lex_double. cbn [N.eqb Pos.eqb orb]. exact G.
    + rewrite repr1_as_is by assumption. cbn [app]. rewrite lex_double.
      apply N.eqb_neq in Q', D, B, N. rewrite Q', D, B, N. exact G.
Qed.

Lemma repr_double_exact : forall p w rest, ~ In 34 p ->
  lex (Double w) (flat_map (repr1 printable 34) p ++ [34]) = Some ([w ++ p], rest) ->
  forall c, In c p -> shown_as_is c /\ c <> 36 /\ c <> 96.
Proof.
  induction p as [|c p IH]; intros w rest Q H x Hx; [destruct Hx|].
  assert (Q' : c <> 34) by (intros ->; apply Q; now left).
  cbn [flat_map] in H. rewrite <- app_assoc in H.
  assert (R : lex (Double (w ++ [c])) (flat_map (repr1 printable 34) p ++ [34]) = Some ([w ++ c :: p], rest) ->
    forall x, In x p -> shown_as_is x /\ x <> 36 /\ x <> 96).
  { intro K. apply (IH (w ++ [c]) rest); [intro; apply Q; now right|]. rewrite <- app_assoc. exact K. }
  destruct (as_is_dec c) as [A|A].
  - destruct (N.eq_dec c 92) as [->|N].
    + rewrite repr1_quote in H by now right. cbn [app] in H. rewrite lex_double in H.
      cbn [N.eqb Pos.eqb orb escapable existsb] in H. destruct Hx as [<-|Hx]; [|now apply R].
      split; [exact A|]. split; discriminate.
    + rewrite repr1_as_is in H by assumption. cbn [app] in H. rewrite lex_double in H.
      assert (Q2 := Q'). apply N.eqb_neq in Q2. rewrite Q2 in H.
      destruct (N.eqb_spec c 36) as [->|D]; [discriminate|].
      destruct (N.eqb_spec c 96) as [->|B]; [discriminate|]. cbn [orb] in H.
      assert (N2 := N). apply N.eqb_neq in N2. rewrite N2 in H.
      destruct Hx as [<-|Hx]; [tauto|]. now apply R.
  - exfalso. destruct (N.eq_dec c 92) as [->|N].
    + apply A. split; [exact ascii92|]. repeat split; discriminate.
    + destruct (repr1_other 34 c Q' N A) as (y & t & E & I'). rewrite E in H. cbn [app] in H. rewrite lex_double in H.
      cbn [N.eqb Pos.eqb orb] in H.
      assert (X : escapable y = false).
      { cbn in I'. repeat destruct I' as [<-|I']; try reflexivity. destruct I'. }
      rewrite X in H. apply lex_extends in H as (u & l' & H); [|discriminate]. cbn [acc] in H.
      injection H as H. rewrite <- app_assoc in H. apply app_inv_head in H. cbn in H. injection H as H _. congruence.
Qed.

(** Shown between single quotes. *)
Lemma single_plain : forall u w r, ~ In 39 u -> lex (Single w) (u ++ r) = lex (Single (w ++ u)) r.
Proof.
  induction u as [|c u IH]; intros w r H.
  - now rewrite app_nil_r.
  - cbn [app]. rewrite lex_single. destruct (N.eqb_spec c 39) as [->|]; [exfalso; apply H; now left|].
    rewrite IH by (intro; apply H; now right). now rewrite <- app_assoc.
Qed.

Lemma hexdigit_no39 : forall n c, ~ In 39 (hex_n n c).
Proof.
  intros n c. unfold hex_n. rewrite <- in_rev. revert c. induction n as [|n IH]; intros c H; [destruct H|].
  destruct H as [H|H]; [|now apply (IH _ H)].
  unfold hexdigit in H. revert H. generalize (c mod 16). intros m H. destruct (m <? 10); lia.
Qed.

Lemma repr_no39 p : ~ In 39 p -> ~ In 39 (flat_map (repr1 printable 39) p).
Proof.
  intros H K. apply in_flat_map in K as (c & Hc & K). assert (Q : c <> 39) by (intros ->; contradiction).
  unfold repr1, BS in K. assert (Q2 := Q). apply N.eqb_neq in Q2. rewrite Q2 in K. cbn [orb] in K.
  assert (X : forall x n, x <> 39 -> ~ In 39 (92 :: x :: hex_n n c)).
  { intros x n Hx [F|[F|F]]; [discriminate|congruence|exact (hexdigit_no39 _ _ F)]. }
  destruct (c =? 92); [destruct K as [K|[K|[]]]; [discriminate|congruence]|].
  destruct (c =? 9); [destruct K as [K|[K|[]]]; discriminate|].
  destruct (c =? 10); [destruct K as [K|[K|[]]]; discriminate|].
  destruct (c =? 13); [destruct K as [K|[K|[]]]; discriminate|].
  destruct (printable c); [destruct K as [K|[]]; congruence|].
  destruct (c <? 256); [revert K; apply X; discriminate|].
  destruct (c <? 65536); revert K; apply X; discriminate.
Qed.

Lemma repr1_len q c : (1 <= length (repr1 printable q c))%nat.
Proof.
  unfold repr1. repeat match goal with |- context [if ?b then _ else _] => destruct b end; cbn [length app]; lia.
Qed.
Lemma repr_len q p : (length p <= length (flat_map (repr1 printable q) p))%nat.
Proof.
  induction p as [|c p IH]; [reflexivity|]. cbn [flat_map length]. rewrite app_length. pose proof (repr1_len q c). lia.
Qed.

Lemma repr_same p : ~ In 39 p -> flat_map (repr1 printable 39) p = p -> forall c, In c p -> shown_as_is c /\ c <> 92.
Proof.
  induction p as [|c p IH]; intros Q H x Hx; [destruct Hx|]. cbn [flat_map] in H.
  assert (Q' : c <> 39) by (intros ->; apply Q; now left).
  pose proof (repr_len 39 p) as L. apply (f_equal (@length _)) in H as H2. rewrite app_length in H2. cbn [length] in H2.
  destruct (N.eq_dec c 92) as [->|N].
  { exfalso. rewrite repr1_quote in H2 by (now right). cbn [length] in H2. lia. }
  destruct (as_is_dec c) as [A|A].
  - rewrite repr1_as_is in H by assumption. cbn [app] in H. injection H as H.
    destruct Hx as [<-|Hx]; [now split|]. apply IH; [intro; apply Q; now right|assumption|assumption].
  - destruct (repr1_other 39 c Q' N A) as (y & t & E & _). rewrite E in H2. cbn [length] in H2. lia.
Qed.

Lemma as_is_same p : ~ In 39 p -> (forall c, In c p -> shown_as_is c /\ c <> 92) -> flat_map (repr1 printable 39) p = p.
Proof.
  induction p as [|c p IH]; intros Q H; [reflexivity|]. cbn [flat_map]. destruct (H c (or_introl eq_refl)) as [A N].
  rewrite repr1_as_is; [|assumption|intros ->; apply Q; now left|assumption]. cbn [app]. f_equal.
  apply IH; [intro; apply Q; now right|]. intros x Hx. apply H. now right.
Qed.

(** A run of backslashes before the shown text never catches up. *)
Lemma never_catches : forall a j r x, ~ In 39 a ->
  repeat 92 j ++ flat_map (repr1 printable 39) a ++ [92] ++ x <> a ++ 39 :: r.
Proof.
  induction a as [|c a IH]; intros j r x Q H.
  - destruct j; discriminate.
  - assert (Q' : c <> 39) by (intros ->; apply Q; now left).
    assert (Q2 : ~ In 39 a) by (intro; apply Q; now right).
    destruct (N.eq_dec c 92) as [->|N].
    + cbn [flat_map] in H. rewrite repr1_quote in H by now right.
      apply (IH (S j) r x Q2). destruct j as [|j]; cbn [repeat app] in *.
      * injection H as H. exact H.
      * injection H as H. rewrite <- H. clear. induction j as [|j IHj]; [reflexivity|].
        cbn [repeat app] in *. now rewrite IHj.
    + destruct j as [|j]; [|cbn in H; congruence]. cbn [repeat app flat_map] in H.
      destruct (as_is_dec c) as [A|A].
      * rewrite repr1_as_is in H by assumption. cbn [app] in H. injection H as H. exact (IH 0%nat r x Q2 H).
      * destruct (repr1_other 39 c Q' N A) as (y & t & E & _). rewrite E in H. cbn in H. congruence.
Qed.

Lemma first_quote p : In 39 p -> exists a r, p = a ++ 39 :: r /\ ~ In 39 a.
Proof.
  induction p as [|c p IH]; intro H; [destruct H|]. destruct (N.eq_dec c 39) as [->|N].
  - exists [], p. split; [reflexivity|intros []].
  - destruct H as [H|H]; [congruence|]. destruct (IH H) as (a & r & -> & Q). exists (c :: a), r.
    split; [reflexivity|]. intros [K|K]; [congruence|contradiction].
Qed.

Lemma cat_lex p : lex Out (cat_cmd printable p) = word $"cat" (lex Out (py_repr printable p)).
Proof. reflexivity. Qed.

Lemma cat_command p : runs (cat_cmd printable p) [$"cat"; p] <-> showable printable p.
Proof.
  unfold runs, words. rewrite cat_lex. unfold py_repr, showable.
  destruct (has SQ p) eqn:S; cbn [andb].
  - apply has_In in S. destruct (has DQ p) eqn:D; cbn [negb].
    + apply has_In in D. split.
      * intro H. exfalso. destruct (first_quote p S) as (a & r & E & Q).
        destruct (lex Out (SQ :: flat_map (repr1 printable SQ) p ++ [SQ])) as [[l rest]|] eqn:L; [|discriminate].
        cbn [word option_map fst] in H. assert (l = [p]) by congruence. subst l. clear H.
        change (lex Out (SQ :: flat_map (repr1 printable SQ) p ++ [SQ])) with
          (lex (Single []) (flat_map (repr1 printable 39) p ++ [39])) in L.
        rewrite E in L at 1. rewrite flat_map_app in L. cbn [flat_map] in L.
        rewrite repr1_quote in L by now left. rewrite <- app_assoc in L.
        rewrite single_plain in L by now apply repr_no39. cbn [app] in L. rewrite lex_single in L.
        cbn [N.eqb Pos.eqb] in L. apply lex_extends in L as (u & l' & L); [|discriminate].
        cbn [acc] in L. injection L as L _. rewrite E, <- app_assoc in L.
        symmetry in L. exact (never_catches a 0%nat r u Q L).
      * intros (_ & [[K _]|(_ & K & _)]); contradiction.
    + apply has_false in D. change DQ with 34 in *. change SQ with 39 in *.
      change (lex Out (34 :: flat_map (repr1 printable 34) p ++ [34])) with
        (lex (Double []) (flat_map (repr1 printable 34) p ++ [34])). split.
      * intro H. destruct (lex (Double []) _) as [[l rest]|] eqn:L; [|discriminate].
        cbn [word option_map fst] in H. assert (l = [p]) by congruence. subst l.
        assert (X := repr_double_exact p [] rest D L). split; [intros c Hc; apply X, Hc|].
        right. split; [exact S|]. split; [exact D|]. split; intro K; apply X in K as (_ & K1 & K2); congruence.
      * intros (A & [[K _]|(_ & _ & K1 & K2)]); [contradiction|].
        rewrite (repr_double p []); [reflexivity|exact D|]. intros c Hc. split; [now apply A|].
        split; intros ->; contradiction.
  - apply has_false in S. change SQ with 39 in *.
    change (lex Out (39 :: flat_map (repr1 printable 39) p ++ [39])) with
        (lex (Single []) (flat_map (repr1 printable 39) p ++ [39])).
    rewrite single_plain by now apply repr_no39. cbn [app]. rewrite lex_single. cbn [N.eqb Pos.eqb lex word option_map fst].
    split.
    + intro H. assert (E : flat_map (repr1 printable 39) p = p) by congruence.
      assert (X := repr_same p S E). split; [intros c Hc; now apply X|]. left. split; [exact S|].
      intro K. apply X in K as [_ K]. congruence.
    + intros (A & [[_ K]|(K & _)]); [|contradiction]. rewrite as_is_same; [reflexivity|exact S|].
      intros c Hc. split; [now apply A|]. intros ->. contradiction.
Qed.
End Repr.

Lemma commands_refuted printable : (forall c, 32 <= c -> c <= 126 -> printable c = true) ->
    ~ runs (stat_cmd false stat_format $"/home/a$HOME") [$"stat"; $"-c"; stat_format_text; $"/home/a$HOME"] /\
    ~ runs (checksum_cmd $"sha256sum" $"/home/a b") [$"sha256sum"; $"/home/a b"] /\
    ~ runs (cat_cmd printable $"/home/it's $5") [$"cat"; $"/home/it's $5"] /\
    ~ runs (cat_cmd printable ($"/home/a" ++ [BS] ++ $"b")) [$"cat"; $"/home/a" ++ [BS] ++ $"b"].
Proof.
  intro A. assert (A92 : printable 92 = true) by (apply A; discriminate).
  split; [|split; [|split]].
  - intro H. apply (stat_command false) in H; [|discriminate]. destruct H as (_ & H & _). apply H. cbn. tauto.
  - intro H. vm_compute in H. discriminate.
  - intro H. apply (cat_command printable A92) in H as (_ & [(H & _)|(_ & _ & H & _)]); apply H; cbn; tauto.
  - intro H. apply (cat_command printable A92) in H as (_ & [(_ & H)|(H & _)]).
    + apply H. cbn. tauto.
    + cbn in H. repeat destruct H as [H|H]; try discriminate. destruct H.
Qed.
