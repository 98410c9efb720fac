From Coq Require Import String NArith PeanoNat Bool List Lia.
From Verif Require Import Model.Py Model.LinkRace Spec.LinkRaceSpec Proofs.PyLemmas.
Import ListNotations.

Section Proofs.
Variable M : Type.
Variable replace : M -> M -> res bool.
Variable name_of : M -> option str.
Variable new : nat -> M.
Notation step := (lstep M replace name_of new).
Notation run := (lrun M replace name_of new).
Notation path s := (l_path M (l_disk M s)).
Notation trash s := (l_trash M (l_disk M s)).
Notation pc := (l_pc M).

Lemma run_snoc s l i : run s (l ++ [i]) = step (run s l) i.
Proof. unfold lrun. now rewrite fold_left_app. Qed.
Lemma run_app s l l' : run s (l ++ l') = run (run s l) l'.
Proof. unfold lrun. now rewrite fold_left_app. Qed.

(** What a turn can do to the disk *)
Lemma step_disk s i :
  l_disk M (step s i) = l_disk M s \/
  (exists n x, pc s i = LMove n /\ path s = Some x /\ path (step s i) = None /\ trash (step s i) = lput M n x (trash s) /\ pc (step s i) i = LMake) \/
  (pc s i = LMake /\ path s = None /\ path (step s i) = Some (new i) /\ trash (step s i) = trash s /\ pc (step s i) i = LDone (Ok true)).
Proof.
  unfold lstep. destruct (pc s i) eqn:P; cbn [lturn l_disk]; auto.
  - destruct (path s) as [x|] eqn:E; cbn [l_disk]; [|auto]. right. left. exists name, x. cbn. now rewrite Nat.eqb_refl.
  - destruct (path s) as [x|] eqn:E; cbn [l_disk]; [auto|]. right. right. cbn. now rewrite Nat.eqb_refl.
Qed.
Lemma step_other s i j : i <> j -> pc (step s i) j = pc s j.
Proof. intro N. unfold lstep. destruct (lturn _ _ _ _ _ _) as [p d]. cbn. destruct (Nat.eqb i j) eqn:E; [apply Nat.eqb_eq in E; contradiction|reflexivity]. Qed.
Lemma step_done s i j r : pc s j = LDone r -> pc (step s i) j = LDone r.
Proof.
  intro P. destruct (Nat.eq_dec i j) as [->|N]; [|now rewrite step_other]. unfold lstep. rewrite P. cbn. now rewrite Nat.eqb_refl.
Qed.

Theorem whole d l : let s := run (l_fresh M d) l in
  (forall x, path s = Some x -> path (l_fresh M d) = Some x \/ exists i, x = new i /\ l_wrote M s i) /\
  (forall n x, trash s n = Some x -> l_trash M d n = Some x \/ exists a b, l = a ++ b /\ path (run (l_fresh M d) a) = Some x) /\
  (forall n, l_trash M d n <> None -> trash s n <> None).
Proof.
  cbv zeta. induction l as [|i l (IP & IT & IK)] using rev_ind; [cbn; repeat split; eauto|]. rewrite run_snoc.
  set (s := run (l_fresh M d) l) in *.
  assert (W : forall x, (exists j, x = new j /\ l_wrote M s j) -> exists j, x = new j /\ l_wrote M (step s i) j).
  { intros x (j & -> & Wj). exists j. split; [reflexivity|]. now apply step_done. }
  assert (T : forall n x, (l_trash M d n = Some x \/ exists a b, l = a ++ b /\ path (run (l_fresh M d) a) = Some x) ->
     l_trash M d n = Some x \/ exists a b, l ++ [i] = a ++ b /\ path (run (l_fresh M d) a) = Some x).
  { intros n x [H|(a & b & -> & H)]; [now left|]. right. exists a, (b ++ [i]). now rewrite app_assoc. }
  destruct (step_disk s i) as [E|[(n & x & P & E & E1 & E2 & _)|(P & E & E1 & E2 & E3)]].
  - rewrite E. split; [|split; [|assumption]].
    + intros x H. destruct (IP x H); auto.
    + intros n x H. apply T, IT, H.
  - split; [|split].
    + intros y H. congruence.
    + intros k y H. rewrite E2 in H. unfold lput in H. destruct (str_eqb k n); [|apply T, IT, H]. injection H as <-. right. exists l, [i]. now split.
    + intros k H. rewrite E2. unfold lput. destruct (str_eqb k n); [discriminate|auto].
  - split; [|split].
    + intros y H. rewrite E1 in H. injection H as <-. right. exists i. now split.
    + intros k y H. rewrite E2 in H. apply T, IT, H.
    + intros k H. rewrite E2. auto.
Qed.

(** Nothing has happened yet, or a link was made, or one is about to be *)
Definition settled (d : ldisk M) (s : lstate M) : Prop :=
  (path s = l_path M d /\ trash s = l_trash M d /\ (forall i, pc s i <> LDone (Ok true)) /\
     (l_path M d <> None -> forall i, pc s i <> LMake) /\ (l_path M d = None -> forall i, pc s i = LLook \/ pc s i = LMake)) \/
  (exists i, path s = Some (new i) /\ l_wrote M s i) \/
  (path s = None /\ exists j, pc s j = LMake).
Lemma settled_all d l : settled d (run (l_fresh M d) l).
Proof.
  induction l as [|i l IH] using rev_ind.
  - left. cbn. repeat split; try discriminate. intros _ i. now left.
  - rewrite run_snoc. set (s := run (l_fresh M d) l) in *.
    destruct (step_disk s i) as [E|[(n & x & P & E & E1 & E2 & E3)|(P & E & E1 & E2 & E3)]].
    + destruct IH as [(A1 & A2 & A3 & A4 & A5)|[(k & A1 & A2)|(A1 & j & A2)]].
      * left. rewrite E. split; [assumption|]. split; [assumption|].
        assert (Me : pc (step s i) i = fst (lturn M replace name_of (new i) (pc s i) (l_disk M s))).
        { unfold lstep. destruct (lturn _ _ _ _ _ _). cbn. now rewrite Nat.eqb_refl. }
        assert (Dk : snd (lturn M replace name_of (new i) (pc s i) (l_disk M s)) = l_disk M s).
        { unfold lstep in E. now destruct (lturn _ _ _ _ _ _). }
        destruct (l_path M d) as [x|] eqn:D.
        { split; [|split].
          - intro k. destruct (Nat.eq_dec i k) as [<-|N]; [|rewrite step_other by assumption; auto]. rewrite Me. specialize (A3 i).
            pose proof (A4 ltac:(discriminate) i) as A4i.
            destruct (pc s i) eqn:Q; cbn [lturn fst]; rewrite ?A1; try discriminate; try congruence.
            + destruct (replace x (new i)) as [[|]|]; discriminate.
            + destruct (name_of x); discriminate.
          - intros _ k. destruct (Nat.eq_dec i k) as [<-|N]; [|rewrite step_other by assumption; apply A4; discriminate]. rewrite Me.
            pose proof (A4 ltac:(discriminate) i) as A4i.
            destruct (pc s i) eqn:Q; cbn [lturn fst snd] in *; rewrite ?A1 in *; try discriminate; try congruence.
            + destruct (replace x (new i)) as [[|]|]; discriminate.
            + destruct (name_of x); discriminate.
            + cbn [snd] in Dk. exfalso. apply (f_equal (l_path M)) in Dk. cbn in Dk. congruence.
          - intro Z. discriminate. }
        { assert (C : forall k, pc (step s i) k = LLook \/ pc (step s i) k = LMake).
          { intro k. destruct (Nat.eq_dec i k) as [<-|N]; [|rewrite step_other by assumption; auto]. rewrite Me.
            destruct (A5 eq_refl i) as [Q|Q]; rewrite Q; cbn [lturn fst]; rewrite A1; [now right|].
            exfalso. rewrite Q in Dk. cbn [lturn] in Dk. rewrite A1 in Dk. cbn [snd] in Dk. apply (f_equal (l_path M)) in Dk. cbn in Dk. congruence. }
          split; [|split].
          - intros k Z. destruct (C k); congruence.
          - intro Z. now destruct Z.
          - intros _. exact C. }
      * right. left. exists k. rewrite E. split; [assumption|]. now apply step_done.
      * right. right. rewrite E. split; [assumption|]. exists j. destruct (Nat.eq_dec i j) as [<-|N]; [|now rewrite step_other].
        exfalso. unfold lstep in E. rewrite A2 in E. cbn [lturn] in E. rewrite A1 in E. cbn in E. apply (f_equal (l_path M)) in E. cbn in E. congruence.
    + right. right. split; [assumption|]. now exists i.
    + right. left. exists i. now split.
Qed.
Theorem ends d l : let s := run (l_fresh M d) l in l_quiet M s -> (exists i, l_began M s i) ->
  (exists i, path s = Some (new i) /\ l_wrote M s i) \/
  (path s = l_path M d /\ path s <> None /\ trash s = l_trash M d /\ forall i, ~ l_wrote M s i).
Proof.
  cbv zeta. intros Q (i & B). destruct (settled_all d l) as [(A1 & A2 & A3 & A4 & A5)|[A|(A1 & j & A2)]].
  - right. split; [assumption|]. split; [|split; assumption]. rewrite A1. intro Z. destruct (A5 Z i) as [X|X]; [now apply B|].
    destruct (Q i) as [Y|(r & Y)]; congruence.
  - now left.
  - destruct (Q j) as [Y|(r & Y)]; congruence.
Qed.

(** ** One after the other *)
Definition alone_disk (m : M) (d : ldisk M) : ldisk M :=
  match l_path M d with
  | None => mkLD M (Some m) (l_trash M d)
  | Some old => match replace old m, name_of old with
                | Ok true, Some n => mkLD M (Some m) (lput M n old (l_trash M d))
                | _, _ => d
                end
  end.
Definition alone_result (m : M) (d : ldisk M) : res bool :=
  match l_path M d with
  | None => Ok true
  | Some old => match replace old m with
                | Ok true => match name_of old with Some _ => Ok true | None => Err AttributeError end
                | r => r
                end
  end.
Fixpoint turns (m : M) (k : nat) (p : lpc) (d : ldisk M) : lpc * ldisk M :=
  match k with 0 => (p, d) | S k => let (p, d) := lturn M replace name_of m p d in turns m k p d end.
Lemma turns_done m k r d : turns m k (LDone r) d = (LDone r, d).
Proof. induction k as [|k IH]; [reflexivity|exact IH]. Qed.
Lemma turns_alone m d : turns m 12 LLook d = (LDone (alone_result m d), alone_disk m d).
Proof.
  destruct d as [[old|] t]; unfold alone_result, alone_disk; cbn [l_path l_trash].
  - cbn [turns lturn l_path]. destruct (replace old m) as [[|]|e]; cbn [turns lturn l_path]; try reflexivity.
    destruct (name_of old) as [n|]; cbn [turns lturn l_path l_trash]; reflexivity.
  - cbn [turns lturn l_path]. reflexivity.
Qed.
Lemma run_turns k : forall s i, l_disk M (run s (repeat i k)) = snd (turns (new i) k (pc s i) (l_disk M s)) /\
  pc (run s (repeat i k)) i = fst (turns (new i) k (pc s i) (l_disk M s)) /\
  forall j, j <> i -> pc (run s (repeat i k)) j = pc s j.
Proof.
  induction k as [|k IH]; intros s i; cbn [repeat turns]; [auto|].
  change (run s (i :: repeat i k)) with (run (step s i) (repeat i k)). destruct (IH (step s i) i) as (A & B & C).
  assert (E : l_disk M (step s i) = snd (lturn M replace name_of (new i) (pc s i) (l_disk M s)) /\ pc (step s i) i = fst (lturn M replace name_of (new i) (pc s i) (l_disk M s))).
  { unfold lstep. destruct (lturn _ _ _ _ _ _) as [p d]. cbn. now rewrite Nat.eqb_refl. }
  destruct E as [E1 E2]. rewrite E1, E2 in A, B. destruct (lturn _ _ _ _ _ _) as [p d]. cbn [fst snd] in *. split; [assumption|]. split; [assumption|].
  intros j N. rewrite C by assumption. apply step_other. congruence.
Qed.
Theorem alone s i : pc s i = LLook -> let s' := run s (repeat i 12) in
  pc s' i = LDone (alone_result (new i) (l_disk M s)) /\ l_disk M s' = alone_disk (new i) (l_disk M s) /\ forall j, j <> i -> pc s' j = pc s j.
Proof.
  intros P s'. destruct (run_turns 12 s i) as (A & B & C). rewrite P, turns_alone in A, B. cbn [fst snd] in *. auto.
Qed.
Lemma done_stays s i k r : pc s i = LDone r -> l_disk M (run s (repeat i k)) = l_disk M s /\ (forall j, pc (run s (repeat i k)) j = pc s j).
Proof.
  intro P. destruct (run_turns k s i) as (A & B & C). rewrite P, turns_done in A, B. cbn [fst snd] in A, B. split; [assumption|].
  intro j. destruct (Nat.eq_dec j i) as [->|N]; [congruence|auto].
Qed.

(** The links that were at the path so far *)
Definition was (d : ldisk M) (s : lstate M) (x : M) : Prop := l_path M d = Some x \/ exists i, x = new i /\ l_wrote M s i.
Record serial (d : ldisk M) (s : lstate M) : Prop := mkSerial {
  se_quiet : l_quiet M s;
  se_kept : forall x, was d s x -> path s = Some x \/ exists n, name_of x = Some n /\ trash s n = Some x }.
Theorem one_by_one d l : in_turns l ->
  (forall x y n, (l_path M d = Some x \/ exists i, x = new i) -> (l_path M d = Some y \/ exists i, y = new i) -> name_of x = Some n -> name_of y = Some n -> x = y) ->
  forall x, (l_path M d = Some x \/ exists i, x = new i /\ l_wrote M (run (l_fresh M d) l) i) ->
    path (run (l_fresh M d) l) = Some x \/ exists n, name_of x = Some n /\ trash (run (l_fresh M d) l) n = Some x.
Proof.
  intros T Inj.
  assert (G : forall s, serial d s -> in_turns l -> (forall x, path s = Some x -> l_path M d = Some x \/ exists i, x = new i) -> serial d (run s l)).
  { clear T. intros s Hs T. revert s Hs. induction T as [|i l T IH]; intros s Hs Src; [exact Hs|]. rewrite run_app. apply IH.
    - destruct Hs as [Q K]. destruct (Q i) as [P|(r & P)].
      + destruct (alone s i P) as (A & B & C). set (s' := run s (repeat i 12)) in *. split.
        * intro j. destruct (Nat.eq_dec j i) as [->|N]; [right; eauto|rewrite C by assumption; auto].
        * intros x Wx.
          assert (Old : was d s x \/ x = new i /\ alone_result (new i) (l_disk M s) = Ok true).
          { destruct Wx as [Wx|(j & -> & Wx)]; [left; now left|]. destruct (Nat.eq_dec j i) as [->|N].
            - right. split; [reflexivity|]. unfold l_wrote in Wx. rewrite A in Wx. now injection Wx.
            - left. right. exists j. split; [reflexivity|]. unfold l_wrote in *. now rewrite <- C. }
          rewrite B. unfold alone_disk, alone_result in *. destruct (path s) as [old|] eqn:E.
          -- destruct (replace old (new i)) as [[|]|e].
             ++ destruct (name_of old) as [n|] eqn:En.
                ** cbn [l_path l_trash]. destruct Old as [Old|[-> _]]; [|now left]. destruct (K x Old) as [Z|(k & N1 & N2)].
                   --- injection Z as ->. right. exists n. split; [assumption|]. unfold lput. now rewrite (proj2 (str_eqb_eq n n) eq_refl).
                   --- right. exists k. split; [assumption|]. unfold lput. destruct (str_eqb k n) eqn:Ek; [|assumption]. apply str_eqb_eq in Ek. subst k.
                       f_equal. apply (Inj old x n); auto. destruct Old as [Old|(j & -> & _)]; [now left|right; now exists j].
                ** destruct Old as [Old|[_ Z]]; [|discriminate]. rewrite E. now apply K.
             ++ destruct Old as [Old|[_ Z]]; [|discriminate]. rewrite E. now apply K.
             ++ destruct Old as [Old|[_ Z]]; [|discriminate]. rewrite E. now apply K.
          -- cbn [l_path l_trash]. destruct Old as [Old|[-> _]]; [|now left]. right. destruct (K x Old) as [Z|Z]; [discriminate|assumption].
      + destruct (done_stays s i 12 r P) as [A B]. split.
        * intro j. rewrite B. apply Q.
        * intros x Wx. rewrite A. apply K. destruct Wx as [Wx|(j & -> & Wx)]; [now left|right; exists j; split; [reflexivity|]]. unfold l_wrote in *. now rewrite <- B.
    - intros x Hx. destruct Hs as [Q K]. destruct (Q i) as [P|(r & P)].
      + destruct (alone s i P) as (_ & B & _). rewrite B in Hx. unfold alone_disk in Hx. destruct (path s) as [old|] eqn:E.
        * destruct (replace old (new i)) as [[|]|e]; [destruct (name_of old)| |]; try (rewrite E in Hx; now apply Src);
            try (cbn in Hx; injection Hx as <-; right; now exists i).
        * cbn in Hx. injection Hx as <-. right. now exists i.
      + destruct (done_stays s i 12 r P) as [A B]. rewrite A in Hx. now apply Src. }
  apply (se_kept d (run (l_fresh M d) l)). apply G; [|assumption|cbn; auto]. split.
  - intro i. now left.
  - intros x [H|(i & _ & H)]; [now left|discriminate].
Qed.
End Proofs.
