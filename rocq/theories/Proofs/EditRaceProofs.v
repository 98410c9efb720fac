(** * Proofs for a file that is edited while it is updated *)
From Coq Require Import Strings.Byte Bool List Lia Arith.
From Verif Require Import Model.Py Model.PathOps Model.FetchRace Model.EditRace Spec.EditRaceSpec.
Import ListNotations.

Section Proofs.
Variables O D : bytes.
Variable got : list bytes.
Variable brk : option exn.
Notation step := (ustep O D got brk).
Notation run := (urun O D got brk (u_start O)).

(** The file [t] is not at the path, and nothing is written to it. *)
Definition apart (t : nat) (c : bytes) (d : fdisk) : Prop :=
  f_data d t = c /\ t < f_next d /\ f_at d <> EFile t.
Definition not_to (t : nat) (p : fpc) : Prop := match p with FWrite _ k _ _ => k <> t | _ => True end.

Lemma eqb_ne a b : a <> b -> Nat.eqb a b = false. Proof. apply Nat.eqb_neq. Qed.

Lemma apart_entry t c d x : apart t c d -> x <> EFile t -> apart t c (set_entry x d).
Proof. intros (A & B & C) X. now repeat split. Qed.
Lemma apart_data t c d k b : apart t c d -> k <> t -> apart t c (set_data k b d).
Proof. intros (A & B & C) X. repeat split; try easy. cbn. rewrite eqb_ne; [easy|congruence]. Qed.
Lemma apart_meta t c d k m : apart t c d -> apart t c (set_fmeta k m d).
Proof. intros (A & B & C). now repeat split. Qed.
Lemma apart_make t c d : apart t c d -> apart t c (make d).
Proof.
  intros (A & B & C). repeat split; cbn.
  - rewrite eqb_ne; [easy|lia].
  - lia.
  - intro H. injection H as H. lia.
Qed.
Lemma at_ne t c d k : apart t c d -> f_at d = EFile k -> k <> t.
Proof. intros (A & B & C) E H. apply C. now rewrite E, H. Qed.
Lemma next_ne t c d : apart t c d -> f_next d <> t.
Proof. intros (A & B & C). lia. Qed.

Lemma fturn_apart t c d p : apart t c d -> not_to t p ->
  apart t c (snd (fturn D got brk p d)) /\ not_to t (fst (fturn D got brk p d)).
Proof.
  intros A N. assert (Q := at_ne t c d). assert (Q2 := next_ne t c d A).
  destruct p; cbn [fturn].
  all: try (destruct (f_at d) as [|b0|k] eqn:E; cbn [fst snd]).
  all: try (destruct (f_meta d k) eqn:M; cbn [fst snd]).
  all: try match goal with |- context [Nat.eqb ?x ?y] => destruct (Nat.eqb x y) end.
  all: try match goal with |- context [bytes_eqb ?x ?y] => destruct (bytes_eqb x y) end.
  all: try match goal with b : bool |- context [if ?x then _ else _] => destruct x end.
  all: try (destruct got eqn:G; cbn [fst snd]).
  all: try (destruct left; cbn [fst snd]).
  all: try (destruct brk; cbn [fst snd]).
  all: try (split; [assumption|exact I]).
  all: try (split; [now apply apart_entry|exact I]).
  all: try (split; [now apply apart_meta|exact I]).
  all: try (split; [now apply apart_make|exact I]).
  all: try (split; [apply apart_data; [assumption|now apply Q]|now apply Q]).
  all: try (split; [now apply apart_make|assumption]).
  all: try (split; [now apply apart_data|assumption]).
Qed.

(** After the move *)
Definition late (p : upc) : bool :=
  match p with USet m | USetX m | UMkLink m => m | UFetch _ | URestore _ | UDone _ => true | _ => false end.
Definition binned (c : bytes) (s : ustate) : Prop :=
  exists t, u_bin s = EFile t /\ apart t c (u_disk s) /\ late (u_pc s) = true /\
    match u_pc s with UFetch p => not_to t p | _ => True end.

Lemma binned_trashed c s : binned c s -> u_trashed s = Some c.
Proof. intros (t & B & (A & _) & _). unfold u_trashed. rewrite B. cbn. now rewrite A. Qed.

Lemma binned_late c s p : late p = true -> (forall q, p = UFetch q -> q = FExists) -> binned c s -> binned c (at_pc s p).
Proof.
  intros L F (t & B & A & _ & _). exists t. repeat split; try easy; try apply A.
  cbn. destruct p; try exact I. now rewrite (F _ eq_refl).
Qed.

(** It stays in the trash, or is put back. *)
Lemma binned_step c s e : binned c s ->
  binned c (step s e) \/ e = Turn None /\ u_content (step s e) = Some c /\ u_raised (step s e).
Proof.
  intros H. assert (H0 := H). destruct H as (t & B & A & L & N).
  destruct e as [[e|]|x|x].
  - left. cbn [ustep]. unfold ufail. apply binned_late; [|intros q E; now destruct (u_pc s) as [| | | | |[]|[]|[]| | |]; try discriminate|exact H0].
    destruct (u_pc s) as [| | | | |[]|[]|[]| | |]; try reflexivity; discriminate.
  - cbn [ustep]. unfold uturn. destruct (u_pc s) as [| | | | |m|m|m|p|e|r] eqn:P; cbn in L; try discriminate.
    + left. apply binned_late; [destruct (f_at (u_disk s)); exact L|intros q E; destruct (f_at (u_disk s)); discriminate|exact H0].
    + subst m. left. destruct (f_at (u_disk s)) as [|b|k] eqn:E.
      * now apply binned_late; [|intros q Q; discriminate|].
      * now apply binned_late; [|intros q Q; discriminate|].
      * exists t. repeat split; cbn; try easy; apply A.
    + subst m. left. exists t. destruct (f_at (u_disk s)) as [|b|k] eqn:E; repeat split; cbn; try easy; try apply A.
    + left. destruct (fturn_apart t c (u_disk s) p A N) as (A' & N').
      destruct (fturn D got brk p (u_disk s)) as (p' & d'). cbn [fst snd] in A', N'.
      exists t. split; [exact B|]. split; [exact A'|]. cbn. destruct p'; try (split; [reflexivity|]; assumption).
      destruct r; now split.
    + rewrite B. right. split; [reflexivity|]. split; [|now exists e].
      unfold u_content, read_entry. cbn. now destruct A as (-> & _).
    + left. exists t. rewrite P. now repeat split; try apply A.
  - left. cbn [ustep]. destruct (f_at (u_disk s)) as [|b|k] eqn:E.
    + exists t. split; [exact B|]. split; [|now split]. apply apart_data; [now apply apart_make|now apply (next_ne t c)].
    + exact H0.
    + exists t. split; [exact B|]. split; [|now split]. apply apart_data; [exact A|now apply (at_ne t c (u_disk s))].
  - left. exists t. split; [exact B|]. split; [|now split]. apply apart_data; [now apply apart_make|now apply (next_ne t c)].
Qed.

Lemma run_app s a b : urun O D got brk s (a ++ b) = urun O D got brk (urun O D got brk s a) b.
Proof. apply fold_left_app. Qed.

Lemma binned_run c l : forall s, binned c s ->
  u_trashed (urun O D got brk s l) = Some c \/
  exists a b, l = a ++ Turn None :: b /\
    u_content (urun O D got brk s (a ++ [Turn None])) = Some c /\ u_raised (urun O D got brk s (a ++ [Turn None])).
Proof.
  induction l as [|e l IH]; intros s H; [left; now apply binned_trashed|].
  destruct (binned_step c s e H) as [H'|(-> & C & R)].
  - destruct (IH _ H') as [T|(a & b & -> & C & R)]; [now left|right].
    now exists (e :: a), b.
  - right. now exists [], l.
Qed.

(** Before the move, or without fetching *)
Definition present (c : bytes) (s : ustate) : Prop :=
  exists k, f_at (u_disk s) = EFile k /\ f_data (u_disk s) k = c /\ k < f_next (u_disk s).
Lemma present_content c s : present c s -> u_content s = Some c.
Proof. intros (k & A & B & _). unfold u_content. rewrite A. cbn. now rewrite B. Qed.

Definition inv (R : Prop) (c : bytes) (s : ustate) : Prop :=
  match u_pc s with
  | UDone (Ok _) => u_content s = Some c \/ u_trashed s = Some c
  | UDone (Err _) => (u_content s = Some c \/ u_trashed s = Some c) /\ (R -> u_content s = Some c)
  | p => if late p then binned c s else present c s
  end.

Lemma inv_done (R : Prop) c s r : u_content s = Some c -> u_pc s = UDone r -> inv R c s.
Proof. intros C P. unfold inv. rewrite P. destruct r; [now left|split; [now left|easy]]. Qed.

Lemma present_at c s p : present c s -> present c (at_pc s p). Proof. easy. Qed.
Lemma inv_present R c s : present c s -> late (u_pc s) = false -> inv R c s.
Proof. intros H L. unfold inv. destruct (u_pc s); try now rewrite L. discriminate. Qed.
Lemma inv_binned (R : Prop) c s : binned c s -> (forall r, u_pc s <> UDone (Err r)) -> inv R c s.
Proof.
  intros H L. unfold inv. assert (H0 := H). destruct H0 as (t & _ & _ & X & _).
  destruct (u_pc s) as [| | | | |m|m|m|p|e|[r|r]]; try discriminate; try (rewrite X; exact H); try exact H.
  - right. now apply binned_trashed.
  - now destruct (L r).
Qed.

Lemma inv_step (R R' : Prop) c s e : inv R c s -> (R' -> R) ->
  (forall f x, e = Turn (Some f) -> R' -> u_pc s <> URestore x) ->
  (forall x, ~ is_save s e x) -> inv R' c (step s e).
Proof.
  intros H RR RF NS. destruct e as [f|x|x].
  2: { cbn [ustep]. destruct (f_at (u_disk s)) as [|b|k] eqn:E; try (destruct (NS x); right; split; [reflexivity|congruence]).
       revert H. unfold inv. destruct (u_pc s) as [| | | | |m|m|m|p|e|[r|r]]; try easy. intros (A & B). split; auto. }
  2: { destruct (NS x). now left. }
  destruct (late (u_pc s)) eqn:L.
  - destruct (u_pc s) as [| | | | |m|m|m|p|e|r] eqn:P; try discriminate.
    6: { assert (Q : step s (Turn f) = s).
         { destruct f; cbn [ustep]; unfold uturn, ufail; rewrite P; [|reflexivity]. destruct s; cbn in *. now subst. }
         rewrite Q. revert H. unfold inv. rewrite P. destruct r; [easy|]. intros (A & B). split; auto. }
    5: { assert (B : binned c s) by (revert H; unfold inv; now rewrite P).
         destruct f as [f|].
         - assert (T : u_trashed (step s (Turn (Some f))) = Some c).
           { apply binned_trashed in B. cbn [ustep]. exact B. }
           assert (Q : u_pc (step s (Turn (Some f))) = UDone (Err f)) by (cbn [ustep]; unfold ufail; now rewrite P).
           unfold inv. rewrite Q. split; [now right|]. intro X. now destruct (RF f e eq_refl X).
         - destruct B as (t & B & A & _). apply (inv_done _ _ _ (Err e)); cbn [ustep]; unfold uturn; rewrite P, B; [|reflexivity].
           unfold u_content, read_entry. cbn. now destruct A as (-> & _). }
    all: assert (B : binned c s) by (revert H; unfold inv; rewrite P; cbn in L |- *; now rewrite ?L).
    all: destruct (binned_step c s (Turn f) B) as [B'|(-> & C & (x & X))].
    all: try (now apply (inv_done _ _ _ (Err x))).
    all: try (apply inv_binned; [exact B'|]; intro r; destruct f; cbn [ustep]; unfold uturn, ufail; rewrite P).
    all: try (cbn in L; subst m).
    all: try (cbn; discriminate).
    all: try (destruct (f_at (u_disk s)); cbn; discriminate).
    destruct (fturn D got brk p (u_disk s)) as (p' & d'). cbn. destruct p'; try discriminate. destruct r0; discriminate.
  - assert (B : present c s) by (revert H; unfold inv; destruct (u_pc s); try easy; now rewrite L).
    destruct f as [f|].
    + apply (inv_done _ _ _ (Err f)); [now apply present_content in B|].
      cbn [ustep]. unfold ufail. cbn. destruct (u_pc s) as [| | | | |[]|[]|[]|p|e|r]; try reflexivity; discriminate.
    + assert (C := present_content _ _ B). destruct B as (k & A1 & A2 & A3).
      cbn [ustep]. unfold uturn. rewrite A1.
      assert (PP : present c s) by now exists k.
      destruct (u_pc s) as [| | | | |[]|[]|[]|p|e|r] eqn:P; try discriminate.
      * destruct (u_old s k); now apply inv_present.
      * now apply inv_present.
      * destruct (u_old s k); [|now apply (inv_done _ _ _ (Err AttributeError))].
        destruct (bytes_eqb (f_data (u_disk s) k) O); now apply inv_present.
      * destruct (bytes_eqb (f_data (u_disk s) k) D); [now apply inv_present|now apply (inv_done _ _ _ (Err LocalChangesError))].
      * apply inv_binned; [|discriminate]. exists k. now repeat split.
      * now apply inv_present.
      * apply (inv_done _ _ _ (Ok tt)); [|reflexivity]. unfold u_content, read_entry in *. cbn. now rewrite A1 in *.
      * apply (inv_done _ _ _ (Ok tt)); [|reflexivity]. unfold u_content, read_entry in *. cbn. now rewrite A1 in *.
Qed.

Lemma save_content c s e : is_save s e c -> u_content (step s e) = Some c /\ u_pc (step s e) = u_pc s.
Proof.
  intros [->|(-> & NL)]; cbn [ustep].
  - split; [|reflexivity]. unfold u_content, read_entry. cbn. now rewrite Nat.eqb_refl.
  - destruct (f_at (u_disk s)) as [|b|k] eqn:E; [|now destruct (NL b)|]; (split; [|reflexivity]); unfold u_content, read_entry; cbn.
    + now rewrite Nat.eqb_refl.
    + rewrite E. cbn. now rewrite Nat.eqb_refl.
Qed.
Lemma save_present c c' s e : is_save s e c -> present c' s -> present c (step s e).
Proof.
  intros [->|(-> & NL)] (k & A & B & L); cbn [ustep]; [|rewrite A].
  - exists (f_next (u_disk s)). cbn. rewrite Nat.eqb_refl. repeat split. lia.
  - exists k. cbn. now rewrite Nat.eqb_refl.
Qed.

Lemma inv_save (R R' : Prop) c c' s e : inv R c s -> is_save s e c' -> ~ in_window s -> inv R' c' (step s e).
Proof.
  intros H S W. destruct (save_content _ _ _ S) as (P & Q). destruct (late (u_pc s)) eqn:L.
  - destruct (u_pc s) as [| | | | |[]|[]|[]|p|x|r] eqn:X; try discriminate; try (destruct W; unfold in_window; now rewrite X).
    now apply (inv_done _ _ _ r).
  - apply inv_present; [|congruence]. apply (save_present _ c); [exact S|].
    revert H. unfold inv. destruct (u_pc s); try easy; now rewrite L.
Qed.

Lemma snoc_cases {A} (l : list A) : l = [] \/ exists a x, l = a ++ [x].
Proof. destruct l using rev_ind; [now left|right; now exists l, x]. Qed.

Lemma last_snoc l e c : saved_last O D got brk (l ++ [e]) c ->
  is_save (run l) e c \/ saved_last O D got brk l c /\ forall x, ~ is_save (run l) e x.
Proof.
  intros [(-> & N)|(a & e0 & b & E & S & N)].
  - right. split; [|intro x; now apply (N l e [])]. left. split; [reflexivity|].
    intros a e' b x ->. apply (N a e' (b ++ [e])). now rewrite <- app_assoc.
  - destruct (snoc_cases b) as [->|(b0 & x & ->)].
    + apply app_inj_tail in E. destruct E as (-> & ->). now left.
    + assert (E' : l ++ [e] = (a ++ e0 :: b0) ++ [x]) by now rewrite E, <- app_assoc.
      apply app_inj_tail in E'. destruct E' as (-> & ->). right. split.
      * right. exists a, e0, b0. split; [reflexivity|]. split; [exact S|].
        intros a' e' b' y ->. apply (N a' e' (b' ++ [x])). now rewrite <- app_assoc.
      * intro y. now apply (N b0 x []).
Qed.

Lemma outside_snoc l e : outside O D got brk (l ++ [e]) -> outside O D got brk l /\ ((forall f, e <> Turn f) -> ~ in_window (run l)).
Proof.
  intro H. split; [|intro T; now apply (H l e [])]. intros a x b -> T. apply (H a x (b ++ [e])); [now rewrite <- app_assoc|exact T].
Qed.
Lemma restores_snoc l e : restores O D got brk (l ++ [e]) ->
  restores O D got brk l /\ forall f x, e = Turn (Some f) -> u_pc (run l) <> URestore x.
Proof.
  intro H. split; [|intros f x ->; now apply (H l f [])]. intros a x b -> y. apply (H a x (b ++ [e])). now rewrite <- app_assoc.
Qed.

Lemma inv_run l : forall c, outside O D got brk l -> saved_last O D got brk l c -> inv (restores O D got brk l) c (run l).
Proof.
  induction l as [|e l IH] using rev_ind; intros c W S.
  - destruct S as [(-> & _)|(a & e & b & E & _)]; [|now destruct a].
    apply inv_present; [|reflexivity]. exists 0. cbn. repeat split. lia.
  - destruct (outside_snoc _ _ W) as (W1 & W2). rewrite run_app. change (inv (restores O D got brk (l ++ [e])) c (step (run l) e)).
    destruct (last_snoc _ _ _ S) as [V|(S1 & NS)].
    + assert (X : exists c0, saved_last O D got brk l c0).
      { clear. induction l as [|e l (c & IH)] using rev_ind.
        - exists O. left. split; [reflexivity|]. intros a e b x E. now destruct a.
        - assert (DD : (exists x, is_save (run l) e x) \/ forall x, ~ is_save (run l) e x).
          { destruct e as [f|x|x].
            - right. intros x [X|(X & _)]; discriminate.
            - destruct (f_at (u_disk (run l))) as [|b|k] eqn:E.
              + left. exists x. right. split; [reflexivity|]. rewrite E. discriminate.
              + right. intros y [X|(X & Y)]; [discriminate|now apply (Y b)].
              + left. exists x. right. split; [reflexivity|]. rewrite E. discriminate.
            - left. exists x. now left. }
          destruct DD as [(x & X)|N].
          + exists x. right. exists l, e, []. repeat split; [exact X|]. intros a' e' b' y E. now destruct a'.
          + exists c. destruct IH as [(-> & A)|(a & e0 & b & -> & A & B)].
            * left. split; [reflexivity|]. intros a e' b x E. destruct (snoc_cases b) as [->|(b0 & z & ->)].
              -- apply app_inj_tail in E. destruct E as (<- & <-). apply N.
              -- assert (E' : l ++ [e] = (a ++ e' :: b0) ++ [z]) by now rewrite E, <- app_assoc.
                 apply app_inj_tail in E'. destruct E' as (E' & _). now apply (A a e' b0).
            * right. exists a, e0, (b ++ [e]). split; [now rewrite <- app_assoc|]. split; [exact A|].
              intros a' e' b' x E. destruct (snoc_cases b') as [->|(b0 & z & ->)].
              -- apply app_inj_tail in E. destruct E as (<- & <-). apply N.
              -- assert (E' : b ++ [e] = (a' ++ e' :: b0) ++ [z]) by now rewrite E, <- app_assoc.
                 apply app_inj_tail in E'. destruct E' as (E' & _). now apply (B a' e' b0). }
      destruct X as (c0 & X). apply (inv_save (restores O D got brk l) _ c0); [now apply IH|exact V|].
      apply W2. intros f ->. destruct V as [V|(V & _)]; discriminate.
    + apply (inv_step (restores O D got brk l)); [now apply IH| | |exact NS].
      * intro R. now apply restores_snoc in R.
      * intros f x -> R. apply restores_snoc in R. now apply (proj2 R f).
Qed.

(** What was saved last is at the path or in the trash. *)
Theorem kept l c : outside O D got brk l -> saved_last O D got brk l c ->
  u_content (run l) = Some c \/ u_trashed (run l) = Some c.
Proof.
  intros W S. assert (H := inv_run l c W S). revert H. unfold inv.
  destruct (u_pc (run l)) as [| | | | |m|m|m|p|e|[r|r]]; cbn [late].
  1-5: intro H; left; now apply present_content.
  1-3: destruct m; intro H; [right; now apply binned_trashed|left; now apply present_content].
  1-2: intro H; right; now apply binned_trashed.
  - easy.
  - now intros (H & _).
Qed.
(** When it raised, it is where it was. *)
Theorem back l c : outside O D got brk l -> restores O D got brk l -> saved_last O D got brk l c -> u_raised (run l) ->
  u_content (run l) = Some c.
Proof.
  intros W R S (e & E). assert (H := inv_run l c W S). revert H. unfold inv. rewrite E. intros (_ & H). now apply H.
Qed.

(** What was at the path when it was moved, whoever saves when *)
Definition early (s : ustate) : Prop := late (u_pc s) = false -> exists c, present c s.
Lemma early_step s e : early s -> early (step s e).
Proof.
  intros H L. destruct e as [f|x|x].
  - destruct (late (u_pc s)) eqn:X.
    + exfalso. revert L. destruct f as [f|]; cbn [ustep]; unfold ufail, uturn.
      * destruct (u_pc s) as [| | | | |[]|[]|[]| | |]; discriminate.
      * destruct (u_pc s) as [| | | | |[]|[]|[]|p|e|r] eqn:P; try discriminate;
          try (destruct (f_at (u_disk s)); cbn; discriminate).
        -- destruct (fturn D got brk p (u_disk s)) as (p' & d'). cbn. destruct p'; try discriminate. destruct r; discriminate.
        -- destruct (u_bin s); cbn; discriminate.
        -- rewrite P. discriminate.
    + destruct (H X) as (c & k & A & B & K). exists c. revert L. destruct f as [f|]; cbn [ustep].
      * intros _. now exists k.
      * unfold uturn. rewrite A. destruct (u_pc s) as [| | | | |[]|[]|[]|p|e|r] eqn:P; try discriminate; intros L; try (now exists k).
  - assert (P : u_pc (step s (Write x)) = u_pc s) by (cbn [ustep]; now destruct (f_at (u_disk s))).
    rewrite P in L. destruct (H L) as (c & C). exists x. apply (save_present x c); [|exact C]. right. split; [reflexivity|].
    destruct C as (k & -> & _). discriminate.
  - destruct (H L) as (c & C). exists x. apply (save_present x c); [now left|exact C].
Qed.
Lemma early_run l : early (run l).
Proof.
  induction l as [|e l IH] using rev_ind.
  - intros _. exists O, 0. cbn. repeat split. lia.
  - rewrite run_app. now apply early_step.
Qed.
Theorem moved l1 l2 c : u_pc (run l1) = UMove -> u_content (run l1) = Some c ->
  let after l := run (l1 ++ Turn None :: l) in
  u_trashed (after l2) = Some c \/
  exists a b, l2 = a ++ Turn None :: b /\ u_content (after (a ++ [Turn None])) = Some c /\ u_raised (after (a ++ [Turn None])).
Proof.
  intros P C after. destruct (early_run l1) as (c' & k & A & B & K); [now rewrite P|].
  assert (c' = c) as -> by (unfold u_content in C; rewrite A in C; cbn in C; congruence).
  assert (Z : binned c (step (run l1) (Turn None))).
  { cbn [ustep]. unfold uturn. rewrite P, A. exists k. now repeat split. }
  assert (Q : forall l, after l = urun O D got brk (step (run l1) (Turn None)) l).
  { intro l. unfold after. now rewrite run_app. }
  rewrite Q. destruct (binned_run c l2 _ Z) as [T|(a & b & -> & X & Y)]; [now left|right].
  exists a, b. now rewrite Q.
Qed.
End Proofs.
