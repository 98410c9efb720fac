(** * What is compared before a file is moved to the trash *)
From Coq Require Import Strings.Byte Bool List Lia Arith.
From Verif Require Import Model.Py Model.PathOps Model.FetchRace Model.EditRace Spec.EditRaceSpec Proofs.AttrLemmas Proofs.EditRaceProofs.
Import ListNotations.

Section Compared.
Variables O D : bytes.
Variable got : list bytes.
Variable brk : option exn.
Notation step := (ustep O D got brk).
Notation run := (urun O D got brk (u_start O)).

Definition looked (l : list event) : Prop :=
  exists a b, l = a ++ Turn None :: b /\
    (u_pc (run a) = UDiff /\ u_content (run a) = Some O \/ u_pc (run a) = URe /\ u_content (run a) = Some D).
Lemma looked_snoc l e : looked l -> looked (l ++ [e]).
Proof. intros (a & b & -> & H). exists a, (b ++ [e]). split; [now rewrite <- app_assoc|exact H]. Qed.

(** The program is to move the file, or has. *)
Definition past (p : upc) : bool :=
  match p with UMove | UFetch _ | URestore _ => true | USet m | USetX m | UMkLink m => m | _ => false end.
Theorem compared l : u_pc (run l) = UMove \/ in_window (run l) -> looked l.
Proof.
  assert (G : past (u_pc (run l)) = true -> looked l).
  { induction l as [|e l IH] using rev_ind; [discriminate|]. rewrite run_app. change (urun O D got brk (run l) [e]) with (step (run l) e).
    destruct (past (u_pc (run l))) eqn:P; [intros _; now apply looked_snoc, IH|].
    destruct e as [[f|]|x|x]; cbn [ustep].
    - unfold ufail. cbn. destruct (u_pc (run l)) as [| | | | |[]|[]|[]| | |]; discriminate.
    - unfold uturn. destruct (u_pc (run l)) as [| | | | |[]|[]|[]|p|e|r] eqn:Q; try discriminate.
      + destruct (f_at (u_disk (run l))) as [|b|k]; try discriminate. now destruct (u_old (run l) k).
      + now destruct (f_at (u_disk (run l))).
      + destruct (f_at (u_disk (run l))) as [|b|k] eqn:E; try discriminate. destruct (u_old (run l) k); [|discriminate].
        destruct (bytes_eqb (f_data (u_disk (run l)) k) O) eqn:B; [|discriminate]. intros _. apply bytes_eqb_eq in B.
        exists l, []. split; [reflexivity|]. left. split; [exact Q|]. unfold u_content. rewrite E. cbn. now rewrite B.
      + destruct (f_at (u_disk (run l))) as [|b|k] eqn:E; try discriminate.
        destruct (bytes_eqb (f_data (u_disk (run l)) k) D) eqn:B; [|discriminate]. intros _. apply bytes_eqb_eq in B.
        exists l, []. split; [reflexivity|]. right. split; [exact Q|]. unfold u_content. rewrite E. cbn. now rewrite B.
      + now destruct (f_at (u_disk (run l))).
      + now destruct (f_at (u_disk (run l))).
      + cbn. rewrite Q. discriminate.
    - destruct (f_at (u_disk (run l))); cbn; now rewrite P.
    - cbn. now rewrite P. }
  intros [H|H]; apply G.
  - now rewrite H.
  - unfold in_window in H. destruct (u_pc (run l)) as [| | | | |[]|[]|[]|p|e|r]; easy.
Qed.

(** Before the move nothing is in the trash, and the file without a new one in its place is the first. *)
Definition virgin (l : list event) (s : ustate) : Prop :=
  late (u_pc s) = false -> u_bin s = EGone /\
    ((forall x, ~ In (Save x) l) -> f_at (u_disk s) = EFile 0 /\ u_old s 0 = true).
Lemma virgin_run l : virgin l (run l).
Proof.
  induction l as [|e l IH] using rev_ind; [intros _; now split|]. rewrite run_app. change (urun O D got brk (run l) [e]) with (step (run l) e).
  assert (NL : (forall x, ~ In (Save x) (l ++ [e])) -> forall x, ~ In (Save x) l) by (intros H x I; apply (H x), in_or_app; now left).
  destruct e as [f|x|x]; intro L.
  - assert (Q : late (u_pc (run l)) = false /\ u_bin (step (run l) (Turn f)) = u_bin (run l) /\
                f_at (u_disk (step (run l) (Turn f))) = f_at (u_disk (run l)) /\ u_old (step (run l) (Turn f)) = u_old (run l)).
    { revert L. destruct f as [f|]; cbn [ustep]; unfold uturn, ufail.
      - destruct (u_pc (run l)) as [| | | | |[]|[]|[]| | |]; try discriminate.
      - destruct (u_pc (run l)) as [| | | | |[]|[]|[]|p|e|r] eqn:Q; intro L; try (now repeat split); exfalso; revert L;
          try (destruct (f_at (u_disk (run l))); discriminate).
        + destruct (fturn D got brk p (u_disk (run l))) as (p' & d'). cbn. destruct p'; try discriminate. now destruct r.
        + destruct (u_bin (run l)); discriminate.
        + rewrite Q. discriminate. }
    destruct Q as (Q1 & Q2 & Q3 & Q4). destruct (IH Q1) as (I1 & I2). rewrite Q2, Q3, Q4. split; [exact I1|]. intro N. now apply I2, NL.
  - assert (Q : u_pc (step (run l) (Write x)) = u_pc (run l)) by (cbn [ustep]; now destruct (f_at (u_disk (run l)))).
    rewrite Q in L. destruct (IH L) as (I1 & I2). split; [cbn [ustep]; now destruct (f_at (u_disk (run l)))|].
    intro N. destruct (I2 (NL N)) as (A & B). cbn [ustep]. rewrite A. now split.
  - destruct (IH L) as (I1 & I2). split; [exact I1|]. intro N. destruct (N x). apply in_or_app. right. now left.
Qed.

Theorem changes l c : u_pc (run l) = UDiff -> u_content (run l) = Some c -> c <> O -> c <> D ->
  let s := run (l ++ [Turn None; Turn None]) in
  u_content s = Some c /\ u_trashed s = None /\
  exists e, u_pc s = UDone (Err e) /\ ((forall x, ~ In (Save x) l) -> e = LocalChangesError).
Proof.
  intros P C NO ND. cbv zeta. rewrite run_app. change (urun O D got brk (run l) [Turn None; Turn None]) with (step (step (run l) (Turn None)) (Turn None)).
  destruct (virgin_run l) as (B & V); [now rewrite P|]. unfold u_content in C. destruct (f_at (u_disk (run l))) as [|b|k] eqn:E; try discriminate.
  cbn in C. injection C as C.
  assert (X : bytes_eqb c O = false) by (destruct (bytes_eqb c O) eqn:X; [now apply bytes_eqb_eq in X|reflexivity]).
  assert (Y : bytes_eqb c D = false) by (destruct (bytes_eqb c D) eqn:Y; [now apply bytes_eqb_eq in Y|reflexivity]).
  destruct (u_old (run l) k) eqn:K.
  - assert (S1 : step (run l) (Turn None) = at_pc (run l) URe) by (cbn [ustep]; unfold uturn; now rewrite P, E, K, C, X).
    assert (S2 : step (at_pc (run l) URe) (Turn None) = at_pc (at_pc (run l) URe) (UDone (Err LocalChangesError))).
    { cbn [ustep]. unfold uturn. cbn [at_pc u_pc u_disk]. now rewrite E, C, Y. }
    rewrite S1, S2. unfold u_content, u_trashed. cbn. rewrite E, B. cbn. rewrite C. repeat split. now exists LocalChangesError.
  - assert (S1 : step (run l) (Turn None) = at_pc (run l) (UDone (Err AttributeError))) by (cbn [ustep]; unfold uturn; now rewrite P, E, K).
    assert (S2 : step (at_pc (run l) (UDone (Err AttributeError))) (Turn None) = at_pc (run l) (UDone (Err AttributeError))) by reflexivity.
    rewrite S1, S2. unfold u_content, u_trashed. cbn. rewrite E, B. cbn. rewrite C. repeat split. exists AttributeError. split; [reflexivity|].
    intro N. destruct (V N) as (A1 & A2). injection A1 as ->. congruence.
Qed.
End Compared.
