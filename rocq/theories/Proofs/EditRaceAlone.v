(** * An update that nobody disturbs *)
From Coq Require Import Strings.Byte Bool List Lia Arith.
From Verif Require Import Model.Py Model.PathOps Model.FetchRace Model.EditRace Spec.FetchRaceSpec Spec.EditRaceSpec Proofs.AttrLemmas Proofs.FetchRaceProofs Proofs.EditRaceProofs.
Import ListNotations.

Section Alone.
Variables O D : bytes.
Variable got : list bytes.
Variable brk : option exn.

(** The fetching of the update and a program that fetches *)
Definition rel (s : ustate) (f : fstate) : Prop :=
  match f_pc f 0 with
  | FDone (Ok _) => u_pc s = UDone (Ok tt) /\ u_disk s = f_disk f
  | FDone (Err _) => True
  | p => u_pc s = UFetch p /\ u_disk s = f_disk f
  end.
Lemma rel_step s f : rel s f -> rel (ustep O D got brk s (Turn None)) (fstep D (fun _ => got) (fun _ => brk) f 0).
Proof.
  intro R. destruct (f_pc f 0) as [| | | | | | | | | | | | | | | | |[r|r]] eqn:P.
  all: unfold rel in *; unfold fstep; rewrite P in *.
  all: try (cbn; exact I).
  all: destruct R as (R1 & R2); cbn [ustep]; unfold uturn; rewrite R1.
  all: try (cbn; now split).
  all: rewrite R2; destruct (fturn D got brk _ (f_disk f)) as (p' & d'); cbn; destruct p'; try now split.
  all: destruct r; now split.
Qed.
Lemma rel_run n : forall s f, rel s f ->
  rel (urun O D got brk s (repeat (Turn None) n)) (frun D (fun _ => got) (fun _ => brk) f (repeat 0 n)).
Proof. induction n as [|n IH]; intros s f R; [exact R|]. cbn. apply IH. now apply rel_step. Qed.

Lemma rel_done n s f d : rel s f -> f_pc (frun D (fun _ => got) (fun _ => brk) f (repeat 0 n)) 0 = FDone (Ok tt) ->
  f_disk (frun D (fun _ => got) (fun _ => brk) f (repeat 0 n)) = d ->
  u_pc (urun O D got brk s (repeat (Turn None) n)) = UDone (Ok tt) /\ u_disk (urun O D got brk s (repeat (Turn None) n)) = d.
Proof. intros R P <-. assert (Z := rel_run n s f R). unfold rel in Z. rewrite P in Z. exact Z. Qed.

Theorem undisturbed : concat got = D -> got <> [] -> brk = None ->
  let s := urun O D got brk (u_start O) (repeat (Turn None) (20 + length got)) in
  u_pc s = UDone (Ok tt) /\ u_content s = Some D /\ u_trashed s = Some O.
Proof.
  intros C N B. cbv zeta. replace (20 + length got) with (6 + (14 + length got)) by lia. rewrite repeat_app, run_app.
  set (s6 := urun O D got brk (u_start O) (repeat (Turn None) 6)).
  assert (E6 : s6 = mkU (mkFD (ELink false) (fun _ => O) (fun _ => None) 1) (fun _ => true) (EFile 0) (UFetch FExists)).
  { unfold s6. cbn. rewrite (proj2 (bytes_eqb_eq O O) eq_refl). reflexivity. }
  set (f6 := mkFS (mkFD (ELink false) (fun _ => O) (fun _ => None) 1) (fun _ => FExists)).
  assert (R : rel s6 f6) by (rewrite E6; now split).
  destruct (onei_alone D (fun _ => got) (fun _ => brk) 0 (fun _ => FExists) f6 C N B) as (d' & (O1 & O2 & _) & k & A & M & E); [now repeat split|now left|].
  destruct (rel_done (14 + length got) s6 f6 d' R O1 O2) as (Z1 & Z2).
  assert (K : binned O s6) by (rewrite E6; exists 0; repeat split; cbn; try lia; discriminate).
  split; [exact Z1|]. split.
  - unfold u_content. rewrite Z2, A. cbn. now rewrite E.
  - destruct (binned_run O D got brk O (repeat (Turn None) (14 + length got)) s6 K) as [T|(a & b & Ea & _ & (e & X))]; [exact T|exfalso].
    assert (La : Forall (fun x => x = Turn None) (a ++ Turn None :: b)) by (rewrite <- Ea; apply Forall_forall; intros x; apply repeat_spec).
    assert (Dn : forall l s r, u_pc s = UDone r -> Forall (fun x => x = Turn None) l -> urun O D got brk s l = s).
    { induction l as [|x l IH]; intros s r Er Fl; [reflexivity|]. inversion Fl; subst. cbn. unfold uturn at 1. rewrite Er. now apply (IH s r). }
    apply Forall_app in La. destruct La as (_ & Lb). inversion Lb; subst.
    assert (Y : urun O (concat got) got None s6 (a ++ Turn None :: b) = urun O (concat got) got None s6 (a ++ [Turn None])).
    { change (Turn None :: b) with ([Turn None] ++ b). rewrite app_assoc, run_app. now apply (Dn b _ _ X). }
    rewrite Ea, Y in Z1. congruence.
Qed.
End Alone.
