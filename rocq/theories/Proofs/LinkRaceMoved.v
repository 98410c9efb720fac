(** * Why a program made its link *)
From Coq Require Import String NArith PeanoNat Bool List Lia.
From Verif Require Import Model.Py Model.LinkRace Spec.LinkRaceSpec Proofs.PyLemmas Proofs.LinkRaceProofs.
Import ListNotations.

Section Moved.
Variable M : Type.
Variable replace : M -> M -> res bool.
Variable name_of : M -> option str.
Variable new : nat -> M.
Variable d : ldisk M.
Notation step := (lstep M replace name_of new).
Notation at_ l := (lrun M replace name_of new (l_fresh M d) l).
Notation path s := (l_path M (l_disk M s)).
Notation trash s := (l_trash M (l_disk M s)).

Definition found_none (l : list nat) (i : nat) : Prop := exists a b, l = a ++ i :: b /\ ~ In i a /\ path (at_ a) = None.
Definition allowed (l : list nat) (i : nat) : Prop :=
  exists a b old, l = a ++ i :: b /\ path (at_ a) = Some old /\ replace old (new i) = Ok true.
Definition moved_it (l : list nat) (i : nat) : Prop :=
  exists a b x n, l = a ++ i :: b /\ path (at_ a) = Some x /\ path (at_ (a ++ [i])) = None /\ trash (at_ (a ++ [i])) n = Some x /\ allowed a i.

Lemma found_snoc l i j : found_none l i -> found_none (l ++ [j]) i.
Proof. intros (a & b & -> & H). exists a, (b ++ [j]). now rewrite <- app_assoc. Qed.
Lemma allowed_snoc l i j : allowed l i -> allowed (l ++ [j]) i.
Proof. intros (a & b & o & -> & H). exists a, (b ++ [j]), o. now rewrite <- app_assoc. Qed.
Lemma moved_snoc l i j : moved_it l i -> moved_it (l ++ [j]) i.
Proof. intros (a & b & x & n & -> & H). exists a, (b ++ [j]), x, n. now rewrite <- app_assoc. Qed.

Definition why (l : list nat) (i : nat) (p : lpc) : Prop :=
  match p with
  | LLook => ~ In i l
  | LIs2 | LMeta2 | LLink2 | LIs3 | LMeta3 | LLink3 | LMove _ => allowed l i
  | LMake | LDone (Ok true) => found_none l i \/ moved_it l i
  | _ => True
  end.
Lemma why_snoc l i j p : i <> j -> why l i p -> why (l ++ [j]) i p.
Proof.
  intros N. destruct p as [| | | | | | | | | | |[[]|]]; cbn; try easy; try apply allowed_snoc.
  - intros H I. apply in_app_or in I. destruct I as [I|[I|[]]]; congruence.
  - intros [H|H]; [left; now apply found_snoc|right; now apply moved_snoc].
  - intros [H|H]; [left; now apply found_snoc|right; now apply moved_snoc].
Qed.
Lemma why_run l i : why l i (l_pc M (at_ l) i).
Proof.
  induction l as [|j l IH] using rev_ind; [cbn; easy|]. rewrite run_snoc.
  destruct (Nat.eq_dec j i) as [->|N]; [|rewrite step_other by exact N; now apply why_snoc; [congruence|]].
  assert (R := run_snoc M replace name_of new (l_fresh M d) l i). unfold lstep in *.
  destruct (l_pc M (at_ l) i) eqn:P; cbn [lturn] in R |- *; cbn in IH.
  - destruct (path (at_ l)) eqn:E; cbn; rewrite Nat.eqb_refl; cbn; [exact I|]. left. now exists l, [].
  - destruct (path (at_ l)) eqn:E; cbn; rewrite Nat.eqb_refl; exact I.
  - destruct (path (at_ l)) eqn:E; cbn; rewrite Nat.eqb_refl; [|exact I]. destruct (replace m (new i)) as [[]|] eqn:Q; cbn; try exact I.
    now exists l, [], m.
  - destruct (path (at_ l)) eqn:E; cbn; rewrite Nat.eqb_refl; [now apply allowed_snoc|exact I].
  - destruct (path (at_ l)) eqn:E; cbn; rewrite Nat.eqb_refl; [now apply allowed_snoc|exact I].
  - destruct (path (at_ l)) eqn:E; cbn; rewrite Nat.eqb_refl; [now apply allowed_snoc|exact I].
  - destruct (path (at_ l)) eqn:E; cbn; rewrite Nat.eqb_refl; [now apply allowed_snoc|exact I].
  - destruct (path (at_ l)) eqn:E; cbn; rewrite Nat.eqb_refl; [now apply allowed_snoc|exact I].
  - destruct (path (at_ l)) eqn:E; cbn; rewrite Nat.eqb_refl; [|exact I]. destruct (name_of m); [now apply allowed_snoc|exact I].
  - destruct (path (at_ l)) eqn:E; cbn; rewrite Nat.eqb_refl; [|exact I]. right. exists l, [], m, name.
    split; [reflexivity|]. split; [exact E|]. rewrite R. cbn. unfold lput. rewrite str_eqb_refl. now repeat split.
  - destruct (path (at_ l)) eqn:E; cbn; rewrite Nat.eqb_refl; [exact I|]. cbn.
    destruct IH as [H|H]; [left; now apply found_snoc|right; now apply moved_snoc].
  - cbn. rewrite Nat.eqb_refl. destruct r as [[]|]; cbn in *; try exact I.
    destruct IH as [H|H]; [left; now apply found_snoc|right; now apply moved_snoc].
Qed.

Theorem why_made l i : l_wrote M (at_ l) i ->
  (exists a b, l = a ++ i :: b /\ ~ In i a /\ path (at_ a) = None) \/
  (exists a b x n a' b' old, l = a ++ i :: b /\ path (at_ a) = Some x /\ path (at_ (a ++ [i])) = None /\ trash (at_ (a ++ [i])) n = Some x /\
     a = a' ++ i :: b' /\ path (at_ a') = Some old /\ replace old (new i) = Ok true).
Proof.
  intro W. assert (H := why_run l i). rewrite W in H. destruct H as [H|(a & b & x & n & E & P1 & P2 & T & a' & b' & o & A)]; [now left|right].
  now exists a, b, x, n, a', b', o.
Qed.
End Moved.
