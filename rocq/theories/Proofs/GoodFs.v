(** A test for good file systems, for examples. *)
From Coq Require Import String NArith ZArith Bool List.
From Verif Require Import Model.Py Model.PurePath Model.Fs Spec.FsSpec Proofs.PyLemmas Proofs.FsLemmas.
Import ListNotations.

Definition good_name_b (x : str) : bool :=
  (negb (str_eqb x []) && negb (str_eqb x $".") && negb (str_eqb x $"..") && negb (existsb (N.eqb (chr "/")) x))%bool.
Fixpoint nodup_b (l : list str) : bool :=
  match l with [] => true | x :: r => (negb (existsb (str_eqb x) r) && nodup_b r)%bool end.
Fixpoint good_b (n : node) : bool :=
  match n with
  | File _ _ | Link _ => true
  | Dir _ es =>
      (nodup_b (map fst es) && forallb good_name_b (map fst es) &&
       (fix all (l : list (str * node)) : bool := match l with [] => true | (_, c) :: r => (good_b c && all r)%bool end) es)%bool
  end.
Definition good_fs_b (n : node) : bool := match n with Dir _ _ => good_b n | _ => false end.

Lemma good_name_b_ok x : good_name_b x = true -> good_name x.
Proof.
  unfold good_name_b. rewrite !andb_true_iff, !negb_true_iff. intros [[[A B] C] D]. repeat split.
  - now apply str_eqb_neq.
  - now apply str_eqb_neq.
  - now apply str_eqb_neq.
  - intro I. assert (E : existsb (N.eqb (chr "/")) x = true) by (apply existsb_exists; exists (chr "/"); split; [assumption|apply N.eqb_refl]). congruence.
Qed.
Lemma nodup_b_ok l : nodup_b l = true -> NoDup l.
Proof.
  induction l as [|x l IH]; intro H; constructor; cbn [nodup_b] in H; apply andb_true_iff in H as [A B].
  - intro I. rewrite negb_true_iff in A. assert (E : existsb (str_eqb x) l = true) by (apply existsb_exists; exists x; split; [assumption|now apply str_eqb_eq]). congruence.
  - now apply IH.
Qed.
Fixpoint good_b_ok (n : node) : good_b n = true -> good n.
Proof.
  destruct n as [d xs|xs es|t]; intro H; [constructor| |constructor]. cbn [good_b] in H. apply andb_true_iff in H as [H C]. apply andb_true_iff in H as [A B].
  constructor.
  - now apply nodup_b_ok.
  - intros x I. rewrite forallb_forall in B. now apply good_name_b_ok, B.
  - clear A B. revert C. induction es as [|[y c] es IH]; intros C x c' I; [destruct I|]. apply andb_true_iff in C as [C1 C2].
    destruct I as [I|I].
    + injection I as <- <-. now apply good_b_ok.
    + now apply (IH C2 x).
Qed.
Lemma good_fs_b_ok n : good_fs_b n = true -> good_fs n.
Proof. destruct n as [d xs|xs es|t]; try discriminate. intro H. split; [now apply good_b_ok|now eexists _, _]. Qed.

(** All there is in a file system. *)
Fixpoint things (n : node) : list thing :=
  match n with
  | File d xs => [AFile d xs]
  | Link t => [ALink t]
  | Dir xs es => ADir xs :: (fix all (l : list (str * node)) : list thing := match l with [] => [] | (_, c) :: r => things c ++ all r end) es
  end.
Lemma things_entry x es c xs v : entry x es = Some c -> In v (things c) -> In v (things (Dir xs es)).
Proof.
  intros E I. right. revert E. induction es as [|[y b] es IH]; [discriminate|]. unfold entry. cbn [find fst].
  destruct (str_eqb y x); intro E; apply in_or_app; [left; injection E as <-; assumption|right; apply IH; exact E].
Qed.
Lemma look_things n q v : look n q = Some v -> In v (things n).
Proof.
  revert n. induction q as [|x q IH]; intros n; unfold look; cbn [get].
  - destruct n; intro H; injection H as <-; now left.
  - destruct n as [d xs|xs es|t]; try discriminate. destruct (entry x es) as [c|] eqn:E; [|discriminate].
    intro H. apply (things_entry x es c); [assumption|]. now apply IH.
Qed.
