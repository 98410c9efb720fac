(** Proofs about programs that ask for the identifier at the same time. *)
From Coq Require Import Bool List Arith Lia.
From Verif Require Import Model.Py Model.SysidRace Spec.SysidRaceSpec.
Import ListNotations.

Section Race.
Variable readable : bool.
Variable digest : bytes -> bytes.
Variable uuid : nat -> bytes.
Hypothesis U : uuids uuid.

Lemma run_inv (P : state -> Prop) etc :
  (forall s i, P s -> P (step etc readable digest uuid s i)) ->
  forall l s, P s -> P (run etc readable digest uuid s l).
Proof. intros H l. induction l as [|i l IH]; intros s Hs; [exact Hs|]. apply IH, H, Hs. Qed.

Lemma step_at etc s i j : s_pc (step etc readable digest uuid s i) j =
  if Nat.eqb i j then fst (turn etc readable digest (uuid i) (s_pc s i) (s_file s)) else s_pc s j.
Proof. unfold step. destruct (turn _ _ _ _ _ _) as [p f]. reflexivity. Qed.
Lemma step_file etc s i : s_file (step etc readable digest uuid s i) =
  snd (turn etc readable digest (uuid i) (s_pc s i) (s_file s)).
Proof. unfold step. destruct (turn _ _ _ _ _ _) as [p f]. reflexivity. Qed.

(** ** With an identifier in /etc *)
Lemma etc_all e f l : 
  s_file (run (Some e) readable digest uuid (fresh f) l) = f /\
  forall i, s_pc (run (Some e) readable digest uuid (fresh f) l) i = Begin \/
    s_pc (run (Some e) readable digest uuid (fresh f) l) i = ReadEtc \/
    given (run (Some e) readable digest uuid (fresh f) l) i (firstn 16 (digest e)).
Proof.
  apply (run_inv (fun s => s_file s = f /\ forall i, s_pc s i = Begin \/ s_pc s i = ReadEtc \/
    given s i (firstn 16 (digest e)))); [|split; [reflexivity|intro; now left]].
  intros s i [F H]. split.
  - rewrite step_file. destruct (H i) as [E|[E|E]]; rewrite E; exact F.
  - intro j. unfold given. rewrite step_at. destruct (Nat.eqb i j); [|apply H].
    destruct (H i) as [E|[E|E]]; rewrite E; cbn; auto.
Qed.

(** ** With one in /var/tmp *)
Definition calm (b : bytes) (p : pc) : Prop :=
  match p with
  | Begin | Exists | Access | Size | IsFile | Read => True
  | Done r => r = Ok (firstn 16 (digest b))
  | _ => False
  end.

Lemma var_step b s i : readable = true -> 0 < length b ->
  s_file s = Some b -> (forall i, calm b (s_pc s i)) ->
  s_file (step None readable digest uuid s i) = Some b /\
  forall j, calm b (s_pc (step None readable digest uuid s i) j).
Proof.
  intros R B F H. split.
  - rewrite step_file, F. specialize (H i). destruct (s_pc s i); try contradiction; reflexivity.
  - intro j. rewrite step_at. destruct (Nat.eqb i j); [|apply H]. rewrite F, R. specialize (H i).
    destruct (s_pc s i); cbn [turn fst calm] in *; try exact I; try contradiction; try exact H; try reflexivity.
    apply Nat.ltb_lt in B. now rewrite B.
Qed.

Lemma var_all b s l : readable = true -> 0 < length b ->
  s_file s = Some b -> (forall i, calm b (s_pc s i)) ->
  s_file (run None readable digest uuid s l) = Some b /\
  forall j, calm b (s_pc (run None readable digest uuid s l) j).
Proof.
  intros R B F H.
  apply (run_inv (fun s => s_file s = Some b /\ forall i, calm b (s_pc s i))); [|now split].
  intros t i [F' H']. now apply var_step.
Qed.

(** ** With none *)

(** What can be in the file. *)
Definition content (f : file) : Prop := f = None \/ f = Some [] \/ exists j, f = Some (uuid j).

Definition past (p : pc) : bool := match p with IsFile | Read | Done _ => true | _ => false end.

(** Results are digests of what was in the file; and once somebody is past the
    question, what is missing in the file is about to be written. *)
Record inv (f0 : file) (s : state) : Prop := {
  i_content : content (s_file s);
  i_there : s_file s = None -> f0 = None /\ forall i, past (s_pc s i) = false /\ s_pc s i <> Write /\ s_pc s i <> Access /\ s_pc s i <> Size;
  i_noetc : forall i, s_pc s i <> ReadEtc;
  i_result : forall i r, s_pc s i = Done r ->
    exists b, r = Ok (firstn 16 (digest b)) /\ (b = [] \/ exists j, b = uuid j);
  i_empty : forall i, past (s_pc s i) = true ->
    (exists j, s_file s = Some (uuid j)) \/ exists j, s_pc s j = Write }.

Lemma uuid_long j : 0 < length (uuid j). Proof. rewrite U. lia. Qed.
Lemma over i f : content (Some f) -> uuid i ++ skipn (length (uuid i)) f = uuid i.
Proof.
  intros [H|[H|[j H]]]; [discriminate| |]; injection H as ->.
  - now rewrite skipn_nil, app_nil_r.
  - rewrite skipn_all2 by (rewrite !U; lia). apply app_nil_r.
Qed.

Lemma inv_step f0 s i : inv f0 s -> inv f0 (step None readable digest uuid s i).
Proof.
  intro V. pose proof (i_content _ _ V) as C. pose proof (i_there _ _ V) as T.
  destruct (s_pc s i) eqn:P.
  - (* Begin *) constructor.
    + rewrite step_file, P. exact C.
    + rewrite step_file, P. intro E. destruct (T E) as [F0 Q]. split; [exact F0|]. intro j.
      rewrite step_at. destruct (Nat.eqb i j); [|apply Q]. rewrite P. cbn. repeat split; discriminate.
    + intro j. rewrite step_at. destruct (Nat.eqb i j); [|apply V]. rewrite P. discriminate.
    + intros j r. rewrite step_at. destruct (Nat.eqb i j); [|apply V]. rewrite P. discriminate.
    + intro j. rewrite step_at, step_file, P. cbn [turn fst snd]. destruct (Nat.eqb i j); [discriminate|].
      intro K. destruct (i_empty _ _ V j K) as [W|[k W]]; [now left|right]. exists k. rewrite step_at, P.
      destruct (Nat.eqb_spec i k) as [->|_]; [rewrite P in W; discriminate|exact W].
  - now destruct (i_noetc _ _ V i P).
  - (* Exists *) constructor.
    + rewrite step_file, P. exact C.
    + rewrite step_file, P. cbn. intro E. destruct (T E) as [F0 Q]. split; [exact F0|]. intro j.
      rewrite step_at. destruct (Nat.eqb i j); [|apply Q]. rewrite P. cbn. rewrite E. repeat split; discriminate.
    + intro j. rewrite step_at. destruct (Nat.eqb i j); [|apply V]. rewrite P. cbn.
      destruct (s_file s); discriminate.
    + intros j r. rewrite step_at. destruct (Nat.eqb i j); [|apply V]. rewrite P. cbn.
      destruct (s_file s); discriminate.
    + intro j. rewrite step_at, step_file, P. cbn [turn fst snd].
      destruct (Nat.eqb i j); [destruct (s_file s); discriminate|].
      intro K. destruct (i_empty _ _ V j K) as [W|[k W]]; [now left|right]. exists k. rewrite step_at, P.
      destruct (Nat.eqb_spec i k) as [->|_]; [rewrite P in W; discriminate|exact W].
  - (* Access *) constructor.
    + rewrite step_file, P. exact C.
    + rewrite step_file, P. cbn. intro E. destruct (T E) as [_ Q]. destruct (Q i) as (_ & _ & Q1 & _). now destruct Q1.
    + intro j. rewrite step_at. destruct (Nat.eqb i j); [|apply V]. rewrite P. cbn.
      destruct (s_file s); [destruct readable|]; discriminate.
    + intros j r. rewrite step_at. destruct (Nat.eqb i j); [|apply V]. rewrite P. cbn.
      destruct (s_file s); [destruct readable|]; discriminate.
    + intro j. rewrite step_at, step_file, P. cbn [turn fst snd].
      destruct (Nat.eqb i j); [destruct (s_file s); [destruct readable|]; discriminate|].
      intro K. destruct (i_empty _ _ V j K) as [W|[k W]]; [now left|right]. exists k. rewrite step_at, P.
      destruct (Nat.eqb_spec i k) as [->|_]; [rewrite P in W; discriminate|exact W].
  - (* Size *)
    destruct (s_file s) as [b|] eqn:F; [|destruct (T eq_refl) as [_ Q]; destruct (Q i) as (_ & _ & _ & Q1); now destruct Q1].
    constructor.
    + rewrite step_file, P, F. exact C.
    + rewrite step_file, P, F. discriminate.
    + intro j. rewrite step_at. destruct (Nat.eqb i j); [|apply V]. rewrite P, F. cbn [turn fst].
      destruct (Nat.ltb _ _); discriminate.
    + intros j r. rewrite step_at. destruct (Nat.eqb i j); [|apply V]. rewrite P, F. cbn [turn fst].
      destruct (Nat.ltb _ _); discriminate.
    + intro j. rewrite step_at, step_file, P, F. cbn [turn fst snd]. destruct (Nat.eqb i j).
      * destruct (Nat.ltb 0 (length b)) eqn:L; [|discriminate]. intros _. left.
        destruct C as [C|[C|C]]; [discriminate| |exact C]. injection C as ->. discriminate L.
      * intro K. destruct (i_empty _ _ V j K) as [[k W]|[k W]]; [left; exists k; now rewrite <- F|right].
        exists k. rewrite step_at, P.
        destruct (Nat.eqb_spec i k) as [->|_]; [rewrite P in W; discriminate|exact W].
  - (* Open *) constructor.
    + rewrite step_file, P. right. now left.
    + rewrite step_file, P. discriminate.
    + intro j. rewrite step_at. destruct (Nat.eqb i j); [|apply V]. rewrite P. discriminate.
    + intros j r. rewrite step_at. destruct (Nat.eqb i j); [|apply V]. rewrite P. discriminate.
    + intros j _. right. exists i. rewrite step_at, Nat.eqb_refl, P. reflexivity.
  - (* Write *)
    destruct (s_file s) as [b|] eqn:F; [|destruct (T eq_refl) as [_ Q]; destruct (Q i) as (_ & Q1 & _); now destruct Q1].
    pose proof (over i b C) as O. constructor.
    + rewrite step_file, P, F. cbn [turn snd]. rewrite O. right. right. now exists i.
    + rewrite step_file, P, F. discriminate.
    + intro j. rewrite step_at. destruct (Nat.eqb i j); [|apply V]. rewrite P. discriminate.
    + intros j r. rewrite step_at. destruct (Nat.eqb i j); [|apply V]. rewrite P. discriminate.
    + intros j _. left. exists i. rewrite step_file, P, F. cbn [turn snd]. now rewrite O.
  - (* IsFile *)
    destruct (s_file s) as [b|] eqn:F;
      [|destruct (T eq_refl) as [_ Q]; destruct (Q i) as (Q1 & _); rewrite P in Q1; discriminate Q1].
    constructor.
    + rewrite step_file, P, F. exact C.
    + rewrite step_file, P, F. discriminate.
    + intro j. rewrite step_at. destruct (Nat.eqb i j); [|apply V]. rewrite P, F. discriminate.
    + intros j r. rewrite step_at. destruct (Nat.eqb i j); [|apply V]. rewrite P, F. discriminate.
    + intro j. rewrite step_at, step_file, P, F. cbn [turn fst snd]. intro K.
      assert (K' : past (s_pc s (if Nat.eqb i j then i else j)) = true) by (destruct (Nat.eqb i j); [now rewrite P|exact K]).
      destruct (i_empty _ _ V _ K') as [[k W]|[k W]]; [left; exists k; now rewrite <- F|right].
      exists k. rewrite step_at, P.
      destruct (Nat.eqb_spec i k) as [->|_]; [rewrite P in W; discriminate|exact W].
  - (* Read *)
    destruct (s_file s) as [b|] eqn:F;
      [|destruct (T eq_refl) as [_ Q]; destruct (Q i) as (Q1 & _); rewrite P in Q1; discriminate Q1].
    constructor.
    + rewrite step_file, P, F. exact C.
    + rewrite step_file, P, F. discriminate.
    + intro j. rewrite step_at. destruct (Nat.eqb i j); [|apply V]. rewrite P, F. discriminate.
    + intros j r. rewrite step_at. destruct (Nat.eqb i j); [|apply V]. rewrite P, F. cbn [turn fst].
      intros [= <-]. exists b. split; [reflexivity|].
      destruct C as [C|[C|[k C]]]; [discriminate| |]; injection C as ->; [now left|right; now exists k].
    + intro j. rewrite step_at, step_file, P, F. cbn [turn fst snd]. intro K.
      assert (K' : past (s_pc s (if Nat.eqb i j then i else j)) = true) by (destruct (Nat.eqb i j); [now rewrite P|exact K]).
      destruct (i_empty _ _ V _ K') as [[k W]|[k W]]; [left; exists k; now rewrite <- F|right].
      exists k. rewrite step_at, P.
      destruct (Nat.eqb_spec i k) as [->|_]; [rewrite P in W; discriminate|exact W].
  - (* Done *)
    assert (SF : s_file (step None readable digest uuid s i) = s_file s) by (now rewrite step_file, P).
    assert (SP : forall j, s_pc (step None readable digest uuid s i) j = s_pc s j).
    { intro j. rewrite step_at, P. cbn [turn fst]. now destruct (Nat.eqb_spec i j) as [<-|_]. }
    constructor; try (rewrite SF); try assumption.
    + intro E. destruct (T E) as [F0 Q]. split; [exact F0|]. intro j. rewrite SP. apply Q.
    + intro j. rewrite SP. apply V.
    + intros j r'. rewrite SP. apply V.
    + intro j. rewrite SP. intro K. destruct (i_empty _ _ V j K) as [W|[k W]]; [now left|right]. exists k. now rewrite SP.
Qed.

Lemma inv_start f0 : unset f0 -> inv f0 (fresh f0).
Proof.
  intro N. constructor; cbn.
  - destruct N as [-> | ->]; [now left|right; now left].
  - intro E. split; [exact E|]. intro i. repeat split; discriminate.
  - discriminate.
  - discriminate.
  - discriminate.
Qed.

Lemma inv_run f0 l : unset f0 -> inv f0 (run None readable digest uuid (fresh f0) l).
Proof. intro N. apply run_inv; [intros s i; apply inv_step|now apply inv_start]. Qed.

End Race.

(** ** Statements *)
Lemma etc_given : forall readable digest uuid e f l,
  s_file (run (Some e) readable digest uuid (fresh f) l) = f /\
  forall i r, s_pc (run (Some e) readable digest uuid (fresh f) l) i = Done r ->
    r = Ok (firstn 16 (digest e)).
Proof.
  intros readable digest uuid e f l. destruct (etc_all readable digest uuid e f l) as [F H].
  split; [exact F|]. intros i r E. destruct (H i) as [K|[K|K]]; unfold given in K; rewrite E in K;
    [discriminate|discriminate|]. injection K as K. exact K.
Qed.

Lemma var_given : forall digest uuid b l, b <> [] ->
  s_file (run None true digest uuid (fresh (Some b)) l) = Some b /\
  forall i r, s_pc (run None true digest uuid (fresh (Some b)) l) i = Done r ->
    r = Ok (firstn 16 (digest b)).
Proof.
  intros digest uuid b l B.
  destruct (var_all true digest uuid b (fresh (Some b)) l eq_refl) as [F H].
  - destruct b; [now destruct B|cbn; lia].
  - reflexivity.
  - intro. exact I.
  - split; [exact F|]. intros i r E. specialize (H i). rewrite E in H. exact H.
Qed.

Lemma none_given : forall readable digest uuid f l, uuids uuid -> unset f ->
  let s := run None readable digest uuid (fresh f) l in
  (s_file s = None \/ s_file s = Some [] \/ exists j, s_file s = Some (uuid j)) /\
  forall i r, s_pc s i = Done r ->
    r = Ok (firstn 16 (digest [])) \/ exists j, r = Ok (firstn 16 (digest (uuid j))).
Proof.
  intros readable digest uuid f l U N s. pose proof (inv_run readable digest uuid U f l N) as V.
  split; [apply V|]. intros i r E. destruct (i_result _ _ _ _ V i r E) as (b & -> & [-> | [j ->]]); [now left|].
  right. now exists j.
Qed.

Lemma quiet_left : forall readable digest uuid f l, uuids uuid -> unset f ->
  let s := run None readable digest uuid (fresh f) l in
  quiet s -> (exists i r, s_pc s i = Done r) -> exists j, s_file s = Some (uuid j).
Proof.
  intros readable digest uuid f l U N s Q (i & r & E).
  pose proof (inv_run readable digest uuid U f l N) as V. fold s in V.
  destruct (i_empty _ _ _ _ V i) as [W|[k W]]; [now rewrite E|exact W|].
  destruct (Q k) as [K|[r' K]]; rewrite W in K; discriminate.
Qed.

(** Once it is quiet, who begins later gets what is in the file. *)
Lemma later_given : forall digest uuid f l l', uuids uuid -> unset f ->
  let s := run None true digest uuid (fresh f) l in
  quiet s -> (exists i r, s_pc s i = Done r) ->
  exists j, s_file s = Some (uuid j) /\
    forall i r, s_pc s i = Begin -> s_pc (run None true digest uuid s l') i = Done r ->
      r = Ok (firstn 16 (digest (uuid j))).
Proof.
  intros digest uuid f l l' U N s Q D. destruct (quiet_left true digest uuid f l U N Q D) as [j F].
  fold s in F. exists j. split; [exact F|].
  (* those that are done do not take part *)
  set (P := fun t => s_file t = Some (uuid j) /\
     (forall i, s_pc s i = Begin -> calm digest (uuid j) (s_pc t i)) /\
     (forall i r, s_pc s i = Done r -> s_pc t i = Done r)).
  assert (H : P (run None true digest uuid s l')).
  { apply run_inv.
    - intros t i (FT & C & K). 
      assert (L : 0 < length (uuid j)) by (rewrite U; lia).
      destruct (Q i) as [B|[r B]].
      + pose proof (C i B) as CI. split; [|split].
        * rewrite step_file, FT. destruct (s_pc t i); try contradiction; reflexivity.
        * intros k Bk. rewrite step_at. destruct (Nat.eqb i k); [|now apply C]. rewrite FT.
          destruct (s_pc t i); cbn [turn fst calm] in *; try exact I; try contradiction; try exact CI; try reflexivity.
          apply Nat.ltb_lt in L. now rewrite L.
        * intros k r Bk. rewrite step_at. destruct (Nat.eqb_spec i k) as [<-|_]; [congruence|now apply K].
      + pose proof (K i r B) as KI. split; [|split].
        * now rewrite step_file, KI.
        * intros k Bk. rewrite step_at, KI. destruct (Nat.eqb_spec i k) as [<-|_]; [congruence|now apply C].
        * intros k r' Bk. rewrite step_at, KI. destruct (Nat.eqb_spec i k) as [<-|_]; [cbn; congruence|now apply K].
    - split; [exact F|]. split; [intros i B; now rewrite B|tauto]. }
  destruct H as (_ & C & _). intros i r B E. specialize (C i B). rewrite E in C. exact C.
Qed.
