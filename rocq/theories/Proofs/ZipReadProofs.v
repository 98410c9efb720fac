(** * Reading entries of zip files *)
From Coq Require Import String NArith Bool List Arith Lia.
From Verif Require Import Model.Py Model.PurePath Model.Fs Model.PathOps Model.Zip Model.ZipRead Spec.ZipReadSpec Proofs.ZipProofs Proofs.RmtreeProofs.
Import ListNotations.

Section Archive.
Variable entries : list zinfo.
Variable data : zinfo -> bytes.
Variable bad_open : zinfo -> option exn.
Variable bad_read : zinfo -> nat -> option exn.
Variable n : nat.
Hypothesis Hn : (0 < n)%nat.

Lemma upd_same {A} (f : nat -> A) i x : upd f i x i = x.
Proof. unfold upd. now rewrite Nat.eqb_refl. Qed.
Lemma upd_other {A} (f : nat -> A) i x j : j <> i -> upd f i x j = f j.
Proof. intro H. unfold upd. destruct (Nat.eqb_spec j i); [contradiction|reflexivity]. Qed.

(** ** Traces *)
Lemma answers_app r t x : answers r (t ++ [x]) = answers r t ++ answer r x.
Proof. unfold answers. rewrite flat_map_app. cbn [flat_map]. now rewrite app_nil_r. Qed.
Lemma read_from_app u t x : read_from u (t ++ [x]) = read_from u t ++ taken u x.
Proof. unfold read_from. rewrite flat_map_app. cbn [flat_map]. now rewrite app_nil_r. Qed.
Lemma in_snoc {A} (x y : A) l : In x (l ++ [y]) <-> In x l \/ y = x.
Proof. rewrite in_app_iff. cbn [In]. tauto. Qed.
Lemma got_app a b : got (a ++ b) = got a ++ got b.
Proof. unfold got. now rewrite map_app, concat_app. Qed.

Lemma in_order_seq d m : in_order n d (map (kth n d) (seq 0 m)).
Proof. unfold in_order. now rewrite map_length, seq_length. Qed.
Lemma seq_snoc d m : map (kth n d) (seq 0 (S m)) = map (kth n d) (seq 0 m) ++ [kth n d m].
Proof. rewrite seq_S, map_app. reflexivity. Qed.
Lemma firstn_add {A} a b (l : list A) : firstn a l ++ firstn b (skipn a l) = firstn (a + b) l.
Proof. revert l. induction a as [|a IH]; intro l; [reflexivity|]. destruct l; [now rewrite skipn_nil, !firstn_nil|]. cbn [Nat.add skipn firstn app]. now rewrite IH. Qed.
Lemma got_seq d m : got (map (kth n d) (seq 0 m)) = firstn (m * n) d.
Proof.
  induction m as [|m IH]; [reflexivity|]. rewrite seq_snoc, got_app, IH. unfold got, kth. cbn [map concat]. rewrite app_nil_r.
  replace (S m * n)%nat with (m * n + n)%nat by lia.
  assert (Q : chunk_of (match firstn n (skipn (m * n) d) with [] => OStop | b => OChunk b end) = firstn n (skipn (m * n) d)) by (destruct (firstn n (skipn (m * n) d)); reflexivity). rewrite Q.
  apply firstn_add.
Qed.

(** ** The invariant *)
Definition source (p : ppath) : bytes := match z_open entries p with Ok z => data z | Err _ => [] end.
Definition ended (t : trace) (r : nat) (p : ppath) : Prop :=
  (exists m, answers r t = map (kth n (source p)) (seq 0 m) /\ (length (source p) <= m * n)%nat) \/
  (dropped r t /\ exists m j, answers r t = map (kth n (source p)) (seq 0 m) ++ repeat OStop j) \/
  (exists m e j, answers r t = map (kth n (source p)) (seq 0 m) ++ ORaise e :: repeat OStop j).
Definition at_work (t : trace) (s : zstate) (r : nat) (p : ppath) (i : nat) : Prop :=
  exists z m, z_open entries p = Ok z /\ h_entry (s_handle s i) = z /\ answers r t = map (kth n (data z)) (seq 0 m) /\
    h_pos (s_handle s i) = Nat.min (m * n) (length (data z)) /\ forall o, In o (answers r t) -> exists b, o = OChunk b.
Definition gen_ok (t : trace) (s : zstate) (r : nat) (p : ppath) (st : gstate) : Prop :=
  match st with
  | Fresh => answers r t = []
  | Reading i => at_work t s r p i
  | Done => ended t r p
  end.
Definition user_ok (t : trace) (s : zstate) (u i : nat) : Prop :=
  exists p z, opened_as t u p /\ z_open entries p = Ok z /\ h_entry (s_handle s i) = z /\
    got (read_from u t) = firstn (h_pos (s_handle s i)) (data z) /\ (h_pos (s_handle s i) <= length (data z))%nat.
(** [ex]: a file that is being opened *)
Record Inv (ex : option nat) (t : trace) (s : zstate) : Prop := mkInv {
  v_own_g : forall r p i, s_gen s r = Some (p, Reading i) -> (i < s_made s)%nat;
  v_own_u : forall u i, s_user s u = Some i -> (i < s_made s)%nat;
  v_gg : forall r r' p p' i, s_gen s r = Some (p, Reading i) -> s_gen s r' = Some (p', Reading i) -> r = r';
  v_uu : forall u u' i, s_user s u = Some i -> s_user s u' = Some i -> u = u';
  v_gu : forall r p u i, s_gen s r = Some (p, Reading i) -> s_user s u = Some i -> False;
  v_fd : forall q i, s_fd s q = Some i -> (i < s_made s)%nat;
  v_fdg : forall q r p i, s_fd s q = Some i -> s_gen s r = Some (p, Reading i) -> q = p;
  v_has : forall r p i, s_gen s r = Some (p, Reading i) -> s_fd s p <> None;
  v_new : forall r, (s_gens s <= r)%nat -> s_gen s r = None;
  v_newu : forall u, (s_given s <= u)%nat -> s_user s u = None;
  v_old : forall r p, reader_of t r p -> exists st, s_gen s r = Some (p, st);
  v_back : forall r p st, s_gen s r = Some (p, st) -> reader_of t r p;
  v_none : forall r, s_gen s r = None -> answers r t = [];
  v_oldu : forall u p, opened_as t u p -> exists i, s_user s u = Some i;
  v_noneu : forall u, s_user s u = None -> got (read_from u t) = [] /\ (forall p, ~ opened_as t u p) /\ ~ shut u t;
  v_oneu : forall u p p', opened_as t u p -> opened_as t u p' -> p = p';
  v_gen : forall r p st, s_gen s r = Some (p, st) -> gen_ok t s r p st;
  v_user : forall u i, s_user s u = Some i -> user_ok t s u i;
  v_leak : forall i, (i < s_made s)%nat -> ex <> Some i -> h_closed (s_handle s i) = false ->
           (exists r p, s_gen s r = Some (p, Reading i)) \/ (exists u, s_user s u = Some i /\ ~ shut u t) }.

Lemma inv_start : Inv None [] nothing_open.
Proof.
  split; try discriminate; try reflexivity; unfold reader_of, opened_as; cbn; try contradiction.
  intros u _. split; [reflexivity|]. split; [auto|]. now intros (o & _ & []).
Qed.
(** Closing a file changes nothing but that it is closed. *)
Lemma inv_close ex t s i : Inv ex t s -> Inv ex t (close_handle i s).
Proof.
  intro V. destruct V as [a1 a2 a3 a4 a5 a6 a7 a8 a9 a10 a11 a12 a13 a14 a15 a15b a16 a17 a18].
  assert (E : forall j, h_entry (s_handle (close_handle i s) j) = h_entry (s_handle s j) /\ h_pos (s_handle (close_handle i s) j) = h_pos (s_handle s j)).
  { intro j. unfold close_handle, set_handle. cbn [s_handle]. unfold upd. destruct (Nat.eqb_spec j i) as [->|]; now split. }
  split; try assumption.
  - intros r p st G. specialize (a16 _ _ _ G). destruct st; [exact a16| |exact a16]. destruct (E h) as [E1 E2]. unfold gen_ok, at_work in *. rewrite E1, E2. exact a16.
  - intros u j U. specialize (a17 _ _ U). destruct (E j) as [E1 E2]. unfold user_ok in *. rewrite E1, E2. exact a17.
  - intros j L Ne C. apply a18; [exact L|exact Ne|]. unfold close_handle, set_handle in C. cbn [s_handle] in C. unfold upd in C. destruct (Nat.eqb_spec j i); [discriminate|exact C].
Qed.
(** Events that tell nothing of generators and files. *)
Definition mute (t : trace) (x : event * outcome) : Prop :=
  (forall r, answer r x = []) /\ (forall u, got (taken u x) = []) /\ (forall r p, x <> (EData p, OMade r)) /\ (forall u p, x <> (EOpen p, OMade u)).
Lemma inv_mute ex t s x : Inv ex t s -> mute t x -> (forall u o, x = (EShut u, o) -> o <> OAbsent -> exists i, s_user s u = Some i /\ h_closed (s_handle s i) = true) -> Inv ex (t ++ [x]) s.
Proof.
  intros V (M1 & M2 & M3 & M4) Sh. destruct V as [a1 a2 a3 a4 a5 a6 a7 a8 a9 a10 a11 a12 a13 a14 a15 a15b a16 a17 a18].
  assert (A : forall r, answers r (t ++ [x]) = answers r t) by (intro r; now rewrite answers_app, M1, app_nil_r).
  assert (B : forall u, got (read_from u (t ++ [x])) = got (read_from u t)) by (intro u; now rewrite read_from_app, got_app, M2, app_nil_r).
  assert (R : forall r p, reader_of (t ++ [x]) r p <-> reader_of t r p). { intros r p. unfold reader_of. rewrite in_snoc. split; [intros [H|H]; [exact H|elim (M3 r p H)]|auto]. }
  assert (O : forall u p, opened_as (t ++ [x]) u p <-> opened_as t u p). { intros u p. unfold opened_as. rewrite in_snoc. split; [intros [H|H]; [exact H|elim (M4 u p H)]|auto]. }
  assert (D : forall r, dropped r t -> dropped r (t ++ [x])) by (intros r (o & No & H); exists o; split; [exact No|apply in_snoc; now left]).
  split; try assumption.
  - intros r p H. apply R in H. eauto.
  - intros r p st H. apply R. eauto.
  - intros r H. rewrite A. auto.
  - intros u p H. apply O in H. eauto.
  - intros u H. rewrite B. destruct (a15 _ H) as (Q1 & Q2 & Q3). split; [exact Q1|]. split; [intros p Hp; apply O in Hp; now apply (Q2 p)|].
    intros (o & No & I). apply in_snoc in I as [I|I]; [apply Q3; now exists o|]. destruct (Sh _ _ I No) as (i & Ui & _). congruence.
  - intros u p p' H H'. apply O in H. apply O in H'. eauto.
  - intros r p st H. specialize (a16 _ _ _ H). destruct st; unfold gen_ok, at_work, ended in *; rewrite A; [exact a16|exact a16|].
    destruct a16 as [Q|[[Q1 Q2]|Q]]; [now left|right; left; split; [now apply D|exact Q2]|now right; right].
  - intros u i H. destruct (a17 _ _ H) as (p & z & Q1 & Q2). exists p, z. rewrite B. split; [now apply O|exact Q2].
  - intros i L Ne C. destruct (a18 _ L Ne C) as [Q|(u & Q & Ns)]; [now left|right]. exists u. split; [exact Q|]. intros (o & No & H). apply in_snoc in H as [H|H]; [apply Ns; now exists o|]. destruct (Sh _ _ H No) as (i' & Ui & Cl). congruence.
Qed.

(** What a generator is told, and nothing else. *)
Definition told (r : nat) (x : event * outcome) : Prop :=
  (forall r', r' <> r -> answer r' x = []) /\ (forall u, got (taken u x) = []) /\ (forall r p, x <> (EData p, OMade r)) /\ (forall u p, x <> (EOpen p, OMade u)) /\ (forall u o, x <> (EShut u, o)).
Lemma told_next r o : told r (ENext r, o).
Proof.
  repeat split; try (intros; discriminate). intros r' N. cbn [answer]. destruct o; try reflexivity; destruct (Nat.eqb_spec r r'); congruence.
Qed.
Lemma told_drop r o : told r (EDrop r, o).
Proof. repeat split; intros; discriminate || reflexivity. Qed.
(** A generator moves on: it has the file [i], or none, and [s'] differs from [s] in that and
    in the position of [i]. *)
Lemma inv_move ex t s x r p st st' s' j :
  Inv ex t s -> told r x -> s_gen s r = Some (p, st) ->
  s_fd s' = s_fd s -> s_made s' = s_made s -> s_gens s' = s_gens s -> s_given s' = s_given s -> s_user s' = s_user s ->
  (forall k, s_gen s' k = upd (s_gen s) r (Some (p, st')) k) -> (forall k, k <> j -> s_handle s' k = s_handle s k) ->
  (forall r' p', s_gen s r' = Some (p', Reading j) -> r' = r) -> (forall u, s_user s u <> Some j) -> (forall k, st = Reading k -> k = j) ->
  (forall i, st' = Reading i -> i = j /\ (i < s_made s)%nat /\ (forall q, s_fd s q = Some i -> q = p) /\ s_fd s p <> None) ->
  (st' = Reading j \/ h_closed (s_handle s' j) = true \/ (s_made s <= j)%nat) -> (forall k, ex = Some k -> k = j) ->
  gen_ok (t ++ [x]) s' r p st' -> Inv None (t ++ [x]) s'.
Proof.
  intros V (M1 & M2 & M3 & M4 & M5) G0 Ef Em Eg Ev Eu EG Eh U1 U2 U3 U4 U5 U6 Ok'. destruct V as [a1 a2 a3 a4 a5 a6 a7 a8 a9 a10 a11 a12 a13 a14 a15 a15b a16 a17 a18].
  assert (A : forall r', r' <> r -> answers r' (t ++ [x]) = answers r' t) by (intros r' N; now rewrite answers_app, M1, app_nil_r).
  assert (B : forall u, got (read_from u (t ++ [x])) = got (read_from u t)) by (intro u; now rewrite read_from_app, got_app, M2, app_nil_r).
  assert (R : forall r p, reader_of (t ++ [x]) r p <-> reader_of t r p). { intros r' p'. unfold reader_of. rewrite in_snoc. split; [intros [H|H]; [exact H|elim (M3 r' p' H)]|auto]. }
  assert (O : forall u p, opened_as (t ++ [x]) u p <-> opened_as t u p). { intros u p'. unfold opened_as. rewrite in_snoc. split; [intros [H|H]; [exact H|elim (M4 u p' H)]|auto]. }
  assert (D : forall r, dropped r t -> dropped r (t ++ [x])) by (intros r' (o & No & H); exists o; split; [exact No|apply in_snoc; now left]).
  assert (Sh : forall u, shut u (t ++ [x]) -> shut u t). { intros u (o & No & H). apply in_snoc in H as [H|H]; [now exists o|elim (M5 _ _ H)]. }
  assert (G : forall r', r' <> r -> s_gen s' r' = s_gen s r') by (intros r' N; rewrite EG; now apply upd_other).
  assert (Gr : s_gen s' r = Some (p, st')) by (rewrite EG; apply upd_same).
  assert (C : forall r' p' i, s_gen s' r' = Some (p', Reading i) -> (r' = r /\ p' = p /\ st' = Reading i /\ i = j) \/ (r' <> r /\ s_gen s r' = Some (p', Reading i) /\ i <> j)).
  { intros r' p' i H. destruct (Nat.eq_dec r' r) as [->|N]; [left|right].
    - rewrite Gr in H. injection H as -> ->. destruct (U4 _ eq_refl) as (-> & _). auto.
    - rewrite G in H by exact N. split; [exact N|]. split; [exact H|]. intros ->. elim N. eauto. }
  split; rewrite ?Ef, ?Em, ?Eg, ?Ev, ?Eu; try assumption.
  - intros r' p' i H. destruct (C _ _ _ H) as [(-> & -> & Q & _)|(N & Q & _)]; [apply (U4 _ Q)|eauto].
  - intros r1 r2 p1 p2 i H1 H2. destruct (C _ _ _ H1) as [(-> & -> & Q1 & E1)|(N1 & Q1 & E1)], (C _ _ _ H2) as [(-> & -> & Q2 & E2)|(N2 & Q2 & E2)]; [reflexivity|contradiction|contradiction|eauto].
  - intros r' p' u i H U. destruct (C _ _ _ H) as [(-> & -> & Q & ->)|(N & Q & _)]; [now apply (U2 u)|eauto].
  - intros q r' p' i F H. destruct (C _ _ _ H) as [(-> & -> & Q & ->)|(N & Q & _)]; [|eauto]. destruct (U4 _ Q) as (_ & _ & Z & _). now apply Z.
  - intros r' p' i H. destruct (C _ _ _ H) as [(-> & -> & Q & _)|(N & Q & _)]; [apply (U4 _ Q)|eauto].
  - intros r' L. rewrite G; [auto|]. intros ->. rewrite a9 in G0 by exact L. discriminate.
  - intros r' p' H. apply R in H. destruct (Nat.eq_dec r' r) as [->|N]; [|rewrite G by exact N; eauto]. destruct (a11 _ _ H) as (st2 & Q). rewrite G0 in Q. injection Q as <- _. eauto.
  - intros r' p' st2 H. apply R. destruct (Nat.eq_dec r' r) as [->|N]; [|rewrite G in H by exact N; eauto]. rewrite Gr in H. injection H as <- _. eauto.
  - intros r' H. destruct (Nat.eq_dec r' r) as [->|N]; [congruence|]. rewrite G in H by exact N. rewrite A by exact N. auto.
  - intros u p' H. apply O in H. eauto.
  - intros u H. rewrite B. destruct (a15 _ H) as (Q1 & Q2 & Q3). split; [exact Q1|]. split; [intros p' Hp; apply O in Hp; now apply (Q2 p')|]. intro Z. now apply Q3, Sh.
  - intros u p1 p2 H H'. apply O in H. apply O in H'. eauto.
  - intros r' p' st2 H. destruct (Nat.eq_dec r' r) as [->|N]; [rewrite Gr in H; injection H as <- <-; exact Ok'|]. pose proof H as H'. rewrite G in H by exact N. specialize (a16 _ _ _ H).
    destruct st2; unfold gen_ok, at_work, ended in *; rewrite A by exact N; [exact a16| |].
    + destruct (C _ _ _ H') as [(Q & _)|(_ & _ & Nj)]; [contradiction|]. rewrite (Eh _ Nj). exact a16.
    + destruct a16 as [Q|[[Q1 Q2]|Q]]; [now left|right; left; split; [now apply D|exact Q2]|now right; right].
  - intros u i H. assert (Nj : i <> j) by (intros ->; now apply (U2 u)). destruct (a17 _ _ H) as (p' & z & Q1 & Q2). exists p', z. rewrite B, (Eh _ Nj). split; [now apply O|exact Q2].
  - intros i L _ Cl. destruct (Nat.eq_dec i j) as [->|Nj].
    + left. destruct U5 as [->|[U5|U5]]; [eauto|congruence|lia].
    + rewrite (Eh _ Nj) in Cl. assert (Ne : ex <> Some i) by (intro Q; apply Nj, (U6 _ Q)). destruct (a18 _ L Ne Cl) as [(r' & p' & Q)|(u & Q & Ns)].
      * left. exists r', p'. rewrite G; [exact Q|]. intros ->. rewrite G0 in Q. injection Q as _ Q. apply Nj. eauto.
      * right. exists u. split; [exact Q|]. intro Z. apply Ns. now apply Sh.
Qed.
Definition closes (s s' : zstate) : Prop :=
  s_fd s' = s_fd s /\ s_made s' = s_made s /\ s_gens s' = s_gens s /\ s_given s' = s_given s /\ s_user s' = s_user s /\ s_gen s' = s_gen s /\
  forall k, h_entry (s_handle s' k) = h_entry (s_handle s k) /\ h_pos (s_handle s' k) = h_pos (s_handle s k) /\ (h_closed (s_handle s k) = true -> h_closed (s_handle s' k) = true).
Lemma close_closes i s : closes s (close_handle i s) /\ h_closed (s_handle (close_handle i s) i) = true.
Proof.
  split; [repeat (split; [reflexivity|])|unfold close_handle, set_handle; cbn [s_handle]; now rewrite upd_same].
  intro k. unfold close_handle, set_handle. cbn [s_handle]. unfold upd. destruct (Nat.eqb_spec k i) as [->|]; cbn; auto.
Qed.

Lemma finish_inv ex t s r p st i o x o' s' : Inv ex t s -> told r x -> s_gen s r = Some (p, st) ->
  (forall r' p', s_gen s r' = Some (p', Reading i) -> r' = r) -> (forall u, s_user s u <> Some i) -> (forall k, st = Reading k -> k = i) -> (forall k, ex = Some k -> k = i) ->
  s_fd s p <> None -> finish r p o (close_handle i s) = (o', s') -> o' = o /\ (ended (t ++ [x]) r p -> Inv None (t ++ [x]) s').
Proof.
  intros V T G U1 U2 U3 U6 F H. destruct (close_closes i s) as [K1 C1]. unfold finish, z_close in H. change (s_fd (close_handle i s)) with (s_fd s) in H.
  destruct (s_fd s p) as [k|] eqn:Fd; [|contradiction]. injection H as <- <-. split; [reflexivity|]. intro E.
  pose proof (inv_close _ _ _ k (inv_close _ _ _ i V)) as V2. destruct (close_closes k (close_handle i s)) as [(_ & _ & _ & _ & _ & _ & K2) _].
  refine (inv_move _ _ _ x r p st Done _ i V2 T G _ _ _ _ _ _ _ U1 U2 U3 _ _ U6 E); try reflexivity; [discriminate|]. right. left. now apply K2.
Qed.
Lemma finish0_inv t s r p o x o' s' : Inv None t s -> told r x -> s_gen s r = Some (p, Fresh) ->
  finish r p o s = (o', s') -> (o' = o \/ o' = ORaise BaseExn) /\ (ended (t ++ [x]) r p -> Inv None (t ++ [x]) s').
Proof.
  intros V T G H. unfold finish, z_close in H. destruct (s_fd s p) as [k|] eqn:Fd; injection H as <- <-; (split; [auto|]); intro E.
  - pose proof (inv_close _ _ _ k V) as V2.
    refine (inv_move _ _ _ x r p Fresh Done _ (s_made s) V2 T G _ _ _ _ _ _ _ _ _ _ _ _ _ E); try reflexivity; try discriminate.
    + intros r' p' Q. apply (v_own_g _ _ _ V) in Q. lia.
    + intros u Q. apply (v_own_u _ _ _ V) in Q. lia.
    + right. right. apply Nat.le_refl.
  - refine (inv_move _ _ _ x r p Fresh Done _ (s_made s) V T G _ _ _ _ _ _ _ _ _ _ _ _ _ E); try reflexivity; try discriminate.
    + intros r' p' Q. apply (v_own_g _ _ _ V) in Q. lia.
    + intros u Q. apply (v_own_u _ _ _ V) in Q. lia.
    + right. right. apply Nat.le_refl.
Qed.
Lemma skip_min {A} k (d : list A) : skipn (Nat.min k (length d)) d = skipn k d.
Proof. destruct (Nat.le_ge_cases k (length d)); [now rewrite Nat.min_l|]. rewrite Nat.min_r by assumption. now rewrite skipn_all, skipn_all2. Qed.
Lemma answer_next r o : o <> OAbsent -> answer r (ENext r, o) = [o].
Proof. intro N. cbn [answer]. rewrite Nat.eqb_refl. destruct o; try reflexivity. congruence. Qed.
Lemma source_open p z : z_open entries p = Ok z -> source p = data z.
Proof. intro H. unfold source. now rewrite H. Qed.
Lemma round_inv ex t s r p st i z m o s' : Inv ex t s -> s_gen s r = Some (p, st) ->
  (forall r' p', s_gen s r' = Some (p', Reading i) -> r' = r) -> (forall u, s_user s u <> Some i) -> (forall k, st = Reading k -> k = i) -> (forall k, ex = Some k -> k = i) ->
  (i < s_made s)%nat -> (forall q, s_fd s q = Some i -> q = p) -> s_fd s p <> None ->
  z_open entries p = Ok z -> h_entry (s_handle s i) = z -> answers r t = map (kth n (data z)) (seq 0 m) -> h_pos (s_handle s i) = Nat.min (m * n) (length (data z)) ->
  (forall o, In o (answers r t) -> exists b, o = OChunk b) ->
  round data bad_read n r p i s = (o, s') -> Inv None (t ++ [(ENext r, o)]) s'.
Proof.
  intros V G U1 U2 U3 U6 Li Uq Fd Zo He Ha Hp Ho H. unfold round, read_handle in H. pose proof (source_open _ _ Zo) as Sr.
  assert (Fin : forall e o s', finish r p (ORaise e) (close_handle i s) = (o, s') -> Inv None (t ++ [(ENext r, o)]) s').
  { intros e o2 s2 E. destruct (finish_inv _ t s r p st i (ORaise e) (ENext r, ORaise e) _ _ V (told_next _ _) G U1 U2 U3 U6 Fd E) as [-> Q]. apply Q. right. right.
    exists m, e, 0%nat. now rewrite answers_app, answer_next, Ha, Sr. }
  destruct (h_closed (s_handle s i)) eqn:Hc; [eauto|]. destruct (bad_read (h_entry (s_handle s i)) (h_pos (s_handle s i))); [eauto|].
  rewrite He, Hp, skip_min in H. set (b := firstn n (skipn (m * n) (data z))) in *. set (h' := mkHandle z (Nat.min (m * n) (length (data z)) + length b) false) in *.
  assert (Kt : b = [] -> kth n (data z) m = OStop) by (intro E; unfold kth; fold b; now rewrite E).
  assert (Kc : b <> [] -> kth n (data z) m = OChunk b) by (intro E; unfold kth; fold b; now destruct b).
  assert (Lb : length b = Nat.min n (length (data z) - m * n)) by (unfold b; now rewrite firstn_length, skipn_length).
  assert (D : b = [] \/ b <> []) by (destruct b; [now left|now right]). destruct D as [E|E].
  - rewrite E in H. assert (V1 : Inv ex t (set_handle i h' s)).
    { clear - V He Hp E U1 U2 Hc. destruct V as [a1 a2 a3 a4 a5 a6 a7 a8 a9 a10 a11 a12 a13 a14 a15 a15b a16 a17 a18].
      assert (Q : forall k, h_entry (s_handle (set_handle i h' s) k) = h_entry (s_handle s k) /\ h_pos (s_handle (set_handle i h' s) k) = h_pos (s_handle s k)).
      { intro k. unfold set_handle. cbn [s_handle]. unfold upd. destruct (Nat.eqb_spec k i) as [->|]; [|now split]. unfold h'. cbn. rewrite He, Hp, E. cbn [length]. split; [reflexivity|lia]. }
      split; try assumption.
      - intros r' p' st' X. specialize (a16 _ _ _ X). destruct st'; [exact a16| |exact a16]. destruct (Q h) as [E1 E2]. unfold gen_ok, at_work in *. rewrite E1, E2. exact a16.
      - intros u j U. specialize (a17 _ _ U). destruct (Q j) as [E1 E2]. unfold user_ok in *. rewrite E1, E2. exact a17.
      - intros j L Ne C. unfold set_handle in C. cbn [s_handle] in C. unfold upd in C. destruct (Nat.eqb_spec j i) as [->|]; now apply a18. }
    destruct (finish_inv _ t (set_handle i h' s) r p st i OStop (ENext r, OStop) _ _ V1 (told_next _ _) G U1 U2 U3 U6 Fd H) as [-> Q]. apply Q. left. exists (S m).
    rewrite Sr. split; [now rewrite answers_app, answer_next, Ha, seq_snoc, Kt|]. rewrite E in Lb. cbn [length] in Lb. lia.
  - assert (H' : (OChunk b, set_gen r (p, Reading i) (set_handle i h' s)) = (o, s')) by (destruct b; [congruence|exact H]). injection H' as <- <-.
    refine (inv_move _ _ _ _ r p st (Reading i) _ i V (told_next r (OChunk b)) G _ _ _ _ _ _ _ U1 U2 U3 _ _ U6 _); try reflexivity.
    + intros k N. cbn. now apply upd_other.
    + intros k Q. injection Q as <-. auto.
    + now left.
    + exists z, (S m). cbn [gen_ok set_gen set_handle s_handle]. rewrite upd_same. unfold h'. cbn [h_entry h_pos]. split; [exact Zo|]. split; [reflexivity|].
      rewrite answers_app, answer_next by discriminate. split; [now rewrite Ha, seq_snoc, Kc|]. split; [rewrite Lb; cbn [Nat.mul]; destruct (Nat.le_ge_cases (m * n) (length (data z))); lia|].
      intros o I. apply in_app_iff in I as [I|[<-|[]]]; eauto.
Qed.

Lemma inv_open t s p i s1 : Inv None t s -> z_open_file entries bad_open p s = (Ok i, s1) -> Inv (Some i) t s1 /\ i = s_made s /\ (i < s_made s1)%nat /\
  s_gen s1 = s_gen s /\ s_user s1 = s_user s /\ s_gens s1 = s_gens s /\ s_given s1 = s_given s /\ s_fd s1 p = Some i /\ (forall q, s_fd s1 q = Some i -> q = p) /\
  exists z, z_open entries p = Ok z /\ s_handle s1 i = mkHandle z 0 false /\ bad_open z = None.
Proof.
  intros V H. unfold z_open_file in H. destruct (z_open entries p) as [z|] eqn:Zo; [|discriminate]. destruct (bad_open z) eqn:Bo; [discriminate|]. injection H as <- <-.
  assert (Fq : forall q, (if pp_eqb q p then Some (s_made s) else s_fd s q) = Some (s_made s) -> q = p).
  { intros q H. destruct (pp_eqb q p) eqn:E; [now apply pp_eqb_eq|]. apply (v_fd _ _ _ V) in H. lia. }
  split; [|cbn; rewrite pp_eqb_refl, upd_same; repeat (split; [reflexivity || lia || exact Fq|]); exists z; now repeat split].
  destruct V as [a1 a2 a3 a4 a5 a6 a7 a8 a9 a10 a11 a12 a13 a14 a15 a15b a16 a17 a18]. 
  split; cbn [set_fd s_fd s_made s_handle s_gens s_gen s_given s_user]; try assumption.
  - intros r p' i H. specialize (a1 _ _ _ H). lia.
  - intros u i H. specialize (a2 _ _ H). lia.
  - intros q i H. destruct (pp_eqb q p); [injection H as <-; lia|]. specialize (a6 _ _ H). lia.
  - intros q r p' i H G. destruct (pp_eqb q p); [injection H as <-; specialize (a1 _ _ _ G); lia|]. eauto.
  - intros r p' i H. destruct (pp_eqb p' p); [discriminate|eauto].
  - intros r p' st H. specialize (a16 _ _ _ H). destruct st; [exact a16| |exact a16]. unfold gen_ok, at_work in *. cbn [set_fd s_handle]. specialize (a1 _ _ _ H). now rewrite upd_other by lia.
  - intros u j H. specialize (a17 _ _ H). unfold user_ok in *. cbn [set_fd s_handle]. specialize (a2 _ _ H). now rewrite upd_other by lia.
  - intros i L Ne C. assert (N : i <> s_made s) by (intros ->; now apply Ne). rewrite upd_other in C by exact N. apply a18; [lia|discriminate|exact C].
Qed.
Lemma open_err p s e s1 : z_open_file entries bad_open p s = (Err e, s1) -> s1 = s.
Proof. unfold z_open_file. intro H. destruct (z_open entries p) as [z|]; [destruct (bad_open z)|]; congruence. Qed.
Definition step' := step entries data bad_open bad_read n.
Definition run' := run entries data bad_open bad_read n.
Ltac mute_tac := repeat split; intros; try reflexivity; try discriminate.
Lemma step_inv t s e o s' : Inv None t s -> step' e s = (o, s') -> Inv None (t ++ [(e, o)]) s'.
Proof.
  intros V H. destruct e as [p|r|r|p|p|u k|u]; cbn [step' step] in H.
  - injection H as <- <-. destruct V as [a1 a2 a3 a4 a5 a6 a7 a8 a9 a10 a11 a12 a13 a14 a15 a15b a16 a17 a18]. set (x := (EData p, OMade (s_gens s))). set (r0 := s_gens s) in *.
    pose proof (a9 r0 (Nat.le_refl _)) as G0.
    assert (A : forall r, answers r (t ++ [x]) = answers r t) by (intro r; rewrite answers_app; apply app_nil_r).
    assert (B : forall u, got (read_from u (t ++ [x])) = got (read_from u t)) by (intro u; rewrite read_from_app; cbn [taken x]; now rewrite app_nil_r).
    assert (O : forall u p, opened_as (t ++ [x]) u p <-> opened_as t u p). { intros u p'. unfold opened_as. rewrite in_snoc. split; [intros [H|H]; [exact H|discriminate H]|auto]. }
    assert (D : forall r, dropped r t -> dropped r (t ++ [x])) by (intros r' (o & No & H); exists o; split; [exact No|apply in_snoc; now left]).
    assert (Sh : forall u, shut u (t ++ [x]) -> shut u t). { intros u (o & No & H). apply in_snoc in H as [H|H]; [now exists o|discriminate H]. }
    assert (C : forall r' p' i, upd (s_gen s) r0 (Some (p, Fresh)) r' = Some (p', Reading i) -> s_gen s r' = Some (p', Reading i)).
    { intros r' p' i H. destruct (Nat.eq_dec r' r0) as [->|N]; [rewrite upd_same in H; discriminate|now rewrite upd_other in H by exact N]. }
    split; cbn [s_fd s_made s_handle s_gens s_gen s_given s_user]; try assumption; eauto.
    + intros r' L. rewrite upd_other by lia. apply a9. lia.
    + intros r' p' H. unfold reader_of in H. apply in_snoc in H as [H|H].
      * destruct (a11 _ _ H) as (st & Q). exists st. rewrite upd_other; [exact Q|]. intros ->. congruence.
      * injection H as -> <-. rewrite upd_same. eauto.
    + intros r' p' st H. unfold reader_of. rewrite in_snoc. destruct (Nat.eq_dec r' r0) as [->|N]; [rewrite upd_same in H; injection H as <- <-; now right|]. rewrite upd_other in H by exact N. left. exact (a12 _ _ _ H).
    + intros r' H. rewrite A. destruct (Nat.eq_dec r' r0) as [->|N]; [rewrite upd_same in H; discriminate|]. rewrite upd_other in H by exact N. auto.
    + intros u p' H. apply O in H. eauto.
    + intros u H. rewrite B. destruct (a15 _ H) as (Q1 & Q2 & Q3). split; [exact Q1|]. split; [intros p' Hp; apply O in Hp; now apply (Q2 p')|]. intro Z. now apply Q3, Sh.
    + intros u p1 p2 H H'. apply O in H. apply O in H'. eauto.
    + intros r' p' st H. destruct (Nat.eq_dec r' r0) as [->|N].
      * rewrite upd_same in H. injection H as <- <-. cbn [gen_ok]. rewrite A. auto.
      * rewrite upd_other in H by exact N. specialize (a16 _ _ _ H). destruct st; unfold gen_ok, at_work, ended in *; rewrite A; [exact a16|exact a16|].
        destruct a16 as [Q|[[Q1 Q2]|Q]]; [now left|right; left; split; [now apply D|exact Q2]|now right; right].
    + intros u i H. destruct (a17 _ _ H) as (p' & z & Q1 & Q2). exists p', z. rewrite B. split; [now apply O|exact Q2].
    + intros i L Ne Cl. destruct (a18 _ L Ne Cl) as [(r' & p' & Q)|(u & Q & Ns)].
      * left. exists r', p'. rewrite upd_other; [exact Q|]. intros ->. congruence.
      * right. exists u. split; [exact Q|]. intro Z. apply Ns. now apply Sh.
  - unfold gen_next in H. destruct (s_gen s r) as [[p [|i|]]|] eqn:G.
    + destruct (z_open_file entries bad_open p s) as [[i|e] s1] eqn:Zf.
      * destruct (inv_open _ _ _ _ _ V Zf) as (V1 & Ei & Li & Eg & Eu & _ & _ & Fp & Uq & z & Zo & Eh & _).
        refine (round_inv (Some i) t s1 r p Fresh i z 0 o s' V1 _ _ _ _ _ Li Uq _ Zo _ _ _ _ H); rewrite ?Eg, ?Eu, ?Eh, ?Fp; try reflexivity; try discriminate; try exact G.
        -- intros r' p' Q. apply (v_own_g _ _ _ V) in Q. lia.
        -- intros u Q. apply (v_own_u _ _ _ V) in Q. lia.
        -- congruence.
        -- exact (v_gen _ _ _ V _ _ _ G).
        -- intros o' I. pose proof (v_gen _ _ _ V _ _ _ G) as Q. cbn [gen_ok] in Q. rewrite Q in I. destruct I.
      * pose proof (open_err _ _ _ _ Zf) as ->. destruct (finish0_inv t s r p (ORaise e) (ENext r, o) o s' V (told_next _ _) G H) as [Eo Q]. apply Q. right. right.
        pose proof (v_gen _ _ _ V _ _ _ G) as A0. cbn [gen_ok] in A0. destruct Eo as [->| ->]; [exists 0%nat, e, 0%nat|exists 0%nat, BaseExn, 0%nat]; rewrite answers_app, answer_next, A0 by discriminate; reflexivity.
    + destruct (v_gen _ _ _ V _ _ _ G) as (z & m & Zo & He & Ha & Hp & Ho).
      refine (round_inv None t s r p (Reading i) i z m o s' V G _ _ _ _ _ _ _ Zo He Ha Hp Ho H); try discriminate.
      * intros r' p' Q. exact (v_gg _ _ _ V _ _ _ _ _ Q G).
      * intros u Q. exact (v_gu _ _ _ V _ _ _ _ G Q).
      * intros k Q. now injection Q.
      * exact (v_own_g _ _ _ V _ _ _ G).
      * intros q Q. exact (v_fdg _ _ _ V _ _ _ _ Q G).
      * exact (v_has _ _ _ V _ _ _ G).
    + injection H as <- <-. pose proof (v_gen _ _ _ V _ _ _ G) as E. cbn [gen_ok] in E.
      refine (inv_move _ _ _ _ r p Done Done _ (s_made s) V (told_next r OStop) G _ _ _ _ _ _ _ _ _ _ _ _ _ _); try reflexivity; try discriminate.
      * intro k. unfold upd. destruct (Nat.eqb_spec k r) as [->|]; [exact G|reflexivity].
      * intros r' p' Q. apply (v_own_g _ _ _ V) in Q. lia.
      * intros u Q. apply (v_own_u _ _ _ V) in Q. lia.
      * right. right. apply Nat.le_refl.
      * cbn [gen_ok]. unfold ended in *. rewrite answers_app, answer_next by discriminate. destruct E as [(m & Q1 & Q2)|[(Q1 & m & j & Q2)|(m & e & j & Q)]].
        -- left. exists (S m). split; [|lia]. rewrite Q1, seq_snoc. f_equal. unfold kth. rewrite skipn_all2 by exact Q2. now rewrite firstn_nil.
        -- right. left. split; [destruct Q1 as (o & No & Q1); exists o; split; [exact No|apply in_snoc; now left]|]. exists m, (S j). rewrite Q2, <- app_assoc. f_equal. rewrite <- repeat_cons. reflexivity.
        -- right. right. exists m, e, (S j). rewrite Q, <- app_assoc. f_equal. cbn [app]. f_equal. rewrite <- repeat_cons. reflexivity.
    + injection H as <- <-. apply inv_mute; [exact V|mute_tac|discriminate].
  - unfold gen_close in H. destruct (s_gen s r) as [[p st]|] eqn:G; [|injection H as <- <-; apply inv_mute; [exact V|mute_tac|discriminate]].
    assert (Dr : forall x, x <> OAbsent -> dropped r (t ++ [(EDrop r, x)])) by (intros x Nx; exists x; split; [exact Nx|apply in_snoc; now right]).
    assert (Ho : forall m x, x <> OAbsent -> answers r t = map (kth n (source p)) (seq 0 m) -> ended (t ++ [(EDrop r, x)]) r p).
    { intros m x Nx A. right. left. split; [now apply Dr|]. exists m, 0%nat. rewrite answers_app, A. reflexivity. }
    destruct st as [|i|].
    + injection H as <- <-. refine (inv_move _ _ _ _ r p Fresh Done _ (s_made s) V (told_drop r ONone) G _ _ _ _ _ _ _ _ _ _ _ _ _ _); try reflexivity; try discriminate.
      * intros r' p' Q. apply (v_own_g _ _ _ V) in Q. lia.
      * intros u Q. apply (v_own_u _ _ _ V) in Q. lia.
      * right. right. apply Nat.le_refl.
      * apply (Ho 0%nat); [discriminate|]. exact (v_gen _ _ _ V _ _ _ G).
    + destruct (v_gen _ _ _ V _ _ _ G) as (z & m & Zo & _ & Ha & _).
      destruct (finish_inv None t s r p (Reading i) i ONone (EDrop r, ONone) o s' V (told_drop _ _) G) as [-> Q]; try assumption; try discriminate.
      * intros r' p' Q. exact (v_gg _ _ _ V _ _ _ _ _ Q G).
      * intros u Q. exact (v_gu _ _ _ V _ _ _ _ G Q).
      * intros k Q. now injection Q.
      * exact (v_has _ _ _ V _ _ _ G).
      * apply Q. apply (Ho m); [discriminate|]. now rewrite (source_open _ _ Zo).
    + injection H as <- <-. refine (inv_move _ _ _ _ r p Done Done _ (s_made s) V (told_drop r ONone) G _ _ _ _ _ _ _ _ _ _ _ _ _ _); try reflexivity; try discriminate.
      * intros r' p' Q. apply (v_own_g _ _ _ V) in Q. lia.
      * intros u Q. apply (v_own_u _ _ _ V) in Q. lia.
      * right. right. apply Nat.le_refl.
      * pose proof (v_gen _ _ _ V _ _ _ G) as E. cbn [gen_ok] in *. unfold ended in *. rewrite answers_app. cbn [answer]. rewrite app_nil_r.
        destruct E as [E|[(_ & E)|E]]; [now left|right; left; split; [now apply Dr|exact E]|now right; right].
  - destruct (z_open_file entries bad_open p s) as [[i|e] s1] eqn:Zf.
    + destruct (inv_open _ _ _ _ _ V Zf) as (V1 & Ei & Li & Eg & Eu & Egs & Egv & Fp & Uq & z & Zo & Eh & _). injection H as <- <-.
      set (x := (EOpen p, OMade (s_given s1))). set (u0 := s_given s1) in *. pose proof (v_newu _ _ _ V1 u0 (Nat.le_refl _)) as N0. destruct (v_noneu _ _ _ V1 _ N0) as (R0 & O0 & S0).
      pose proof (v_own_g _ _ _ V) as Og. pose proof (v_own_u _ _ _ V) as Ou. rewrite <- Eg in Og. rewrite <- Eu in Ou.
      destruct V1 as [a1 a2 a3 a4 a5 a6 a7 a8 a9 a10 a11 a12 a13 a14 a15 a15b a16 a17 a18].
      assert (A : forall r, answers r (t ++ [x]) = answers r t) by (intro r; rewrite answers_app; apply app_nil_r).
      assert (B : forall u, read_from u (t ++ [x]) = read_from u t) by (intro u; rewrite read_from_app; cbn [taken x]; now rewrite app_nil_r).
      assert (R : forall r p, reader_of (t ++ [x]) r p <-> reader_of t r p). { intros r' p'. unfold reader_of. rewrite in_snoc. split; [intros [H|H]; [exact H|discriminate H]|auto]. }
      assert (O : forall u p', opened_as (t ++ [x]) u p' <-> opened_as t u p' \/ (u = u0 /\ p' = p)).
      { intros u p'. unfold opened_as. rewrite in_snoc. split; [intros [H|H]; [now left|injection H as -> ->; now right]|intros [H|[-> ->]]; [now left|now right]]. }
      assert (D : forall r, dropped r t -> dropped r (t ++ [x])) by (intros r' (o & No & H); exists o; split; [exact No|apply in_snoc; now left]).
      assert (Sh : forall u, shut u (t ++ [x]) -> shut u t). { intros u (o & No & H). apply in_snoc in H as [H|H]; [now exists o|discriminate H]. }
      assert (C : forall u j, upd (s_user s1) u0 (Some i) u = Some j -> (u = u0 /\ j = i) \/ (u <> u0 /\ s_user s1 u = Some j /\ j <> i)).
      { intros u j H. destruct (Nat.eq_dec u u0) as [->|N]; [rewrite upd_same in H; injection H as <-; now left|]. rewrite upd_other in H by exact N. right. split; [exact N|]. split; [exact H|]. specialize (Ou _ _ H). lia. }
      split; cbn [s_fd s_made s_handle s_gens s_gen s_given s_user]; try assumption.
      * intros u j H. destruct (C _ _ H) as [[-> ->]|(_ & H' & _)]; [exact Li|eauto].
      * intros u u' j H H'. destruct (C _ _ H) as [[-> ->]|(_ & Q & N)], (C _ _ H') as [[-> E]|(_ & Q' & N')]; [reflexivity|congruence|congruence|eauto].
      * intros r p' u j H H'. destruct (C _ _ H') as [[-> ->]|(_ & Q & N)]; [specialize (Og _ _ _ H); lia|eauto].
      * intros u L. rewrite upd_other by lia. apply a10. lia.
      * intros r p' H. apply R in H. eauto.
      * intros r p' st H. apply R. eauto.
      * intros r H. rewrite A. eauto.
      * intros u p' H. apply O in H as [H|[-> ->]]; [|rewrite upd_same; eauto]. destruct (a14 _ _ H) as (j & Q). exists j. rewrite upd_other; [exact Q|]. intros ->. congruence.
      * intros u H. rewrite B. destruct (Nat.eq_dec u u0) as [->|N]; [rewrite upd_same in H; discriminate|]. rewrite upd_other in H by exact N. destruct (a15 _ H) as (Q1 & Q2 & Q3). split; [exact Q1|].
        split; [intros p' Hp; apply O in Hp as [Hp|[Q _]]; [now apply (Q2 p')|contradiction]|]. intro Z. now apply Q3, Sh.
      * intros u p1 p2 H H'. apply O in H as [H|[E ->]]; apply O in H' as [H'|[E' ->]]; [eauto|subst u; elim (O0 _ H)|subst u; elim (O0 _ H')|reflexivity].
      * intros r p' st H. specialize (a16 _ _ _ H). destruct st; unfold gen_ok, at_work, ended in *; rewrite A; [exact a16|exact a16|].
        destruct a16 as [Q|[[Q1 Q2]|Q]]; [now left|right; left; split; [now apply D|exact Q2]|now right; right].
      * intros u j H. destruct (C _ _ H) as [[-> ->]|(N & H' & _)].
        -- exists p, z. cbn [s_handle]. rewrite Eh, B, R0. cbn [h_entry h_pos firstn]. split; [apply O; now right|]. repeat split; [exact Zo|lia].
        -- destruct (a17 _ _ H') as (p' & z' & Q1 & Q2). exists p', z'. rewrite B. split; [apply O; now left|exact Q2].
      * intros j L _ Cl. destruct (Nat.eq_dec j i) as [->|N].
        -- right. exists u0. rewrite upd_same. split; [reflexivity|]. intro Z. now apply S0, Sh.
        -- destruct (a18 j L ltac:(congruence) Cl) as [Q|(u & Q & Ns)]; [now left|right]. exists u. split; [|intro Z; apply Ns; now apply Sh]. rewrite upd_other; [exact Q|]. intros ->. congruence.
    + pose proof (open_err _ _ _ _ Zf) as ->. injection H as <- <-. apply inv_mute; [exact V|mute_tac|discriminate].
  - unfold z_close in H. destruct (s_fd s p) as [i|]; injection H as <- <-.
    + apply inv_mute; [now apply inv_close|mute_tac|discriminate].
    + apply inv_mute; [exact V|mute_tac|discriminate].
  - destruct (s_user s u) as [i|] eqn:U; [|injection H as <- <-; apply inv_mute; [exact V|mute_tac; cbn [taken]; destruct (Nat.eqb u u0); reflexivity|discriminate]].
    unfold read_handle in H. destruct (h_closed (s_handle s i)) eqn:Hc; [injection H as <- <-; apply inv_mute; [exact V|mute_tac; cbn [taken]; destruct (Nat.eqb u u0); reflexivity|discriminate]|].
    destruct (bad_read (h_entry (s_handle s i)) (h_pos (s_handle s i))); [injection H as <- <-; apply inv_mute; [exact V|mute_tac; cbn [taken]; destruct (Nat.eqb u u0); reflexivity|discriminate]|].
    injection H as <- <-. set (h := s_handle s i) in *. set (b := firstn k (skipn (h_pos h) (data (h_entry h)))). set (x := (ERead u k, OChunk b)).
    pose proof (v_gu _ _ _ V) as Gu. pose proof (v_uu _ _ _ V) as Uu.
    destruct V as [a1 a2 a3 a4 a5 a6 a7 a8 a9 a10 a11 a12 a13 a14 a15 a15b a16 a17 a18].
    assert (A : forall r, answers r (t ++ [x]) = answers r t) by (intro r; rewrite answers_app; apply app_nil_r).
    assert (B : forall u', u' <> u -> read_from u' (t ++ [x]) = read_from u' t). { intros u' N. rewrite read_from_app. cbn [taken x]. destruct (Nat.eqb_spec u u'); [congruence|apply app_nil_r]. }
    assert (Bu : read_from u (t ++ [x]) = read_from u t ++ [OChunk b]) by (rewrite read_from_app; cbn [taken x]; now rewrite Nat.eqb_refl).
    assert (R : forall r p, reader_of (t ++ [x]) r p <-> reader_of t r p). { intros r' p'. unfold reader_of. rewrite in_snoc. split; [intros [H|H]; [exact H|discriminate H]|auto]. }
    assert (O : forall u p, opened_as (t ++ [x]) u p <-> opened_as t u p). { intros u' p'. unfold opened_as. rewrite in_snoc. split; [intros [H|H]; [exact H|discriminate H]|auto]. }
    assert (D : forall r, dropped r t -> dropped r (t ++ [x])) by (intros r' (o & No & H); exists o; split; [exact No|apply in_snoc; now left]).
    assert (Sh : forall u, shut u (t ++ [x]) -> shut u t). { intros u' (o & No & H). apply in_snoc in H as [H|H]; [now exists o|discriminate H]. }
    split; cbn [set_handle s_fd s_made s_handle s_gens s_gen s_given s_user]; try assumption.
    + intros r p' H. apply R in H. eauto.
    + intros r p' st H. apply R. eauto.
    + intros r H. rewrite A. eauto.
    + intros u' p' H. apply O in H. eauto.
    + intros u' H. rewrite B by (intros ->; congruence). destruct (a15 _ H) as (Q1 & Q2 & Q3). split; [exact Q1|]. split; [intros p' Hp; apply O in Hp; now apply (Q2 p')|]. intro Z. now apply Q3, Sh.
    + intros u' p1 p2 H H'. apply O in H. apply O in H'. eauto.
    + intros r p' st H. specialize (a16 _ _ _ H). destruct st as [|j|]; unfold gen_ok, at_work, ended in *; rewrite A; [exact a16| |].
      * cbn [set_handle s_handle]. rewrite upd_other; [exact a16|]. intros ->. exact (Gu _ _ _ _ H U).
      * destruct a16 as [Q|[[Q1 Q2]|Q]]; [now left|right; left; split; [now apply D|exact Q2]|now right; right].
    + intros u' j H. destruct (Nat.eq_dec u' u) as [->|N].
      * assert (j = i) by congruence. subst j. destruct (a17 _ _ H) as (p' & z' & Q1 & Q2 & Q3 & Q4 & Q5). fold h in Q3, Q4, Q5. exists p', z'. cbn [set_handle s_handle]. rewrite upd_same. cbn [h_entry h_pos].
        split; [now apply O|]. split; [exact Q2|]. split; [exact Q3|]. rewrite Bu, got_app, Q4. unfold got. cbn [map chunk_of concat]. rewrite app_nil_r. unfold b. rewrite Q3.
        rewrite firstn_length, skipn_length. split; [|lia]. rewrite <- firstn_add. f_equal. destruct (Nat.le_ge_cases k (length (data z') - h_pos h)) as [L|L]; [now rewrite Nat.min_l|].
        rewrite Nat.min_r by exact L. rewrite !firstn_all2; [reflexivity| |]; rewrite skipn_length; lia.
      * destruct (a17 _ _ H) as (p' & z' & Q1 & Q2). exists p', z'. rewrite B by exact N. cbn [set_handle s_handle]. rewrite upd_other; [split; [now apply O|exact Q2]|]. intros ->. apply N. eauto.
    + intros j L Ne Cl. assert (C2 : h_closed (s_handle s j) = false) by (destruct (Nat.eq_dec j i) as [->|N]; [exact Hc|now rewrite upd_other in Cl by exact N]).
      destruct (a18 _ L Ne C2) as [Q|(u' & Q & Ns)]; [now left|right]. exists u'. split; [exact Q|]. intro Z. apply Ns. now apply Sh.
  - destruct (s_user s u) as [i|] eqn:U; injection H as <- <-.
    + apply inv_mute; [now apply inv_close|mute_tac|]. intros u' o' Q _. injection Q as <- _. exists i. split; [exact U|apply close_closes].
    + apply inv_mute; [exact V|mute_tac|]. intros u' o' Q No. injection Q as _ <-. congruence.
Qed.

Lemma run_inv es : forall t s t' s', Inv None t s -> run' es s = (t', s') -> Inv None (t ++ t') s'.
Proof.
  induction es as [|e es IH]; intros t s t' s' V H; cbn [run' run] in H; [injection H as <- <-; now rewrite app_nil_r|].
  change (step entries data bad_open bad_read n e s) with (step' e s) in H. destruct (step' e s) as [o s1] eqn:E.
  change (run entries data bad_open bad_read n es s1) with (run' es s1) in H. destruct (run' es s1) as [t2 s2] eqn:E2. injection H as <- <-.
  pose proof (step_inv _ _ _ _ _ V E) as V1. specialize (IH _ _ _ _ V1 E2). now rewrite <- app_assoc in IH.
Qed.

(** ** One reader *)
Lemma finish_frame r p o s o' s' k : finish r p o s = (o', s') -> s_fd s p <> Some k -> s_handle s' k = s_handle s k /\ forall r', r' <> r -> s_gen s' r' = s_gen s r'.
Proof.
  unfold finish, z_close. intros H N. destruct (s_fd s p) as [j|] eqn:F; injection H as <- <-; cbn [set_gen close_handle set_handle s_handle s_gen]; (split; [|intros r' Nr; now apply upd_other]); [|reflexivity].
  apply upd_other. congruence.
Qed.
Lemma round_frame r p i s o s' k : round data bad_read n r p i s = (o, s') -> k <> i -> s_fd s p <> Some k -> s_handle s' k = s_handle s k /\ forall r', r' <> r -> s_gen s' r' = s_gen s r'.
Proof.
  unfold round, read_handle. intros H Ni Nf.
  assert (F : forall o s1 o' s', (forall j, j <> i -> s_handle s1 j = s_handle s j) -> s_gen s1 = s_gen s -> s_fd s1 = s_fd s -> finish r p o (close_handle i s1) = (o', s') -> s_handle s' k = s_handle s k /\ forall r', r' <> r -> s_gen s' r' = s_gen s r').
  { intros o1 s1 o2 s2 A1 A2 A3 E. destruct (finish_frame _ _ _ _ _ _ k E) as [Q1 Q2]; [cbn; now rewrite A3|]. cbn in Q1, Q2. rewrite upd_other in Q1 by exact Ni. rewrite A1 in Q1 by exact Ni. rewrite A2 in Q2. now split. }
  destruct (h_closed (s_handle s i)); [eapply F; [| | |exact H]; reflexivity|]. destruct (bad_read (h_entry (s_handle s i)) (h_pos (s_handle s i))); [eapply F; [| | |exact H]; reflexivity|].
  set (b := firstn n (skipn (h_pos (s_handle s i)) (data (h_entry (s_handle s i))))) in *. destruct b eqn:Eb.
  - eapply F; [| | |exact H]; try reflexivity. intros j Nj. cbn. now apply upd_other.
  - injection H as <- <-. cbn. split; [now apply upd_other|]. intros r' Nr. now apply upd_other.
Qed.
Lemma finish_gens r p o s o' s' : finish r p o s = (o', s') -> forall r', r' <> r -> s_gen s' r' = s_gen s r'.
Proof. unfold finish, z_close. intros H r' N. destruct (s_fd s p) as [j|]; injection H as <- <-; cbn; now apply upd_other. Qed.
Lemma round_gens r p i s o s' : round data bad_read n r p i s = (o, s') -> forall r', r' <> r -> s_gen s' r' = s_gen s r'.
Proof.
  unfold round, read_handle. intros H r' N. destruct (h_closed (s_handle s i)); [exact (finish_gens _ _ _ _ _ _ H r' N)|]. destruct (bad_read (h_entry (s_handle s i)) (h_pos (s_handle s i))); [exact (finish_gens _ _ _ _ _ _ H r' N)|].
  set (b := firstn n (skipn (h_pos (s_handle s i)) (data (h_entry (s_handle s i))))) in *. destruct b; [exact (finish_gens _ _ _ _ _ _ H r' N)|]. injection H as <- <-. cbn. now apply upd_other.
Qed.
Lemma step_gens e s o s' r : step' e s = (o, s') -> e = ENext r \/ e = EDrop r -> forall r', r' <> r -> s_gen s' r' = s_gen s r'.
Proof.
  intros H [->| ->] r' N; cbn [step' step] in H; [unfold gen_next in H|unfold gen_close in H]; destruct (s_gen s r) as [[p [|i|]]|].
  - destruct (z_open_file entries bad_open p s) as [[i|e] s1] eqn:Zf.
    + rewrite (round_gens _ _ _ _ _ _ H r' N). unfold z_open_file in Zf. destruct (z_open entries p) as [z'|]; [|discriminate]. destruct (bad_open z'); [discriminate|]. now injection Zf as <- <-.
    + pose proof (open_err _ _ _ _ Zf) as ->. exact (finish_gens _ _ _ _ _ _ H r' N).
  - exact (round_gens _ _ _ _ _ _ H r' N).
  - now injection H as _ <-.
  - now injection H as _ <-.
  - injection H as _ <-. cbn. now apply upd_other.
  - exact (finish_gens _ _ _ _ _ _ H r' N).
  - injection H as _ <-. cbn. now apply upd_other.
  - now injection H as _ <-.
Qed.
Section One.
Variable p : ppath.
Variable z : zinfo.
Hypothesis Zo : z_open entries p = Ok z.
Hypothesis Bo : bad_open z = None.
Hypothesis Br : forall k, bad_read z k = None.
Definition Kinv (t : trace) (s : zstate) : Prop :=
  (forall r i, s_gen s r = Some (p, Reading i) -> h_closed (s_handle s i) = false) /\ (forall r st e, s_gen s r = Some (p, st) -> ~ In (ORaise e) (answers r t)).
Lemma alone_less t x : alone p (t ++ [x]) -> alone p t.
Proof. intros [A B]. split; [intros r r' H H'; apply A; unfold reader_of; apply in_snoc; now left|]. intros (o & H). apply B. exists o. apply in_snoc. now left. Qed.
(** nothing happened to the reader of [p] *)
Lemma kinv_frame t s x s' : Kinv t s -> (forall r st, s_gen s' r = Some (p, st) -> (st = Fresh /\ answers r (t ++ [x]) = []) \/ (s_gen s r = Some (p, st) /\ forall e, ~ In (ORaise e) (answer r x))) ->
  (forall r i, s_gen s r = Some (p, Reading i) -> h_closed (s_handle s' i) = h_closed (s_handle s i)) -> Kinv (t ++ [x]) s'.
Proof.
  intros [K1 K2] A B. split.
  - intros r i G. destruct (A _ _ G) as [[Q _]|[Q _]]; [discriminate|]. rewrite (B _ _ Q). eauto.
  - intros r st e G. destruct (A _ _ G) as [[_ Q]|[Q1 Q2]]; [now rewrite Q|]. rewrite answers_app, in_app_iff. intros [I|I]; [eapply K2; eauto|eapply Q2; eauto].
Qed.
Lemma kinv_round t s r i o s' st : Kinv t s -> (forall r' st', s_gen s r' = Some (p, st') -> r' = r) -> s_gen s r = Some (p, st) -> s_fd s p <> None -> h_entry (s_handle s i) = z -> h_closed (s_handle s i) = false ->
  round data bad_read n r p i s = (o, s') -> Kinv (t ++ [(ENext r, o)]) s'.
Proof.
  intros [K1 K2] One G Fd He Hc H. unfold round, read_handle in H. rewrite Hc, He, Br in H. set (b := firstn n (skipn (h_pos (s_handle s i)) (data z))) in *.
  assert (D : b = [] \/ b <> []) by (destruct b; [now left|now right]). destruct D as [E|E].
  - rewrite E in H. unfold finish, z_close in H. change (s_fd (close_handle i (set_handle i (mkHandle z (h_pos (s_handle s i) + length (@nil Byte.byte)) false) s))) with (s_fd s) in H. destruct (s_fd s p) as [j|]; [|contradiction]. injection H as <- <-. split.
    + intros r' i' Q. cbn in Q. destruct (Nat.eq_dec r' r) as [->|N]; [rewrite upd_same in Q; discriminate|]. rewrite upd_other in Q by exact N. elim N. eauto.
    + intros r' st' e Q. cbn in Q. rewrite answers_app, in_app_iff. destruct (Nat.eq_dec r' r) as [->|N]; [|rewrite upd_other in Q by exact N; elim N; eauto].
      intros [I|I]; [eapply K2; eauto|]. cbn [answer] in I. rewrite Nat.eqb_refl in I. destruct I as [I|[]]; discriminate.
  - assert (H' : (OChunk b, set_gen r (p, Reading i) (set_handle i (mkHandle z (h_pos (s_handle s i) + length b) false) s)) = (o, s')) by (destruct b; [congruence|exact H]). injection H' as <- <-. split.
    + intros r' i' Q. cbn in Q |- *. destruct (Nat.eq_dec r' r) as [->|N]; [rewrite upd_same in Q; injection Q as <-; now rewrite upd_same|]. rewrite upd_other in Q by exact N. elim N. eauto.
    + intros r' st' e Q. cbn in Q. rewrite answers_app, in_app_iff. destruct (Nat.eq_dec r' r) as [->|N]; [|rewrite upd_other in Q by exact N; elim N; eauto].
      intros [I|I]; [eapply K2; eauto|]. cbn [answer] in I. rewrite Nat.eqb_refl in I. destruct I as [I|[]]; discriminate.
Qed.
Lemma kinv_step t s e o s' : Inv None t s -> Kinv t s -> alone p (t ++ [(e, o)]) -> step' e s = (o, s') -> Kinv (t ++ [(e, o)]) s'.
Proof.
  intros V K Al H. pose proof (alone_less _ _ Al) as [Al1 _]. pose proof K as [K1 K2].
  assert (One : forall r r' st st', s_gen s r = Some (p, st) -> s_gen s r' = Some (p, st') -> r' = r) by (intros r r' st st' G G'; apply Al1; eapply v_back; eauto).
  assert (Nraise : forall r, (forall r0 o0, (e, o) = (ENext r0, o0) -> r0 <> r) -> forall ex, ~ In (ORaise ex) (answer r (e, o))).
  { intros r N ex. destruct e; cbn [answer]; try (now intros []). destruct o; try (now intros []); (destruct (Nat.eqb_spec r0 r) as [->|]; [elim (N r _ eq_refl); reflexivity|now intros []]). }
  pose proof (step_inv _ _ _ _ _ V H) as V'.
  assert (Other : forall r p' st, s_gen s r = Some (p', st) -> p' <> p -> (forall i r', s_gen s r' = Some (p, Reading i) -> s_handle s' i = s_handle s i) -> (e = ENext r \/ e = EDrop r) -> Kinv (t ++ [(e, o)]) s').
  { intros r p' st G Np A Ee. pose proof (step_gens _ _ _ _ _ H Ee) as A2. apply (kinv_frame _ _ _ _ K); [|intros r' i' G'; now rewrite (A _ _ G')].
    intros r' st' G'. destruct (Nat.eq_dec r' r) as [->|N].
    - elim Np. assert (R : reader_of (t ++ [(e, o)]) r p') by (apply in_snoc; left; exact (v_back _ _ _ V _ _ _ G)). destruct (v_old _ _ _ V' _ _ R) as (st2 & Q). congruence.
    - right. rewrite <- A2 by exact N. split; [exact G'|]. apply Nraise. intros r0 o0 Q. injection Q as Q _. destruct Ee as [Ee|Ee]; congruence. }
  destruct e as [p'|r|r|p'|p'|u k|u]; cbn [step' step] in H.
  - injection H as <- <-. apply (kinv_frame _ _ _ _ K); [|reflexivity]. intros r st G. cbn in G. destruct (Nat.eq_dec r (s_gens s)) as [->|N].
    + left. rewrite upd_same in G. injection G as _ <-. split; [reflexivity|]. rewrite answers_app, app_nil_r. apply (v_none _ _ _ V). apply (v_new _ _ _ V). apply Nat.le_refl.
    + right. rewrite upd_other in G by exact N. split; [exact G|]. apply Nraise. discriminate.
  - unfold gen_next in H. destruct (s_gen s r) as [[p' st]|] eqn:G; [|injection H as <- <-; apply (kinv_frame _ _ _ _ K); [|reflexivity]; intros r' st G'; right; split; [exact G'|]; intros ex []].
    destruct (pp_eqb p' p) eqn:Ep.
    + apply pp_eqb_eq in Ep. subst p'. destruct st as [|i|].
      * destruct (z_open_file entries bad_open p s) as [[i|e] s1] eqn:Zf; [|unfold z_open_file in Zf; rewrite Zo, Bo in Zf; discriminate].
        destruct (inv_open _ _ _ _ _ V Zf) as (V1 & Ei & Li & Eg & Eu & _ & _ & Fp & Uq & z' & Zo' & Eh & _). assert (z' = z) by congruence. subst z'.
        refine (kinv_round t s1 r i o s' Fresh _ _ _ _ _ _ H); rewrite ?Eg, ?Eh, ?Fp; try reflexivity; try discriminate; try exact G.
        -- split; [|rewrite Eg; exact K2]. intros r' i' Q. rewrite Eg in Q. unfold z_open_file in Zf. rewrite Zo, Bo in Zf. injection Zf as _ <-. cbn. specialize (v_own_g _ _ _ V _ _ _ Q) as L. rewrite upd_other by lia. eauto.
        -- intros r' st' Q. eauto.
      * destruct (v_gen _ _ _ V _ _ _ G) as (z' & m & Zo' & He' & _). assert (He : h_entry (s_handle s i) = z) by congruence.
        refine (kinv_round t s r i o s' (Reading i) K _ G (v_has _ _ _ V _ _ _ G) He (K1 _ _ G) H). intros r' st' Q. eauto.
      * injection H as <- <-. apply (kinv_frame _ _ _ _ K); [|reflexivity]. intros r' st G'. right. split; [exact G'|]. intros ex I. cbn [answer] in I. destruct (Nat.eqb r r'); [destruct I as [I|[]]; discriminate|destruct I].
    + apply pp_eqb_neq in Ep.
      apply (Other r p' st G Ep); [|now left]. intros i' r' G'. assert (Nf : s_fd s p' <> Some i') by (intro Q; apply Ep; exact (v_fdg _ _ _ V _ _ _ _ Q G')).
      destruct st as [|i|].
      * destruct (z_open_file entries bad_open p' s) as [[i|e] s1] eqn:Zf.
        -- pose proof (v_own_g _ _ _ V _ _ _ G') as L. unfold z_open_file in Zf. destruct (z_open entries p') as [z'|]; [|discriminate]. destruct (bad_open z'); [discriminate|]. injection Zf as <- <-.
           destruct (round_frame _ _ _ _ _ _ i' H) as [Q1 Q2]; [lia|cbn; rewrite pp_eqb_refl; intro Q; injection Q as Q; lia|]. cbn in Q1, Q2. rewrite upd_other in Q1 by lia. exact Q1.
        -- pose proof (open_err _ _ _ _ Zf) as ->. exact (proj1 (finish_frame _ _ _ _ _ _ i' H Nf)).
      * refine (proj1 (round_frame _ _ _ _ _ _ i' H _ Nf)). intros ->. pose proof (v_gg _ _ _ V _ _ _ _ _ G' G). subst r'. congruence.
      * now injection H as _ <-.
  - unfold gen_close in H. destruct (s_gen s r) as [[p' st]|] eqn:G; [|injection H as <- <-; apply (kinv_frame _ _ _ _ K); [|reflexivity]; intros r' st G'; right; split; [exact G'|]; intros ex []].
    destruct (pp_eqb p' p) eqn:Ep.
    + apply pp_eqb_eq in Ep. subst p'.
      assert (Q : exists o' s0, s_gen s' = upd (s_gen s0) r (Some (p, Done)) /\ s_gen s0 = s_gen s /\ o' = o).
      { destruct st; [injection H as <- <-; now exists ONone, s| |injection H as <- <-; now exists ONone, s]. unfold finish, z_close in H. change (s_fd (close_handle h s)) with (s_fd s) in H.
        destruct (s_fd s p) as [j|]; injection H as <- <-; [now exists ONone, (close_handle j (close_handle h s))|now exists (ORaise BaseExn), (close_handle h s)]. }
      destruct Q as (_ & s0 & Q1 & Q2 & _). rewrite Q2 in Q1. split.
      * intros r' i' G'. rewrite Q1 in G'. destruct (Nat.eq_dec r' r) as [->|N]; [rewrite upd_same in G'; discriminate|]. rewrite upd_other in G' by exact N. elim N. eauto.
      * intros r' st' e G'. rewrite Q1 in G'. rewrite answers_app. cbn [answer]. rewrite app_nil_r. destruct (Nat.eq_dec r' r) as [->|N]; [eauto|]. rewrite upd_other in G' by exact N. eauto.
    + apply pp_eqb_neq in Ep. apply (Other r p' st G Ep); [|now right]. intros i' r' G'. assert (Nf : s_fd s p' <> Some i') by (intro Q; apply Ep; exact (v_fdg _ _ _ V _ _ _ _ Q G')).
      destruct st as [|i|].
      * now injection H as _ <-.
      * assert (Ni : i' <> i) by (intros ->; pose proof (v_gg _ _ _ V _ _ _ _ _ G' G); subst r'; congruence).
        destruct (finish_frame _ _ _ _ _ _ i' H Nf) as [Q1 Q2]. cbn in Q1, Q2. rewrite upd_other in Q1 by exact Ni. exact Q1.
      * now injection H as _ <-.
  - destruct (z_open_file entries bad_open p' s) as [[i|e] s1] eqn:Zf.
    + destruct (inv_open _ _ _ _ _ V Zf) as (V1 & Ei & Li & Eg & Eu & _ & _ & Fp & Uq & z' & Zo' & Eh & Bo').
      injection H as <- <-. apply (kinv_frame _ _ _ _ K).
      * intros r st G'. cbn in G'. rewrite Eg in G'. right. split; [exact G'|]. intros ex [].
      * intros r i' G'. cbn. unfold z_open_file in Zf. rewrite Zo', Bo' in Zf. injection Zf as _ <-. cbn. specialize (v_own_g _ _ _ V _ _ _ G') as L. now rewrite upd_other by lia.
    + pose proof (open_err _ _ _ _ Zf) as ->. injection H as <- <-. apply (kinv_frame _ _ _ _ K); [|reflexivity]. intros r' st G'. right. split; [exact G'|]. intros ex [].
  - assert (Np : p' <> p). { intros ->. destruct Al as [_ Al]. apply Al. exists o. apply in_snoc. now right. }
    unfold z_close in H. destruct (s_fd s p') as [j|] eqn:Fd; injection H as <- <-; apply (kinv_frame _ _ _ _ K); try reflexivity; try (intros r' st G'; right; split; [exact G'|]; intros ex []).
    intros r i G'. cbn. rewrite upd_other; [reflexivity|]. intros ->. apply Np. exact (v_fdg _ _ _ V _ _ _ _ Fd G').
  - destruct (s_user s u) as [i|] eqn:U; [|injection H as <- <-; apply (kinv_frame _ _ _ _ K); [|reflexivity]; intros r' st G'; right; split; [exact G'|]; intros ex []].
    unfold read_handle in H. destruct (h_closed (s_handle s i)) eqn:Hc; [|destruct (bad_read (h_entry (s_handle s i)) (h_pos (s_handle s i)))]; injection H as <- <-; apply (kinv_frame _ _ _ _ K); try reflexivity; try (intros r' st G'; right; split; [exact G'|]; intros ex []).
    intros r j G'. cbn. rewrite upd_other; [reflexivity|]. intros ->. exact (v_gu _ _ _ V _ _ _ _ G' U).
  - destruct (s_user s u) as [i|] eqn:U; injection H as <- <-; apply (kinv_frame _ _ _ _ K); try reflexivity; try (intros r' st G'; right; split; [exact G'|]; intros ex []).
    intros r j G'. cbn. rewrite upd_other; [reflexivity|]. intros ->. exact (v_gu _ _ _ V _ _ _ _ G' U).
Qed.
Lemma kinv_run es : forall t s t' s', Inv None t s -> Kinv t s -> run' es s = (t', s') -> alone p (t ++ t') -> Kinv (t ++ t') s'.
Proof.
  induction es as [|e es IH]; intros t s t' s' V K H Al; cbn [run' run] in H; [injection H as <- <-; now rewrite app_nil_r|].
  change (step entries data bad_open bad_read n e s) with (step' e s) in H. destruct (step' e s) as [o s1] eqn:E.
  change (run entries data bad_open bad_read n es s1) with (run' es s1) in H. destruct (run' es s1) as [t2 s2] eqn:E2. injection H as <- <-.
  change ((e, o) :: t2) with ([(e, o)] ++ t2) in *. rewrite app_assoc in *. pose proof (step_inv _ _ _ _ _ V E) as V1.
  assert (Al1 : alone p (t ++ [(e, o)])). { destruct Al as [A B]. split; [intros r r' H H'; apply A; apply in_app_iff; now left|]. intros (o' & I). apply B. exists o'. apply in_app_iff. now left. }
  exact (IH _ _ _ _ V1 (kinv_step _ _ _ _ _ V K Al1 E) E2 Al).
Qed.
End One.
End Archive.

Lemma zip_truthful entries data bad_open bad_read n es t s : (0 < n)%nat -> run entries data bad_open bad_read n es nothing_open = (t, s) ->
  forall r p, reader_of t r p -> truthful n (match z_open entries p with Ok z => data z | Err _ => [] end) (dropped r t) (answers r t).
Proof.
  intros Hn H r p R. pose proof (run_inv entries data bad_open bad_read n Hn es [] nothing_open t s (inv_start _ _ _) H) as V. cbn [app] in V.
  destruct (v_old _ _ _ _ _ _ V _ _ R) as (st & G). pose proof (v_gen _ _ _ _ _ _ V _ _ _ G) as Q. fold (source entries data p). destruct st as [|i|].
  - left. cbn [gen_ok] in Q. rewrite Q. reflexivity.
  - destruct Q as (z & m & Zo & _ & A & _). left. rewrite A, (source_open _ _ _ _ Zo). apply in_order_seq.
  - destruct Q as [(m & A & _)|[(D & m & j & A)|(m & e & j & A)]]; [left; rewrite A; apply in_order_seq|right; left|right; right].
    + split; [exact D|]. exists (map (kth n (source entries data p)) (seq 0 m)), j. split; [exact A|apply in_order_seq].
    + exists (map (kth n (source entries data p)) (seq 0 m)), e, j. split; [exact A|apply in_order_seq].
Qed.
Lemma got_stops j : got (repeat OStop j) = [].
Proof. induction j as [|j IH]; [reflexivity|exact IH]. Qed.
Lemma got_in_order n d l : (0 < n)%nat -> in_order n d l -> got l = firstn (length l * n) d.
Proof. intros Hn E. rewrite E at 1. now apply got_seq. Qed.
Lemma firstn_len {A} m (d : list A) : firstn m d = firstn (length (firstn m d)) d.
Proof. rewrite firstn_length. destruct (Nat.le_ge_cases m (length d)); [now rewrite Nat.min_l|]. rewrite Nat.min_r by assumption. now rewrite !firstn_all2. Qed.
Lemma zip_prefix entries data bad_open bad_read n es t s : (0 < n)%nat -> run entries data bad_open bad_read n es nothing_open = (t, s) ->
  forall r p, reader_of t r p -> exists m, got (answers r t) = firstn m (match z_open entries p with Ok z => data z | Err _ => [] end).
Proof.
  intros Hn H r p R. destruct (zip_truthful _ _ _ _ _ _ _ _ Hn H r p R) as [O|[(_ & l & j & E & O)|(l & e & j & E & O)]].
  - exists (length (answers r t) * n)%nat. now apply got_in_order.
  - exists (length l * n)%nat. rewrite E, got_app, got_stops, app_nil_r. now apply got_in_order.
  - exists (length l * n)%nat. rewrite E, got_app. change (ORaise e :: repeat OStop j) with ([ORaise e] ++ repeat OStop j). rewrite got_app, got_stops. cbn. rewrite app_nil_r. now apply got_in_order.
Qed.
Lemma zip_all entries data bad_open bad_read n es t s : (0 < n)%nat -> run entries data bad_open bad_read n es nothing_open = (t, s) ->
  forall r p, reader_of t r p -> ~ dropped r t -> (forall e, ~ In (ORaise e) (answers r t)) -> In OStop (answers r t) ->
  got (answers r t) = match z_open entries p with Ok z => data z | Err _ => [] end.
Proof.
  intros Hn H r p R Nd Nr I. destruct (zip_truthful _ _ _ _ _ _ _ _ Hn H r p R) as [O|[(D & _)|(l & e & j & E & O)]]; [|contradiction|elim (Nr e); rewrite E; apply in_app_iff; right; now left].
  rewrite (got_in_order _ _ _ Hn O). unfold in_order in O. set (d := match z_open entries p with Ok z => data z | Err _ => [] end) in *. rewrite O in I. apply in_map_iff in I as (k & E & Ik). apply in_seq in Ik. cbn in Ik.
  apply firstn_all2. unfold kth in E. destruct (firstn n (skipn (k * n) d)) eqn:Q; [|discriminate]. assert (L : length (firstn n (skipn (k * n) d)) = 0%nat) by now rewrite Q. rewrite firstn_length, skipn_length in L. nia.
Qed.
Lemma zip_exact entries data bad_open bad_read n es t s : (0 < n)%nat -> run entries data bad_open bad_read n es nothing_open = (t, s) ->
  forall r p z, reader_of t r p -> z_open entries p = Ok z -> bad_open z = None -> (forall k, bad_read z k = None) -> alone p t -> ~ dropped r t -> in_order n (data z) (answers r t).
Proof.
  intros Hn H r p z R Zo Bo Br Al Nd. pose proof (zip_truthful _ _ _ _ _ _ _ _ Hn H r p R) as T. rewrite Zo in T.
  pose proof (run_inv entries data bad_open bad_read n Hn es [] nothing_open t s (inv_start _ _ _) H) as V. cbn [app] in V. destruct (v_old _ _ _ _ _ _ V _ _ R) as (st & G).
  assert (K : Kinv p [] nothing_open) by (split; discriminate).
  pose proof (kinv_run entries data bad_open bad_read n Hn p z Zo Bo Br es [] nothing_open t s (inv_start _ _ _) K H Al) as [_ K2]. cbn [app] in K2.
  destruct T as [O|[(D & _)|(l & e & j & E & O)]]; [exact O|contradiction|]. elim (K2 _ _ e G). rewrite E. apply in_app_iff. right. now left.
Qed.
Lemma zip_file entries data bad_open bad_read n es t s : (0 < n)%nat -> run entries data bad_open bad_read n es nothing_open = (t, s) ->
  forall u p, opened_as t u p -> exists z m, z_open entries p = Ok z /\ got (read_from u t) = firstn m (data z).
Proof.
  intros Hn H u p O. pose proof (run_inv entries data bad_open bad_read n Hn es [] nothing_open t s (inv_start _ _ _) H) as V. cbn [app] in V. destruct (v_oldu _ _ _ _ _ _ V _ _ O) as (i & U).
  destruct (v_user _ _ _ _ _ _ V _ _ U) as (p' & z & O' & Zo & _ & Q & _). rewrite (v_oneu _ _ _ _ _ _ V _ _ _ O O'). eauto.
Qed.
(** ** Files that stay open *)
Definition gone_done (t : trace) (s : zstate) : Prop := forall r, dropped r t -> exists p, s_gen s r = Some (p, Done).
Lemma gone_step entries data bad_open bad_read n t s e o s' : (0 < n)%nat -> Inv entries data n None t s -> gone_done t s -> step entries data bad_open bad_read n e s = (o, s') -> gone_done (t ++ [(e, o)]) s'.
Proof.
  intros Hn V D H r (o' & No & I). pose proof (step_inv entries data bad_open bad_read n Hn _ _ _ _ _ V H) as V'. apply in_snoc in I as [I|I].
  - destruct (D r) as (p & G); [now exists o'|]. exists p.
    assert (Sm : s_gen s' r = s_gen s r); [|now rewrite Sm].
    destruct e as [p'|r'|r'|p'|p'|u k|u].
    + injection H as _ <-. cbn. apply upd_other. intros ->. rewrite (v_new _ _ _ _ _ _ V _ (Nat.le_refl _)) in G. discriminate.
    + destruct (Nat.eq_dec r r') as [<-|N]; [|exact (step_gens _ _ _ _ _ _ _ _ _ r' H (or_introl eq_refl) _ N)]. cbn [step] in H. unfold gen_next in H. rewrite G in H. now injection H as _ <-.
    + destruct (Nat.eq_dec r r') as [<-|N]; [|exact (step_gens _ _ _ _ _ _ _ _ _ r' H (or_intror eq_refl) _ N)]. cbn [step] in H. unfold gen_close in H. rewrite G in H. injection H as _ <-. cbn. rewrite upd_same. now rewrite G.
    + cbn [step] in H. unfold z_open_file in H. destruct (z_open entries p') as [z'|]; [|now injection H as _ <-]. destruct (bad_open z'); now injection H as _ <-.
    + cbn [step] in H. unfold z_close in H. destruct (s_fd s p'); now injection H as _ <-.
    + cbn [step] in H. destruct (s_user s u) as [i|]; [|now injection H as _ <-]. unfold read_handle in H. destruct (h_closed (s_handle s i)); [now injection H as _ <-|]. destruct (bad_read (h_entry (s_handle s i)) (h_pos (s_handle s i))); now injection H as _ <-.
    + cbn [step] in H. destruct (s_user s u); now injection H as _ <-.
  - injection I as -> ->. cbn [step] in H. unfold gen_close in H. destruct (s_gen s r) as [[p [|i|]]|] eqn:G.
    + injection H as _ <-. exists p. cbn. now rewrite upd_same.
    + unfold finish, z_close in H. destruct (s_fd (close_handle i s) p); injection H as _ <-; exists p; cbn; now rewrite upd_same.
    + injection H as _ <-. exists p. cbn. now rewrite upd_same.
    + injection H as <- _. congruence.
Qed.
Lemma gone_run entries data bad_open bad_read n es : (0 < n)%nat -> forall t s t' s', Inv entries data n None t s -> gone_done t s -> run entries data bad_open bad_read n es s = (t', s') -> gone_done (t ++ t') s'.
Proof.
  intro Hn. induction es as [|e es IH]; intros t s t' s' V D H; cbn [run] in H; [injection H as <- <-; now rewrite app_nil_r|].
  destruct (step entries data bad_open bad_read n e s) as [o s1] eqn:E. destruct (run entries data bad_open bad_read n es s1) as [t2 s2] eqn:E2. injection H as <- <-.
  pose proof (step_inv entries data bad_open bad_read n Hn _ _ _ _ _ V E) as V1. pose proof (gone_step _ _ _ _ _ _ _ _ _ _ Hn V D E) as D1. specialize (IH _ _ _ _ V1 D1 E2). now rewrite <- app_assoc in IH.
Qed.
Lemma zip_closed entries data bad_open bad_read n es t s : (0 < n)%nat -> run entries data bad_open bad_read n es nothing_open = (t, s) ->
  forall i, (i < s_made s)%nat -> h_closed (s_handle s i) = false ->
  (exists r p, reader_of t r p /\ ~ dropped r t /\ forall o, In o (answers r t) -> exists b, o = OChunk b) \/ (exists u p, opened_as t u p /\ ~ shut u t).
Proof.
  intros Hn H i L C. pose proof (run_inv entries data bad_open bad_read n Hn es [] nothing_open t s (inv_start _ _ _) H) as V.
  assert (D0 : gone_done [] nothing_open) by (intros r (o & _ & [])). pose proof (gone_run entries data bad_open bad_read n es Hn [] nothing_open t s (inv_start _ _ _) D0 H) as D. cbn [app] in V, D.
  destruct (v_leak _ _ _ _ _ _ V i L ltac:(discriminate) C) as [(r & p & G)|(u & U & Ns)].
  - left. exists r, p. split; [exact (v_back _ _ _ _ _ _ V _ _ _ G)|]. split; [intro Q; destruct (D r Q) as (p' & Q'); congruence|]. now destruct (v_gen _ _ _ _ _ _ V _ _ _ G) as (z & m & _ & _ & _ & _ & A).
  - right. destruct (v_user _ _ _ _ _ _ V _ _ U) as (p & z & O & _). exists u, p. now split.
Qed.
