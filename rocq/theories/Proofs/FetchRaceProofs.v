(** * Fetching one file from several programs *)
From Coq Require Import String Strings.Byte Bool List Lia Arith.
From Verif Require Import Model.Py Model.PathOps Model.FetchRace Spec.FetchRaceSpec Proofs.AttrLemmas.
Import ListNotations.

(** ** Writing *)
Lemma pad_len off (b : bytes) : length (firstn off (b ++ repeat x00 (off - length b))) = off.
Proof. rewrite firstn_length, app_length, repeat_length. lia. Qed.
Lemma write_nth off (c b : bytes) j : off + length c <= j \/ off <= j < off + length c \/ (j < off /\ j < length b) \/ (j < off /\ length b <= j) ->
  nth_error (write_at off c b) j =
  if Nat.ltb j off then (if Nat.ltb j (length b) then nth_error b j else Some x00)
  else if Nat.ltb j (off + length c) then nth_error c (j - off) else nth_error b j.
Proof.
  intro H. unfold write_at. assert (P := pad_len off b). set (h := firstn off _) in *.
  destruct (Nat.ltb_spec j off).
  - rewrite nth_error_app1 by lia. unfold h.
    assert (Q : forall n (l : bytes) k, k < n -> nth_error (firstn n l) k = nth_error l k).
    { induction n; intros l k Hk; [lia|]. destruct l, k; cbn; try reflexivity. apply IHn. lia. }
    rewrite Q by assumption. destruct (Nat.ltb_spec j (length b)).
    + now rewrite nth_error_app1.
    + rewrite nth_error_app2 by assumption. rewrite nth_error_repeat by lia. reflexivity.
  - rewrite nth_error_app2 by lia. rewrite P. destruct (Nat.ltb_spec j (off + length c)).
    + rewrite nth_error_app1 by lia. reflexivity.
    + rewrite nth_error_app2 by lia.
      assert (Q : forall n (l : bytes) k, nth_error (skipn n l) k = nth_error l (n + k)).
      { induction n; intros l k; [reflexivity|]. destruct l; cbn; [now destruct k|apply IHn]. }
      rewrite Q. f_equal. lia.
Qed.
Lemma write_len off (c b : bytes) : length (write_at off c b) = Nat.max (length b) (off + length c).
Proof. unfold write_at. rewrite !app_length, pad_len, skipn_length. lia. Qed.

Section P.
Variable D : bytes.
Variable got : nat -> list bytes.
Variable brk : nat -> option exn.
Hypothesis Send : forall i, sends D (got i) (brk i).

Definition agree (p : nat) (c : bytes) : Prop := p <= length c /\ forall j, j < p -> nth_error c j = nth_error D j.
Lemma agree_all c : length c <= length D -> agree (length D) c -> c = D.
Proof.
  intros L (P & A). assert (E : length c = length D) by lia. clear L P. revert A E. generalize D. clear. induction c as [|x c IH]; intros [|y D'] A E; cbn in *; try lia; [reflexivity|].
  f_equal; [assert (Z := A 0 ltac:(lia)); now injection Z|]. apply IH; [|lia]. intros j Hj. exact (A (S j) ltac:(lia)).
Qed.
Lemma chunk_nth a c r j : a ++ c ++ r = D -> length a <= j < length a + length c -> nth_error c (j - length a) = nth_error D j.
Proof. intros <- H. rewrite nth_error_app2 by lia. rewrite nth_error_app1 by lia. reflexivity. Qed.
Lemma write_agree a c r p b : a ++ c ++ r = D -> agree p b -> agree p (write_at (length a) c b).
Proof.
  intros H (L & A). split; [rewrite write_len; lia|]. intros j Hj. rewrite write_nth by lia.
  destruct (Nat.ltb_spec j (length a)); [destruct (Nat.ltb_spec j (length b)); [now apply A|lia]|].
  destruct (Nat.ltb_spec j (length a + length c)); [now apply (chunk_nth a c r)|now apply A].
Qed.
Lemma write_more a c r b : a ++ c ++ r = D -> agree (length a) b -> agree (length a + length c) (write_at (length a) c b).
Proof.
  intros H (L & A). split; [rewrite write_len; lia|]. intros j Hj. rewrite write_nth by lia.
  destruct (Nat.ltb_spec j (length a)); [destruct (Nat.ltb_spec j (length b)); [now apply A|lia]|].
  destruct (Nat.ltb_spec j (length a + length c)); [now apply (chunk_nth a c r)|lia].
Qed.

(** ** What holds in every order *)
Definition lead_ok (d : fdisk) (k : nat) (p : fpc) : Prop :=
  match p with
  | FWrite _ k' off _ => k' = k /\ agree off (f_data d k)
  | FAfter _ | FSize _ | FSum | FBad | FDone (Ok _) => agree (length D) (f_data d k)
  | FDone (Err _) => True
  | _ => False
  end.
Definition early (p : fpc) : Prop := match p with FExists | FIsLink | FRead | FBroken _ | FUnlink _ => True | _ => False end.
Definition on_file (d : fdisk) : Prop := exists k, f_at d = EFile k.
Definition with_meta (d : fdisk) : Prop := exists k, f_at d = EFile k /\ f_meta d k <> None.
Definition resp (d : fdisk) (p : fpc) : Prop :=
  match p with FTouch _ => True | FSet _ | FSetX _ => on_file d | FFirst _ | FOpen _ => with_meta d | _ => False end.
Definition phase (lead : nat -> option nat) (s : fstate) : Prop :=
  (exists i e, f_pc s i = FDone (Err e)) \/
  ((exists b, f_at (f_disk s) = ELink b) /\ forall i, early (f_pc s i)) \/
  (exists r, resp (f_disk s) (f_pc s r)) \/
  (exists k y, f_at (f_disk s) = EFile k /\ f_meta (f_disk s) k <> None /\ lead k = Some y).
Definition write_ok (d : fdisk) (i : nat) (p : fpc) : Prop :=
  match p with
  | FWrite _ k off todo => k < f_next d /\ exists a r, a ++ concat todo ++ r = D /\ off = length a /\ (brk i = None -> r = [])
  | _ => True
  end.
Record finv (lead : nat -> option nat) (s : fstate) : Prop := mkFI {
  v_write : forall i, write_ok (f_disk s) i (f_pc s i);
  v_len : forall k, length (f_data (f_disk s) k) <= length D;
  v_lead : forall k y, lead k = Some y -> k < f_next (f_disk s) /\ lead_ok (f_disk s) k (f_pc s y);
  v_path : forall k, f_at (f_disk s) = EFile k -> k < f_next (f_disk s);
  v_phase : phase lead s }.

Lemma fresh_inv : finv (fun _ => None) f_fresh.
Proof.
  constructor; cbn; try easy; [intro; lia|]. right; left. split; [now exists false|]. intro i. exact Logic.I.
Qed.

(** A file at the path stays there with its metadata, unless it is unlinked. *)
Lemma mono g br p d p' d' k : fturn D g br p d = (p', d') -> (forall b, p <> FUnlink b) -> f_at d = EFile k ->
  f_at d' = EFile k /\ (f_meta d k <> None -> f_meta d' k <> None).
Proof.
  intros T U A. destruct p as [| | | |b|b|b|b|b|b|b|b|b k0 off [|c l]|b|b| | |r]; cbn in T; rewrite ?A in T; try (injection T as <- <-; now split).
  - now destruct (U b).
  - injection T as <- <-. cbn. split; [assumption|]. now rewrite Nat.eqb_refl.
  - injection T as <- <-. cbn. split; [assumption|]. now rewrite Nat.eqb_refl.
  - injection T as <- <-. cbn. split; [assumption|]. now rewrite Nat.eqb_refl.
Qed.
Lemma next_up g br p d p' d' : fturn D g br p d = (p', d') -> f_next d <= f_next d'.
Proof.
  intro T. destruct p as [| | | |b|b|b|b|b|b|b|b|b k0 off [|c l]|b|b| | |r]; cbn in T; try (injection T as <- <-; cbn; lia);
    destruct (f_at d); injection T as <- <-; cbn; lia.
Qed.
Lemma path_below g br p d p' d' k : fturn D g br p d = (p', d') -> (forall k, f_at d = EFile k -> k < f_next d) -> f_at d' = EFile k -> k < f_next d'.
Proof.
  intros T B A. destruct p as [| | | |b|b|b|b|b|b|b|b|b k0 off [|c l]|b|b| | |r]; cbn in T; try (injection T as <- <-; now apply B);
    destruct (f_at d) eqn:E; injection T as <- <-; cbn in *; try discriminate; try (rewrite E in A; now (discriminate || (apply B; congruence)));
    try (injection A as <-; lia); try (apply B; congruence).
Qed.
(** The data of a file that is there changes by opening it, or by writing into it. *)
Lemma data_turn g br p d p' d' k : fturn D g br p d = (p', d') -> k < f_next d ->
  f_data d' k = f_data d k \/
  (exists b, p = FOpen b /\ f_at d = EFile k /\ f_data d' k = []) \/
  (exists b off c l, p = FWrite b k off (c :: l) /\ f_data d' k = write_at off c (f_data d k)).
Proof.
  intros T L. destruct p as [| | | |b|b|b|b|b|b|b|b|b k0 off [|c l]|b|b| | |r]; cbn in T; try (injection T as <- <-; now left).
  - destruct (f_at d); injection T as <- <-; now left.
  - destruct (f_at d); injection T as <- <-; try now left. left. cbn. destruct (Nat.eqb_spec (f_next d) k); [lia|reflexivity].
  - destruct (f_at d); injection T as <- <-; now left.
  - destruct (f_at d); injection T as <- <-; now left.
  - destruct (f_at d) as [| |k0] eqn:A; injection T as <- <-; try now left.
    + left. cbn. destruct (Nat.eqb_spec (f_next d) k); [lia|reflexivity].
    + cbn. destruct (Nat.eqb_spec k0 k) as [->|]; [right; left; now exists b|now left].
  - injection T as <- <-. cbn. destruct (Nat.eqb_spec k0 k) as [->|]; [right; right; now exists b, off, c, l|now left].
  - destruct (f_at d); injection T as <- <-; now left.
Qed.

Lemma len_turn i p d p' d' : fturn D (got i) (brk i) p d = (p', d') -> write_ok d i p -> (forall k, length (f_data d k) <= length D) ->
  forall k, length (f_data d' k) <= length D.
Proof.
  intros T W L k. destruct p as [| | | |b|b|b|b|b|b|b|b|b k0 off [|c l]|b|b| | |r]; cbn in T; try (injection T as <- <-; apply L);
    try (destruct (f_at d); injection T as <- <-; cbn; try apply L; destruct (Nat.eqb _ k); cbn; try lia; apply L).
  injection T as <- <-. cbn. destruct (Nat.eqb_spec k0 k) as [->|]; [|apply L]. cbn in W. destruct W as (_ & a & r & E & -> & _).
  rewrite write_len. specialize (L k). apply (f_equal (@length byte)) in E. cbn in E. rewrite !app_length in E. lia.
Qed.
Lemma write_turn i p d p' d' : fturn D (got i) (brk i) p d = (p', d') -> write_ok d i p -> (forall k, f_at d = EFile k -> k < f_next d) -> write_ok d' i p'.
Proof.
  intros T W B. destruct (Send i) as (rest & Ss & Sr).
  destruct p as [| | | |b|b|b|b|b|b|b|b|b k0 off [|c l]|b|b| | |r]; cbn in T.
  13: { injection T as <- <-. now destruct (brk i). }
  13: { injection T as <- <-. cbn in W. destruct W as (Lk & a & r & E & -> & R). cbn. split; [assumption|]. exists (a ++ c), r.
        rewrite app_length. rewrite <- E. cbn. rewrite <- !app_assoc. now repeat split. }
  12: { destruct (f_at d) as [| |k] eqn:A; injection T as <- <-; cbn; try easy.
        - split; [lia|]. exists [], rest. now repeat split.
        - split; [now apply B|]. exists [], rest. now repeat split. }
  all: try (injection T as <- <-; cbn; easy).
  all: try (injection T as <- <-; cbn; destruct (f_at d); cbn; try easy; destruct (f_meta d ino); easy).
  all: try (destruct (f_at d); injection T as <- <-; cbn; easy).
  - injection T as <- <-. now destruct (got i).
  - injection T as <- <-. destruct (f_at d); cbn; try easy. destruct (Nat.eqb _ _); [now destruct b|easy].
  - injection T as <- <-. destruct (f_at d); cbn; try easy. now destruct (bytes_eqb _ _).
Qed.

Definition lead_turn (lead : nat -> option nat) (i : nat) (p : fpc) (d : fdisk) : nat -> option nat :=
  match p with
  | FOpen _ => match f_at d with
               | EFile k => fun j => if Nat.eqb k j then Some i else lead j
               | EGone => fun j => if Nat.eqb (f_next d) j then Some i else lead j
               | ELink _ => lead
               end
  | _ => lead
  end.
(** What the leader of a file says of it, when another makes a step *)
Lemma lead_other i p d p' d' lead k q :
  fturn D (got i) (brk i) p d = (p', d') -> write_ok d i p -> k < f_next d -> lead_turn lead i p d k = lead k \/ lead_turn lead i p d k <> Some i ->
  (forall b, p = FOpen b -> f_at d <> EFile k) -> lead_ok d k q -> lead_ok d' k q.
Proof.
  intros T W L _ No Q. destruct (data_turn _ _ _ _ _ _ _ T L) as [E|[(b & -> & A & _)|(b & off & c & l & -> & E)]].
  - unfold lead_ok in *. now rewrite E.
  - now destruct (No b eq_refl).
  - destruct W as (_ & a & r & Ea & -> & _). assert (Ea' : a ++ c ++ (concat l ++ r) = D) by (rewrite <- Ea; cbn; now rewrite <- !app_assoc).
    unfold lead_ok in *. rewrite E. destruct q as [| | | |?|?|?|?|?|?|?|?|? k' o ?|?|?| | |[|]]; try easy; try (now apply write_agree with (r := concat l ++ r)).
    destruct Q as (-> & Q). split; [reflexivity|]. now apply write_agree with (r := concat l ++ r).
Qed.
(** What it says of it after its own step *)
Lemma lead_own i p d p' d' k :
  fturn D (got i) (brk i) p d = (p', d') -> write_ok d i p -> lead_ok d k p -> lead_ok d' k p'.
Proof.
  intros T W Q. destruct p as [| | | |b|b|b|b|b|b|b|b|b k0 off [|c l]|b|b| | |r]; cbn in Q; try easy; cbn in T.
  - injection T as <- <-. destruct Q as (-> & Q). destruct W as (_ & a & r & E & -> & R). destruct (brk i); cbn; [easy|].
    rewrite (R eq_refl) in E. cbn in E. rewrite app_nil_r in E. now subst a.
  - injection T as <- <-. destruct Q as (-> & Q). destruct W as (_ & a & r & E & -> & R). cbn. split; [reflexivity|]. rewrite Nat.eqb_refl.
    apply write_more with (r := concat l ++ r); [|assumption]. rewrite <- E. cbn. now rewrite <- !app_assoc.
  - injection T as <- <-. destruct (f_at d); cbn; try easy. now destruct (f_meta d ino).
  - injection T as <- <-. destruct (f_at d); cbn; try easy. destruct (Nat.eqb _ _); [now destruct b|easy].
  - injection T as <- <-. destruct (f_at d); cbn; try easy. now destruct (bytes_eqb _ _).
  - injection T as <- <-. cbn. destruct (f_at d); exact Q.
  - injection T as <- <-. exact Q.
Qed.

Lemma step_finv lead s i : finv lead s -> finv (lead_turn lead i (f_pc s i) (f_disk s)) (fstep D got brk s i).
Proof.
  intros [VW VL VD VP VH]. unfold fstep. destruct (fturn D (got i) (brk i) (f_pc s i) (f_disk s)) as [p' d'] eqn:T.
  assert (Wi := VW i). assert (Nx := next_up _ _ _ _ _ _ T). set (p := f_pc s i) in *. set (d := f_disk s) in *.
  set (lead' := lead_turn lead i p d).
  assert (Ll : forall k y, lead' k = Some y -> lead k = Some y /\ (forall b, p = FOpen b -> f_at d <> EFile k) \/
                y = i /\ (exists b, p = FOpen b) /\ k < f_next d' /\ lead_ok d' k p').
  { intros k y H. unfold lead', lead_turn in H. destruct p as [| | | |b|b|b|b|b|b|b|b|b k0 off todo|b|b| | |r] eqn:Ep; try (left; split; [assumption|now intros]).
    cbn in T. destruct (f_at d) as [| |k0] eqn:A.
    - injection T as <- <-. destruct (Nat.eqb_spec (f_next d) k) as [<-|N].
      + right. injection H as <-. split; [reflexivity|]. split; [now exists b|]. cbn. split; [lia|]. split; [reflexivity|]. rewrite Nat.eqb_refl. split; cbn; lia.
      + left. split; [assumption|congruence].
    - left. split; [assumption|congruence].
    - injection T as <- <-. destruct (Nat.eqb_spec k0 k) as [<-|N].
      + right. injection H as <-. split; [reflexivity|]. split; [now exists b|]. cbn. split; [now apply VP|]. split; [reflexivity|]. rewrite Nat.eqb_refl. split; cbn; lia.
      + left. split; [assumption|congruence]. }
  constructor; cbn [f_disk f_pc].
  - intro j. destruct (Nat.eqb_spec i j) as [<-|Nj].
    + exact (write_turn _ _ _ _ _ T Wi VP).
    + specialize (VW j). unfold write_ok in *. destruct (f_pc s j); try easy. destruct VW as (Lk & VW). split; [|assumption]. fold d in Lk. lia.
  - exact (len_turn _ _ _ _ _ T Wi VL).
  - intros k y H. destruct (Ll k y H) as [(H' & No)|(-> & _ & Lk & Q)].
    + destruct (VD k y H') as (Lk & Q). split; [fold d in Lk; lia|]. destruct (Nat.eqb_spec i y) as [<-|Ny].
      * exact (lead_own _ _ _ _ _ _ T Wi Q).
      * apply (lead_other _ _ _ _ _ lead _ _ T Wi Lk); [|assumption|assumption]. right. fold lead'. rewrite H. congruence.
    + split; [assumption|]. rewrite Nat.eqb_refl. exact Q.
  - intros k A. exact (path_below _ _ _ _ _ _ _ T VP A).
  - unfold phase. cbn [f_disk f_pc].
    destruct VH as [(j & e & Hj)|[((b & A) & Er)|[(r & R)|(k & y & A & M & H)]]].
    + left. exists j, e. destruct (Nat.eqb_spec i j) as [<-|Nj]; [|assumption]. fold p in Hj. rewrite Hj in T. cbn in T. now injection T as <- _.
    + (* nobody has unlinked *)
      assert (Ei := Er i). fold p in Ei. fold d in A. destruct p as [| | | |b'|b'|b'|b'|b'|b'|b'|b'|b' k0 off todo|b'|b'| | |r] eqn:Ep; try easy; cbn in T; rewrite A in T; injection T as <- <-.
      1-4: right; left; split; [now exists b|]; intro j; destruct (Nat.eqb_spec i j) as [<-|Nj]; [exact Logic.I|apply Er].
      right; right; left. exists i. rewrite Nat.eqb_refl. exact Logic.I.
    + (* one is responsible *)
      fold d in R. destruct (Nat.eqb_spec i r) as [<-|Nr].
      * fold p in R. destruct p as [| | | |b'|b'|b'|b'|b'|b'|b'|b'|b' k0 off todo|b'|b'| | |rr] eqn:Ep; try easy; cbn in T.
        { destruct (f_at d) as [| |k] eqn:A; injection T as <- <-.
          - right; right; left. exists i. rewrite Nat.eqb_refl. now exists (f_next d).
          - left. exists i, (OSErr ENOENT). now rewrite Nat.eqb_refl.
          - right; right; left. exists i. rewrite Nat.eqb_refl. now exists k. }
        { destruct R as (k & A). rewrite A in T. injection T as <- <-. right; right; left. exists i. rewrite Nat.eqb_refl. now exists k. }
        { destruct R as (k & A). rewrite A in T. injection T as <- <-. right; right; left. exists i. rewrite Nat.eqb_refl. exists k. cbn. split; [assumption|]. now rewrite Nat.eqb_refl. }
        { destruct (got i) as [|c l]; injection T as <- <-.
          - left. exists i. rewrite Nat.eqb_refl. eexists; reflexivity.
          - right; right; left. exists i. rewrite Nat.eqb_refl. exact R. }
        { destruct R as (k & A & M). rewrite A in T. injection T as <- <-. right; right; right. exists k, i. split; [assumption|]. split; [assumption|].
          unfold lead', lead_turn. rewrite A. now rewrite Nat.eqb_refl. }
      * destruct (match p with FUnlink _ => true | _ => false end) eqn:U.
        { destruct p as [| | | |b'|b'|b'|b'|b'|b'|b'|b'|b' k0 off todo|b'|b'| | |rr] eqn:Ep; try discriminate. cbn in T.
          destruct (f_at d) eqn:A; injection T as <- <-; [left; exists i, (OSErr ENOENT); now rewrite Nat.eqb_refl| |];
          right; right; left; exists i; rewrite Nat.eqb_refl; exact Logic.I. }
        assert (U' : forall b, p <> FUnlink b) by (intros b E; now rewrite E in U).
        right; right; left. exists r. rewrite (proj2 (Nat.eqb_neq i r) Nr). unfold resp in *.
        destruct (f_pc s r); try easy.
        1-2: destruct R as (k & A); exists k; exact (proj1 (mono _ _ _ _ _ _ _ T U' A)).
        1-2: destruct R as (k & A & M); exists k; destruct (mono _ _ _ _ _ _ _ T U' A) as (A' & M'); split; [assumption|now apply M'].
    + (* it is being written, or was *)
      fold d in A, M. destruct (match p with FUnlink _ => true | _ => false end) eqn:U.
      { destruct p as [| | | |b'|b'|b'|b'|b'|b'|b'|b'|b' k0 off todo|b'|b'| | |rr] eqn:Ep; try discriminate. cbn in T. rewrite A in T. injection T as <- <-.
        right; right; left; exists i; rewrite Nat.eqb_refl; exact Logic.I. }
      assert (U' : forall b, p <> FUnlink b) by (intros b E; now rewrite E in U).
      destruct (mono _ _ _ _ _ _ _ T U' A) as (A' & M'). right; right; right.
      assert (Z : exists y', lead' k = Some y').
      { unfold lead', lead_turn. destruct p; try (now exists y). rewrite A. rewrite Nat.eqb_refl. now exists i. }
      destruct Z as (y' & Z). exists k, y'. now auto.
Qed.
Lemma run_finv l : forall lead s, finv lead s -> exists lead', finv lead' (frun D got brk s l).
Proof. induction l as [|i l IH]; intros lead s V; [now exists lead|]. exact (IH _ _ (step_finv lead s i V)). Qed.
End P.

(** When all that began have returned, all is here. *)
Lemma fetched D got brk l :
  (forall i, sends D (got i) (brk i)) ->
  let s := frun D got brk f_fresh l in
  (exists i, f_began s i) -> (forall i, f_began s i -> f_returned s i) ->
  content_at s = Some D /\ meta_at s <> None.
Proof.
  intros Se s (i & Bi) R. destruct (run_finv D got brk Se l _ _ (fresh_inv D brk)) as (lead & V). fold s in V.
  assert (Q : forall j, f_pc s j = FExists \/ f_pc s j = FDone (Ok tt)).
  { intro j. destruct (f_pc s j) eqn:E; try (now left); right; rewrite <- E; apply R; unfold f_began; rewrite E; discriminate. }
  destruct (v_phase _ _ _ _ V) as [(j & e & H)|[(_ & Er)|[(r & Rr)|(k & y & A & M & H)]]].
  - destruct (Q j); congruence.
  - specialize (Er i). rewrite (R i Bi) in Er. easy.
  - destruct (Q r) as [E|E]; rewrite E in Rr; easy.
  - destruct (v_lead _ _ _ _ V k y H) as (_ & L). unfold content_at, meta_at. rewrite A. split; [|assumption]. f_equal.
    apply agree_all; [apply (v_len _ _ _ _ V)|]. destruct (Q y) as [E|E]; rewrite E in L; easy.
Qed.

(** ** One alone *)
Definition one (s : fstate) (p : fpc) (d : fdisk) : Prop := f_pc s 0 = p /\ f_disk s = d.
Lemma one_step D got brk s p d p' d' : one s p d -> fturn D (got 0) (brk 0) p d = (p', d') -> one (fstep D got brk s 0) p' d'.
Proof. intros (<- & <-) T. unfold fstep. rewrite T. now split. Qed.
Lemma one_write D got brk b k : forall l s off d, one s (FWrite b k off l) d -> length (f_data d k) = off ->
  exists d', one (frun D got brk s (repeat 0 (length l))) (FWrite b k (off + length (concat l)) []) d' /\
    f_at d' = f_at d /\ f_meta d' = f_meta d /\ f_data d' k = f_data d k ++ concat l.
Proof.
  induction l as [|c l IH]; intros s off d O L.
  - exists d. cbn. rewrite app_nil_r, Nat.add_0_r. split; [exact O|now repeat split].
  - cbn [length repeat frun fold_left]. destruct (IH (fstep D got brk s 0) (off + length c) (set_data k (write_at off c (f_data d k)) d)) as (d' & O' & A & M & E).
    + exact (one_step _ _ _ _ _ _ _ _ O eq_refl).
    + cbn. rewrite Nat.eqb_refl, write_len. lia.
    + exists d'. cbn [concat]. rewrite app_length, Nat.add_assoc. split; [exact O'|]. split; [exact A|]. split; [exact M|].
      rewrite E. cbn. rewrite Nat.eqb_refl. unfold write_at. subst off. rewrite Nat.sub_diag. cbn. rewrite app_nil_r, firstn_all, skipn_all2 by lia.
      rewrite app_nil_r. now rewrite <- app_assoc.
Qed.
Lemma one_alone D got brk : concat (got 0) = D -> got 0 <> [] -> brk 0 = None ->
  let s := frun D got brk f_fresh (repeat 0 (14 + length (got 0))) in
  f_returned s 0 /\ content_at s = Some D /\ meta_at s = Some false.
Proof.
  intros C N B s. unfold s. replace (14 + length (got 0)) with (10 + (length (got 0) + 4)) by lia. rewrite !repeat_app. unfold frun. rewrite !fold_left_app.
  fold (frun D got brk f_fresh (repeat 0 10)). set (s1 := frun D got brk f_fresh (repeat 0 10)).
  assert (O : exists d, one s1 (FWrite false 0 0 (got 0)) d /\ f_at d = EFile 0 /\ f_meta d 0 = Some false /\ f_data d 0 = []).
  { assert (O : one f_fresh FExists (f_disk f_fresh)) by now split.
    do 8 (eapply (one_step D got brk) in O; [|cbn; reflexivity]).
    eapply (one_step D got brk) in O; [|cbn; reflexivity]. destruct (got 0) as [|c l] eqn:G; [easy|].
    eapply (one_step D got brk) in O; [|cbn; rewrite G; reflexivity]. eexists. split; [exact O|now repeat split]. }
  destruct O as (d & O & A & M & E). destruct (one_write D got brk false 0 (got 0) s1 0 d O) as (d' & O' & A' & M' & E'); [now rewrite E|].
  fold (frun D got brk s1 (repeat 0 (length (got 0)))). set (s2 := frun D got brk s1 (repeat 0 (length (got 0)))) in *.
  rewrite A in A'. rewrite E in E'. cbn in E'. rewrite C in E'. assert (M2 : f_meta d' 0 = Some false) by now rewrite M'.
  assert (F : one (fold_left (fstep D got brk) (repeat 0 4) s2) (FDone (Ok tt)) d').
  { eapply (one_step D got brk) in O'; [|cbn; rewrite B; reflexivity]. eapply (one_step D got brk) in O'; [|cbn; rewrite A', M2; reflexivity].
    eapply (one_step D got brk) in O'; [|cbn; rewrite A', E', Nat.eqb_refl; reflexivity].
    eapply (one_step D got brk) in O'; [|cbn; rewrite A', E', (proj2 (bytes_eqb_eq D D) eq_refl); reflexivity]. exact O'. }
  destruct F as (F1 & F2). split; [exact F1|]. unfold content_at, meta_at. rewrite F2, A', E'. now split.
Qed.

(** ** What is in the files at every moment *)
Definition sound (D c : bytes) : Prop := length c <= length D /\ forall j x, nth_error c j = Some x -> nth_error D j = Some x \/ x = x00.
Lemma sound_nil D : sound D [].
Proof. split; [cbn; lia|]. intros [|j] x H; discriminate. Qed.
Lemma sound_write D a c r b : a ++ c ++ r = D -> sound D b -> sound D (write_at (length a) c b).
Proof.
  intros H (L & B). assert (LD := f_equal (@length byte) H). rewrite !app_length in LD. split; [rewrite write_len; lia|]. intros j x. rewrite write_nth by lia.
  destruct (Nat.ltb_spec j (length a)); [destruct (Nat.ltb_spec j (length b)); [apply B|intro E; injection E as <-; now right]|].
  destruct (Nat.ltb_spec j (length a + length c)); [|apply B]. assert (Z : nth_error c (j - length a) = nth_error D j) by (rewrite <- H; rewrite nth_error_app2 by lia; rewrite nth_error_app1 by lia; reflexivity). rewrite Z. intro E. now left.
Qed.
Lemma sound_run D got brk (Se : forall i, sends D (got i) (brk i)) l : forall s,
  (forall i, write_ok D brk (f_disk s) i (f_pc s i)) -> (forall k, f_at (f_disk s) = EFile k -> k < f_next (f_disk s)) -> (forall k, sound D (f_data (f_disk s) k)) ->
  forall k, sound D (f_data (f_disk (frun D got brk s l)) k).
Proof.
  induction l as [|i l IH]; intros s W P S; [exact S|]. cbn [frun fold_left]. apply IH; clear IH; unfold fstep;
    destruct (fturn D (got i) (brk i) (f_pc s i) (f_disk s)) as [p' d'] eqn:T; cbn [f_disk f_pc].
  - intro j. destruct (Nat.eqb_spec i j) as [<-|Nj].
    + exact (write_turn D got brk Se _ _ _ _ _ T (W i) P).
    + assert (Nx := next_up _ _ _ _ _ _ _ T). specialize (W j). unfold write_ok in *. destruct (f_pc s j); try easy. destruct W as (Lk & W). split; [lia|assumption].
  - intros k A. exact (path_below _ _ _ _ _ _ _ _ T P A).
  - intro k. specialize (W i). destruct (f_pc s i) as [| | | |b|b|b|b|b|b|b|b|b k0 off [|c todo]|b|b| | |r]; cbn in T; try (injection T as <- <-; apply S);
      try (destruct (f_at (f_disk s)); injection T as <- <-; cbn; try apply S; destruct (Nat.eqb _ k); cbn; try apply sound_nil; apply S).
    injection T as <- <-. cbn. destruct (Nat.eqb_spec k0 k) as [->|]; [|apply S]. cbn in W. destruct W as (_ & a & r & E & -> & _).
    apply sound_write with (r := concat todo ++ r); [|apply S]. rewrite <- E. cbn. now rewrite <- !app_assoc.
Qed.
Lemma every_moment D got brk l : (forall i, sends D (got i) (brk i)) ->
  forall c, content_at (frun D got brk f_fresh l) = Some c ->
    length c <= length D /\ forall j x, nth_error c j = Some x -> nth_error D j = Some x \/ x = x00.
Proof.
  intros Se c. unfold content_at. destruct (f_at _) as [| |k]; try discriminate. intro H. injection H as <-.
  apply (sound_run D got brk Se l f_fresh); [intro; exact Logic.I|discriminate|]. intro. apply sound_nil.
Qed.

(** ** One after the other *)
Definition onei (i : nat) (rest : nat -> fpc) (s : fstate) (p : fpc) (d : fdisk) : Prop :=
  f_pc s i = p /\ f_disk s = d /\ forall j, j <> i -> f_pc s j = rest j.
Lemma onei_step D got brk i rest s p d p' d' : onei i rest s p d -> fturn D (got i) (brk i) p d = (p', d') -> onei i rest (fstep D got brk s i) p' d'.
Proof.
  intros (<- & <- & R) T. unfold fstep. rewrite T. split; [cbn; now rewrite Nat.eqb_refl|]. split; [reflexivity|].
  intros j Nj. cbn. rewrite (proj2 (Nat.eqb_neq i j)) by congruence. now apply R.
Qed.
Lemma onei_write D got brk i rest b k : forall l s off d, onei i rest s (FWrite b k off l) d -> length (f_data d k) = off ->
  exists d', onei i rest (frun D got brk s (repeat i (length l))) (FWrite b k (off + length (concat l)) []) d' /\
    f_at d' = f_at d /\ f_meta d' = f_meta d /\ f_data d' k = f_data d k ++ concat l.
Proof.
  induction l as [|c l IH]; intros s off d O L.
  - exists d. cbn. rewrite app_nil_r, Nat.add_0_r. split; [exact O|now repeat split].
  - cbn [length repeat frun fold_left]. destruct (IH (fstep D got brk s i) (off + length c) (set_data k (write_at off c (f_data d k)) d)) as (d' & O' & A & M & E).
    + exact (onei_step _ _ _ _ _ _ _ _ _ _ O eq_refl).
    + cbn. rewrite Nat.eqb_refl, write_len. lia.
    + exists d'. cbn [concat]. rewrite app_length, Nat.add_assoc. split; [exact O'|]. split; [exact A|]. split; [exact M|].
      rewrite E. cbn. rewrite Nat.eqb_refl. unfold write_at. subst off. rewrite Nat.sub_diag. cbn. rewrite app_nil_r, firstn_all, skipn_all2 by lia.
      rewrite app_nil_r. now rewrite <- app_assoc.
Qed.
Lemma onei_done D got brk i rest s r d n : onei i rest s (FDone r) d -> onei i rest (frun D got brk s (repeat i n)) (FDone r) d.
Proof. revert s. induction n as [|n IH]; intros s O; [exact O|]. cbn. apply IH. now apply (onei_step D got brk i rest s _ _ _ _ O). Qed.

(** From a link, or a file, with metadata that has no error *)
Definition ready (d : fdisk) : Prop := f_at d = ELink false \/ exists k, f_at d = EFile k /\ f_meta d k = Some false.
Lemma onei_end D got brk i rest s d k todo n : todo = got i -> concat (got i) = D -> brk i = None ->
  onei i rest s (FWrite false k 0 todo) d -> f_at d = EFile k -> f_meta d k = Some false -> f_data d k = [] -> 4 + length (got i) <= n ->
  exists d', onei i rest (frun D got brk s (repeat i n)) (FDone (Ok tt)) d' /\ f_at d' = EFile k /\ f_meta d' k = Some false /\ f_data d' k = D.
Proof.
  intros -> C B O A M E Ln. replace n with (length (got i) + (4 + (n - 4 - length (got i)))) by lia. rewrite !repeat_app. unfold frun. rewrite !fold_left_app.
  destruct (onei_write D got brk i rest false k (got i) s 0 d O) as (d' & O' & A' & M' & E'); [now rewrite E|].
  fold (frun D got brk s (repeat i (length (got i)))). set (s2 := frun D got brk s (repeat i (length (got i)))) in *.
  rewrite A in A'. rewrite E in E'. cbn in E'. rewrite C in E'. assert (M2 : f_meta d' k = Some false) by now rewrite M'.
  exists d'. split; [|now repeat split].
  eapply (onei_step D got brk) in O'; [|cbn; rewrite B; reflexivity]. eapply (onei_step D got brk) in O'; [|cbn; rewrite A', M2; reflexivity].
  eapply (onei_step D got brk) in O'; [|cbn; rewrite A', E', Nat.eqb_refl; reflexivity].
  eapply (onei_step D got brk) in O'; [|cbn; rewrite A', E', (proj2 (bytes_eqb_eq D D) eq_refl); reflexivity].
  apply onei_done. exact O'.
Qed.
Lemma onei_alone D got brk i rest s : concat (got i) = D -> got i <> [] -> brk i = None ->
  onei i rest s FExists (f_disk s) -> ready (f_disk s) ->
  exists d', onei i rest (frun D got brk s (repeat i (14 + length (got i)))) (FDone (Ok tt)) d' /\
    exists k, f_at d' = EFile k /\ f_meta d' k = Some false /\ f_data d' k = D.
Proof.
  intros C N B O [A|(k & A & M)].
  - replace (14 + length (got i)) with (10 + (4 + length (got i))) by lia. rewrite repeat_app. unfold frun. rewrite fold_left_app. set (d := f_disk s) in *.
    do 2 (eapply (onei_step D got brk) in O; [|cbn; rewrite A; reflexivity]).
    do 2 (eapply (onei_step D got brk) in O; [|cbn; rewrite A; reflexivity]). eapply (onei_step D got brk) in O; [|cbn; rewrite A; reflexivity].
    do 3 (eapply (onei_step D got brk) in O; [|cbn; reflexivity]).
    eapply (onei_step D got brk) in O; [|cbn; reflexivity]. destruct (got i) as [|c l] eqn:G; [easy|].
    eapply (onei_step D got brk) in O; [|cbn; rewrite G; reflexivity]. rewrite <- G in O.
    eapply (onei_end D got brk i rest _ _ _ _ (4 + length (c :: l))) in O; [|reflexivity|now rewrite G|exact B|reflexivity|cbn; rewrite ?Nat.eqb_refl; reflexivity|cbn; rewrite ?Nat.eqb_refl; reflexivity|].
    + destruct O as (d' & O & Q). exists d'. split; [exact O|]. eexists. exact Q.
    + rewrite G. lia.
  - replace (14 + length (got i)) with (5 + (9 + length (got i))) by lia. rewrite repeat_app. unfold frun. rewrite fold_left_app. set (d := f_disk s) in *.
    eapply (onei_step D got brk) in O; [|cbn; rewrite A; reflexivity]. eapply (onei_step D got brk) in O; [|cbn; rewrite A, M; reflexivity].
    eapply (onei_step D got brk) in O; [|cbn; rewrite A; reflexivity].
    eapply (onei_step D got brk) in O; [|cbn; reflexivity]. destruct (got i) as [|c l] eqn:G; [easy|].
    eapply (onei_step D got brk) in O; [|cbn; rewrite A, G; reflexivity]. rewrite <- G in O.
    eapply (onei_end D got brk i rest _ _ _ _ (9 + length (c :: l))) in O; [|reflexivity|now rewrite G|exact B|cbn; exact A|cbn; exact M|cbn; rewrite ?Nat.eqb_refl; reflexivity|].
    + destruct O as (d' & O & Q). exists d'. split; [exact O|]. eexists. exact Q.
    + rewrite G. lia.
Qed.
Lemma serial D got brk (is : list nat) :
  (forall i, In i is -> concat (got i) = D /\ got i <> [] /\ brk i = None) -> NoDup is -> forall s,
  (forall i, In i is -> f_pc s i = FExists) -> ready (f_disk s) ->
  let s' := frun D got brk s (flat_map (fun i => repeat i (14 + length (got i))) is) in
  (forall i, In i is -> f_returned s' i) /\ (forall i, ~ In i is -> f_pc s' i = f_pc s i) /\ ready (f_disk s') /\ (is <> [] -> content_at s' = Some D /\ meta_at s' = Some false).
Proof.
  intros G N. induction N as [|i is Ni N IH]; intros s F R.
  - cbn. now repeat split.
  - cbn [flat_map]. unfold frun. rewrite fold_left_app. fold (frun D got brk s (repeat i (14 + length (got i)))).
    set (s1 := frun D got brk s (repeat i (14 + length (got i)))).
    destruct (G i (or_introl eq_refl)) as (G1 & G2 & G3).
    destruct (onei_alone D got brk i (f_pc s) s G1 G2 G3) as (d' & (O1 & O2 & O3) & k & A & M & E); [split; [apply F; now left|now split]|exact R|]. fold s1 in O1, O2, O3.
    assert (R1 : ready (f_disk s1)) by (right; exists k; rewrite O2; now split).
    destruct (IH (fun j Hj => G j (or_intror Hj)) s1) as (I1 & I2 & I3 & I4).
    + intros j Hj. rewrite O3 by (intros ->; contradiction). apply F. now right.
    + exact R1.
    + fold (frun D got brk s1 (flat_map (fun i => repeat i (14 + length (got i))) is)). cbv zeta in *. set (s' := frun D got brk s1 _) in *.
      split; [|split; [|split]].
      * intros j [<-|Hj]; [|now apply I1]. unfold f_returned. rewrite I2 by assumption. exact O1.
      * intros j Hj. rewrite I2 by (intro; apply Hj; now right). apply O3. intros ->. apply Hj. now left.
      * exact I3.
      * intros _. destruct is as [|i2 is2]; [|apply I4; discriminate]. change (content_at s1 = Some D /\ meta_at s1 = Some false). unfold content_at, meta_at. rewrite O2, A, E, M. now split.
Qed.
Lemma in_order D got brk is :
  (forall i, In i is -> concat (got i) = D /\ got i <> [] /\ brk i = None) -> NoDup is -> is <> [] ->
  let s := frun D got brk f_fresh (flat_map (fun i => repeat i (14 + length (got i))) is) in
  (forall i, In i is -> f_returned s i) /\ content_at s = Some D /\ meta_at s = Some false.
Proof.
  intros G N E. destruct (serial D got brk is G N f_fresh) as (A & _ & _ & B); [reflexivity|now left|]. cbv zeta. split; [exact A|now apply B].
Qed.
