(** * Proofs about the streaming etag *)
From Coq Require Import String NArith ZArith Bool List Lia Arith.
From Verif Require Import Model.Py Model.Etag Spec.EtagSpec Proofs.PyLemmas.
Import ListNotations.

Section P.
Variable md5 : bytes -> bytes.
Variable cs : nat.
Hypothesis Hcs : 0 < cs.

Notation Cs := (Z.of_nat cs).

Definition need (c bio : bytes) : nat :=
  match c, bio with [], [] => 1 | _, _ => length bio + 2 end.

Lemma bread_cs bio : bread Cs bio = (firstn cs bio, skipn cs bio).
Proof.
  unfold bread. destruct (Z.ltb_spec Cs 0); [lia|]. now rewrite Nat2Z.id.
Qed.

Lemma loop_spec : forall fuel c bio P,
  length c = cs \/ (bio = [] /\ length c < cs) \/ c = [] ->
  need c bio <= fuel ->
  exists fulls r,
    etag_loop md5 fuel (mkEtag Cs [] P c 0) bio
      = Ok (mkEtag Cs [] (P ++ map md5 fulls) r 0) /\
    c ++ bio = concat fulls ++ r /\
    (forall b, In b fulls -> length b = cs) /\
    length r < cs.
Proof.
  induction fuel as [|fuel IH]; intros c bio P Hc Hf.
  { destruct c, bio; simpl in Hf; lia. }
  cbn [etag_loop e_last e_chunksize e_remainder e_m e_parts].
  change (negb (0 =? 0)%Z) with false. cbv iota.
  rewrite bread_cs.
  destruct bio as [|x bio].
  - rewrite firstn_nil, skipn_nil. cbn [andb].
    destruct (Z.ltb_spec (Z.of_nat (length c)) Cs) as [Hlt|Hge].
    + exists [], c. rewrite !app_nil_r. simpl. repeat split; try tauto. lia.
    + destruct Hc as [Hc|[[_ Hc]|Hc]]; [|lia|subst; simpl in *; lia].
      destruct c as [|y c]; [simpl in Hc; lia|].
      destruct (Z.ltb_spec Cs Cs); [lia|]. cbn [rbind app].
      destruct (IH [] [] (P ++ [md5 (y :: c)])) as [fulls [r [E1 [E2 [E3 E4]]]]].
      { tauto. }
      { simpl in *. lia. }
      rewrite E1. exists ((y :: c) :: fulls), r.
      split; [|split; [|split]].
      * rewrite <- app_assoc. reflexivity.
      * simpl in E2. simpl. rewrite <- app_assoc, <- E2. reflexivity.
      * intros b [<-|Hb]; auto.
      * assumption.
  - assert (Hne : firstn cs (x :: bio) <> []) by (destruct cs; [lia|discriminate]).
    destruct (firstn cs (x :: bio)) as [|f0 f] eqn:Ef; [congruence|].
    cbn [andb].
    assert (Hnext : length (f0 :: f) = cs \/
              (skipn cs (x :: bio) = [] /\ length (f0 :: f) < cs) \/ (f0 :: f) = []).
    { rewrite <- Ef. destruct (le_lt_dec cs (length (x :: bio))) as [L|L].
      - left. now apply firstn_length_le.
      - right; left. split; [apply skipn_all2; lia|]. rewrite firstn_all2; lia. }
    assert (Hlen : length (skipn cs (x :: bio)) <= length bio).
    { rewrite skipn_length. simpl length. lia. }
    assert (Hsplit : x :: bio = (f0 :: f) ++ skipn cs (x :: bio)).
    { rewrite <- Ef. symmetry. apply firstn_skipn. }
    destruct c as [|y c].
    + destruct (IH (f0 :: f) (skipn cs (x :: bio)) P) as [fulls [r [E1 [E2 [E3 E4]]]]].
      { assumption. }
      { unfold need in *. simpl length in *. destruct (skipn cs (x :: bio)); simpl length in *; lia. }
      rewrite E1. exists fulls, r. repeat split; auto. simpl app at 1. now rewrite Hsplit.
    + destruct Hc as [Hc|[[Hc _]|Hc]]; [|discriminate|discriminate].
      destruct (Z.ltb_spec Cs Cs); [lia|]. cbn [rbind app].
      destruct (IH (f0 :: f) (skipn cs (x :: bio)) (P ++ [md5 (y :: c)]))
        as [fulls [r [E1 [E2 [E3 E4]]]]].
      { assumption. }
      { unfold need in *. simpl length in *. destruct (skipn cs (x :: bio)); simpl length in *; lia. }
      rewrite E1. exists ((y :: c) :: fulls), r. split; [|split; [|split]].
      * rewrite <- app_assoc. reflexivity.
      * rewrite Hsplit, E2. simpl. now rewrite <- app_assoc.
      * intros b [<-|Hb]; auto.
      * assumption.
Qed.

(** State after any number of updates (no partial digest yet). *)
Definition open_inv (e : etag) (data : bytes) : Prop :=
  exists fulls r,
    e = mkEtag Cs [] (map md5 fulls) r 0 /\
    data = concat fulls ++ r /\
    (forall b, In b fulls -> length b = cs) /\
    length r < cs.

(** State after the last byte once a digest was taken. *)
Definition closed_inv (e : etag) (data : bytes) : Prop :=
  exists blocks m l,
    e = mkEtag Cs m (map md5 blocks) [] l /\
    (0 <= l < Cs)%Z /\ blocks_of cs data blocks.

Lemma init_open : open_inv (etag_init Cs) [].
Proof. exists [], []. repeat split; simpl; auto; tauto. Qed.

Lemma update_open e data b : open_inv e data ->
  exists e', etag_update md5 e b = Ok e' /\ open_inv e' (data ++ b).
Proof.
  intros [fulls [r [-> [-> [Hf Hr]]]]]. unfold etag_update, etag_update_fuel.
  cbn [e_remainder e_chunksize e_m e_parts e_last].
  destruct (loop_spec (length (r ++ b) + 3) [] (r ++ b) (map md5 fulls))
    as [fulls' [r' [E1 [E2 [E3 E4]]]]].
  { tauto. }
  { unfold need. destruct (r ++ b); simpl; lia. }
  rewrite E1. eexists. split; [reflexivity|].
  exists (fulls ++ fulls'), r'. repeat split; auto.
  - now rewrite map_app.
  - rewrite concat_app, <- !app_assoc. f_equal. exact E2.
  - intros x Hx. apply in_app_iff in Hx as [?|?]; auto.
Qed.

Lemma update_closed e data : closed_inv e data ->
  exists e', etag_update md5 e [] = Ok e' /\ closed_inv e' data.
Proof.
  intros [blocks [m [l [-> [Hl Hb]]]]]. unfold etag_update, etag_update_fuel.
  cbn [e_remainder e_chunksize e_m e_parts e_last app length Nat.add etag_loop].
  set (c := if negb (l =? 0)%Z then (Cs - l)%Z else Cs).
  assert (Hc : (0 < c)%Z) by (unfold c; destruct (negb (l =? 0)%Z); lia).
  assert (E : bread c [] = ([], [])).
  { unfold bread. destruct (c <? 0)%Z; [reflexivity|]. now rewrite firstn_nil, skipn_nil. }
  rewrite E. cbn [andb]. change (Z.of_nat 0) with 0%Z.
  destruct (Z.ltb_spec 0 c); [|lia].
  eexists. split; [reflexivity|]. exists blocks, m, 0%Z. split; [reflexivity|]. split; [lia|exact Hb].
Qed.

Lemma blocks_snoc fulls r :
  (forall b, In b fulls -> length b = cs) -> r <> [] -> length r < cs ->
  blocks_of cs (concat fulls ++ r) (fulls ++ [r]).
Proof.
  intros Hf Hn Hr. repeat split.
  - rewrite concat_app. simpl. now rewrite app_nil_r.
  - apply in_app_iff in H as [H|[<-|[]]].
    + apply Hf in H. lia.
    + destruct r; [congruence|simpl; lia].
  - apply in_app_iff in H as [H|[<-|[]]]; [apply Hf in H; lia|lia].
  - intros i Hi. rewrite app_length in Hi. simpl in Hi.
    rewrite app_nth1 by lia. apply Hf. apply nth_In. lia.
Qed.

Lemma blocks_full fulls :
  (forall b, In b fulls -> length b = cs) -> blocks_of cs (concat fulls) fulls.
Proof.
  intro Hf. repeat split.
  - apply Hf in H. lia.
  - apply Hf in H. lia.
  - intros i Hi. apply Hf. apply nth_In. lia.
Qed.

Lemma digest_open e data : open_inv e data ->
  is_etag md5 cs data (snd (etag_digest md5 e)) /\
  (closed_inv (fst (etag_digest md5 e)) data) /\
  (length data mod cs = 0 -> open_inv (fst (etag_digest md5 e)) data).
Proof.
  intros [fulls [r [-> [-> [Hf Hr]]]]].
  assert (Hlen : length (concat fulls) = length fulls * cs).
  { clear Hr. induction fulls as [|x l IH]; [reflexivity|]. simpl. rewrite app_length.
    rewrite (Hf x) by now left. rewrite IH; [lia|]. intros; apply Hf; now right. }
  unfold etag_digest. cbn [e_remainder].
  destruct r as [|x r].
  - cbn. rewrite app_nil_r. split; [|split].
    + exists fulls. split; [now apply blocks_full|]. now rewrite map_length.
    + exists fulls, [], 0%Z. split; [reflexivity|]. split; [lia|]. now apply blocks_full.
    + intros _. exists fulls, []. rewrite app_nil_r. auto.
  - cbn [fst snd e_parts e_chunksize e_m app]. split; [|split].
    + exists (fulls ++ [x :: r]). split; [now apply blocks_snoc|].
      rewrite map_app. simpl. now rewrite !app_length, map_length.
    + exists (fulls ++ [x :: r]), (x :: r), (Z.of_nat (length (x :: r))).
      split; [now rewrite map_app|]. split; [lia|]. now apply blocks_snoc.
    + intro Hm. exfalso. rewrite app_length, Hlen in Hm.
      rewrite Nat.add_comm, Nat.mod_add in Hm by lia.
      rewrite Nat.mod_small in Hm by assumption. simpl in Hm. lia.
Qed.

Lemma digest_closed e data : closed_inv e data ->
  is_etag md5 cs data (snd (etag_digest md5 e)) /\ closed_inv (fst (etag_digest md5 e)) data.
Proof.
  intros [blocks [m [l [-> [Hl Hb]]]]]. unfold etag_digest. cbn. split.
  - exists blocks. split; [assumption|]. now rewrite map_length.
  - exists blocks, m, l. auto.
Qed.

Lemma run_closed ops : forall e data, closed_inv e data -> no_more_data ops ->
  exists e' outs, etag_run md5 e ops = Ok (e', outs) /\
    Forall2 (is_etag md5 cs) (data_at_digests data ops) outs.
Proof.
  induction ops as [|[b|] ops IH]; intros e data Hi Hn.
  - exists e, []. split; constructor.
  - assert (b = []) by (apply Hn; now left). subst b.
    destruct (update_closed e data Hi) as [e' [E He']].
    cbn [etag_run data_at_digests]. rewrite E. cbn [rbind]. rewrite app_nil_r.
    apply IH; [assumption|]. intros b Hb. apply Hn. now right.
  - cbn [etag_run data_at_digests]. destruct (digest_closed e data Hi) as [Hd He].
    destruct (etag_digest md5 e) as [e1 d]. cbn [fst snd] in *.
    destruct (IH e1 data He) as [e' [outs [E F]]].
    { intros b Hb. apply Hn. now right. }
    rewrite E. cbn [rbind]. exists e', (d :: outs). split; [reflexivity|]. now constructor.
Qed.

Lemma run_open ops : forall e data, open_inv e data -> digests_ok cs (length data) ops ->
  exists e' outs, etag_run md5 e ops = Ok (e', outs) /\
    Forall2 (is_etag md5 cs) (data_at_digests data ops) outs.
Proof.
  induction ops as [|[b|] ops IH]; intros e data Hi Hn.
  - exists e, []. split; constructor.
  - cbn [digests_ok] in Hn.
    destruct (update_open e data b Hi) as [e' [E He']].
    cbn [etag_run data_at_digests]. rewrite E. cbn [rbind].
    apply IH; [assumption|]. now rewrite app_length.
  - cbn [etag_run data_at_digests digests_ok] in *. destruct Hn as [Hb Hn].
    destruct (digest_open e data Hi) as [Hd [Hcl Hop]].
    destruct (etag_digest md5 e) as [e1 d]. cbn [fst snd] in *.
    assert (G : exists e' outs, etag_run md5 e1 ops = Ok (e', outs) /\
                Forall2 (is_etag md5 cs) (data_at_digests data ops) outs).
    { destruct Hb as [Hb|Hb]; [now apply IH; auto | now apply run_closed]. }
    destruct G as [e' [outs [E F]]]. rewrite E. cbn [rbind].
    exists e', (d :: outs). split; [reflexivity|]. now constructor.
Qed.

End P.

Lemma etag_run_correct (md5 : bytes -> bytes) (cs : nat) (ops : list etag_op) :
  0 < cs -> digests_ok cs 0 ops ->
  exists e outs, etag_run md5 (etag_init (Z.of_nat cs)) ops = Ok (e, outs) /\
    Forall2 (is_etag md5 cs) (data_at_digests [] ops) outs.
Proof.
  intros Hcs Hd. apply (run_open md5 cs Hcs ops); [now apply init_open|assumption].
Qed.

(** Blocks are determined by the data: the specification names one value. *)
Lemma blocks_of_unique (size : nat) : forall l1 l2 data,
  blocks_of size data l1 -> blocks_of size data l2 -> l1 = l2.
Proof.
  assert (tail : forall data x l, blocks_of size data (x :: l) -> blocks_of size (concat l) l).
  { intros data x l [_ [H2 H3]]. split; [reflexivity|]. split.
    - intros b Hb. apply H2. now right.
    - intros i Hi. apply (H3 (S i)). simpl. lia. }
  induction l1 as [|x l1 IH]; intros l2 data H1 H2.
  - destruct l2 as [|y l2]; [reflexivity|]. exfalso.
    destruct H1 as [E1 _]. destruct H2 as [E2 [B2 _]]. rewrite <- E1 in E2. simpl in E2.
    specialize (B2 y (or_introl eq_refl)). destruct y; simpl in *; [lia|discriminate].
  - destruct l2 as [|y l2].
    + exfalso. destruct H2 as [E2 _]. destruct H1 as [E1 [B1 _]]. rewrite <- E2 in E1. simpl in E1.
      specialize (B1 x (or_introl eq_refl)). destruct x; simpl in *; [lia|discriminate].
    + pose proof (tail _ _ _ H1) as T1. pose proof (tail _ _ _ H2) as T2.
      destruct H1 as [E1 [B1 F1]]. destruct H2 as [E2 [B2 F2]]. rewrite <- E1 in E2.
      simpl in E2. symmetry in E2.
      assert (L : length x = length y /\ x = y /\ concat l1 = concat l2).
      { assert (Hx := B1 x (or_introl eq_refl)). assert (Hy := B2 y (or_introl eq_refl)).
        assert (Ex : l1 = [] \/ length x = size).
        { destruct l1; [now left|right]. apply (F1 0). simpl. lia. }
        assert (Ey : l2 = [] \/ length y = size).
        { destruct l2; [now left|right]. apply (F2 0). simpl. lia. }
        assert (Hlen : length x = length y).
        { apply (f_equal (@length _)) in E2. rewrite !app_length in E2.
          destruct Ex as [->|Ex], Ey as [->|Ey]; simpl in E2; try lia. }
        split; [assumption|]. now apply app_len_inj. }
      destruct L as [_ [-> Ec]]. f_equal. apply (IH l2 (concat l1)); [assumption|].
      now rewrite Ec.
Qed.

Lemma is_etag_unique md5 size data o1 o2 :
  is_etag md5 size data o1 -> is_etag md5 size data o2 -> o1 = o2.
Proof.
  intros [b1 [H1 ->]] [b2 [H2 ->]].
  now rewrite (blocks_of_unique size b1 b2 data H1 H2).
Qed.

(** ** Termination *)
Lemma loop_oof (md5 : bytes -> bytes) (c : Z) : (c <= 0)%Z ->
  forall fuel e bio, e_chunksize e = c -> e_last e = 0%Z ->
    etag_loop md5 fuel e bio = Err OutOfFuel.
Proof.
  intros Hc. induction fuel as [|fuel IH]; intros e bio He Hl; [reflexivity|].
  cbn [etag_loop]. rewrite He, Hl. change (negb (0 =? 0)%Z) with false. cbv iota.
  destruct (bread c bio) as [rem bio'].
  destruct (Z.ltb_spec (Z.of_nat (length (e_remainder e))) c); [lia|].
  rewrite andb_false_r.
  destruct (e_remainder e) as [|y ch].
  - now apply IH.
  - destruct (Z.ltb_spec c c); [lia|]. cbn [rbind]. now apply IH.
Qed.

Lemma update_oof md5 c b fuel : (c <= 0)%Z ->
  etag_update_fuel md5 fuel (etag_init c) b = Err OutOfFuel.
Proof. intro Hc. unfold etag_update_fuel. now apply (loop_oof md5 c Hc). Qed.

Lemma update_returns md5 cs b : (0 < cs)%Z ->
  exists fuel e, etag_update_fuel md5 fuel (etag_init cs) b = Ok e.
Proof.
  intro H. rewrite <- (Z2Nat.id cs) by lia.
  destruct (update_open md5 (Z.to_nat cs) ltac:(lia) (etag_init (Z.of_nat (Z.to_nat cs))) [] b)
    as [e [E _]].
  - apply init_open. lia.
  - eexists. exists e. exact E.
Qed.

(** ** A digest taken inside a block spoils every later digest *)
Lemma blocks_count size data l : 0 < size -> blocks_of size data l ->
  length data <= length l * size /\ (l <> [] -> (length l - 1) * size < length data).
Proof.
  intros Hs. revert data. induction l as [|x l IH]; intros data [E [B F]].
  - simpl in E. subst. simpl. split; [lia|congruence].
  - assert (T : blocks_of size (concat l) l).
    { split; [reflexivity|]. split; [intros; apply B; now right|].
      intros i Hi. apply (F (S i)). simpl. lia. }
    destruct (IH _ T) as [I1 I2]. simpl in E. subst data. rewrite app_length.
    assert (Hx := B x (or_introl eq_refl)). simpl length. split; [nia|].
    intros _. destruct l as [|y l]; [simpl in *; lia|].
    assert (length x = size) by (apply (F 0); simpl; lia).
    assert (Hl : y :: l <> []) by discriminate. specialize (I2 Hl).
    simpl length in *. nia.
Qed.

Lemma early_digest_spoils md5 cs data1 data2 :
  0 < cs -> length data1 mod cs <> 0 -> data2 <> [] ->
  exists e d1 d2, etag_run md5 (etag_init (Z.of_nat cs))
      [Update data1; Digest; Update data2; Digest] = Ok (e, [d1; d2]) /\
    is_etag md5 cs data1 d1 /\
    (forall d, is_etag md5 cs (data1 ++ data2) d -> snd d2 = (snd d + 1)%Z).
Proof.
  intros Hcs Hmod Hne.
  destruct (update_open md5 cs Hcs (etag_init (Z.of_nat cs)) [] data1) as [e1 [E1 I1]].
  { now apply init_open. }
  cbn [etag_run]. rewrite E1. cbn [rbind].
  cbn [app] in I1.
  destruct (digest_open md5 cs Hcs e1 data1 I1) as [Hd1 _].
  destruct I1 as [fulls [r [-> [-> [Hf Hr]]]]].
  assert (Hlen : length (concat fulls) = length fulls * cs).
  { clear - Hf. induction fulls as [|x l IH]; [reflexivity|]. simpl. rewrite app_length.
    rewrite (Hf x) by now left. rewrite IH; [lia|]. intros; apply Hf; now right. }
  assert (Hrn : r <> []).
  { intro; subst. apply Hmod. rewrite app_nil_r, Hlen. apply Nat.mod_mul. lia. }
  unfold etag_digest at 1. unfold etag_digest in Hd1.
  cbn [e_remainder e_parts e_chunksize e_m] in *.
  destruct r as [|r0 r]; [congruence|].
  cbn [fst snd app] in *. cbv beta iota zeta.
  unfold etag_update, etag_update_fuel. cbn [e_remainder e_chunksize e_m e_parts e_last app].
  set (R := r0 :: r) in *. set (D1 := (md5 (concat (map md5 fulls ++ [md5 R])),
            Z.of_nat (length (map md5 fulls ++ [md5 R])))) in *.
  assert (Hfuel : length data2 + 3 = S (S (length data2 + 1))) by lia.
  rewrite Hfuel. cbn [etag_loop e_last e_chunksize e_remainder e_m e_parts].
  assert (HlR : (0 < Z.of_nat (length R) < Z.of_nat cs)%Z) by (unfold R in *; simpl length in *; lia).
  destruct (Z.eqb_spec (Z.of_nat (length R)) 0); [lia|]. cbn [negb].
  set (c := cs - length R).
  assert (Hc : (Z.of_nat cs - Z.of_nat (length R) = Z.of_nat c)%Z) by (unfold c; lia).
  rewrite Hc. rewrite (bread_cs c ltac:(lia)).
  assert (Hfirst : firstn c data2 <> []).
  { destruct data2; [congruence|]. destruct c eqn:Ec; [lia|discriminate]. }
  destruct (firstn c data2) as [|f0 f] eqn:Ef; [congruence|].
  cbn [andb length].
  change (0 =? 0)%Z with true. cbn [negb]. cbv iota.
  rewrite (bread_cs cs ltac:(lia)).
  assert (Hlf : length (f0 :: f) <= c) by (rewrite <- Ef; apply firstn_le_length).
  assert (Hspl : data2 = (f0 :: f) ++ skipn c data2) by (rewrite <- Ef; symmetry; apply firstn_skipn).
  assert (Hcc : 0 < c < cs) by lia.
  destruct (skipn c data2) as [|s0 s] eqn:Es.
  - rewrite firstn_nil. cbn [andb].
    destruct (Z.ltb_spec (Z.of_nat (S (length f))) (Z.of_nat cs)); [|simpl in *; lia].
    cbn [rbind etag_digest e_remainder e_parts e_chunksize e_m].
    eexists; eexists; eexists. split; [reflexivity|]. split; [exact Hd1|].
    intros d [bl [Hbl ->]]. cbn [snd]. rewrite !app_length, map_length.
    destruct (blocks_count cs _ bl Hcs Hbl) as [B1 B2].
    rewrite app_nil_r in Hspl. rewrite !app_length, Hlen, Hspl in B1, B2.
    assert (bl <> []) by (intro; subst; unfold R in *; simpl in *; lia). specialize (B2 H0).
    assert (length bl = length fulls + 1).
    { destruct bl; [congruence|]. simpl length in *. nia. }
    simpl length. lia.
  - assert (Hs2 : firstn cs (s0 :: s) <> []) by (destruct cs; [lia|discriminate]).
    destruct (firstn cs (s0 :: s)) as [|g0 g] eqn:Eg; [congruence|].
    cbn [andb].
    destruct (Z.ltb_spec (Z.of_nat cs) (Z.of_nat cs)); [lia|]. cbn [rbind].
    assert (Hlen2 : length (f0 :: f) = c).
    { rewrite <- Ef. apply firstn_length_le. destruct (le_lt_dec c (length data2)); [assumption|].
      rewrite skipn_all2 in Es by lia. discriminate. }
    assert (Hspl2 : s0 :: s = (g0 :: g) ++ skipn cs (s0 :: s)).
    { rewrite <- Eg. symmetry. apply firstn_skipn. }
    destruct (loop_spec md5 cs Hcs (length data2 + 1) (g0 :: g) (skipn cs (s0 :: s))
                (((map md5 fulls) ++ [md5 R]) ++ [md5 (R ++ f0 :: f)]))
      as [fulls' [r' [L1 [L2 [L3 L4]]]]].
    { rewrite <- Eg. destruct (le_lt_dec cs (length (s0 :: s))).
      - left. now apply firstn_length_le.
      - right; left. split; [apply skipn_all2; lia|]. rewrite firstn_all2; lia. }
    { unfold need. pose proof (f_equal (@length _) Hspl) as Q1.
      pose proof (f_equal (@length _) Hspl2) as Q2. rewrite app_length in Q1, Q2.
      cbn [length] in Q1, Q2. rewrite Q1. lia. }
    rewrite L1. cbn [rbind etag_digest e_remainder e_parts e_chunksize e_m].
    assert (Hlen' : length (concat fulls') = length fulls' * cs).
    { clear - L3. induction fulls' as [|x l IH]; [reflexivity|]. simpl. rewrite app_length.
      rewrite (L3 x) by now left. rewrite IH; [lia|]. intros; apply L3; now right. }
    assert (Hd2 : length data2 = c + length fulls' * cs + length r').
    { rewrite <- Hspl2 in L2. rewrite Hspl, app_length, Hlen2, L2, app_length, Hlen'. lia. }
    eexists; eexists; eexists. split; [reflexivity|]. split; [exact Hd1|].
    intros d [bl [Hbl ->]]. cbn [snd].
    destruct (blocks_count cs _ bl Hcs Hbl) as [B1 B2].
    rewrite !app_length, Hlen, Hd2 in B1, B2.
    assert (Hbn : bl <> []) by (intro; subst bl; cbn [length Nat.mul] in B1; lia). specialize (B2 Hbn).
    destruct bl as [|b0 bl]; [congruence|].
    assert (length R + c = cs) by lia.
    destruct r' as [|r0' r'']; cbn [e_parts]; rewrite !app_length, !map_length; simpl length in *.
    + assert (length bl = length fulls + length fulls') by nia. lia.
    + assert (length bl = length fulls + length fulls' + 1) by nia. lia.
Qed.

Lemma update_oof' md5 c b fuel : (c <= 0)%Z ->
  etag_update_fuel md5 fuel (etag_init c) b = Err OutOfFuel.
Proof. intro H. now apply update_oof. Qed.

Lemma update_terminates_iff md5 cs b :
  (exists fuel e, etag_update_fuel md5 fuel (etag_init cs) b = Ok e) <-> (0 < cs)%Z.
Proof.
  split.
  - intros [fuel [e E]]. destruct (Z.lt_ge_cases 0 cs) as [H|H]; [assumption|].
    rewrite update_oof in E by assumption. discriminate.
  - apply update_returns.
Qed.

Lemma boundary_digest_harmless md5 cs data1 data2 :
  0 < cs -> length data1 mod cs = 0 ->
  exists e d1 d2,
    etag_run md5 (etag_init (Z.of_nat cs)) [Update data1; Digest; Update data2; Digest]
      = Ok (e, [d1; d2]) /\
    is_etag md5 cs data1 d1 /\ is_etag md5 cs (data1 ++ data2) d2.
Proof.
  intros Hcs Hm.
  destruct (etag_run_correct md5 cs [Update data1; Digest; Update data2; Digest] Hcs)
    as [e [outs [E F]]].
  - cbn. split; [now left|]. split; [|exact I]. right. intros b [].
  - cbn [data_at_digests app] in F. inversion F as [|a d1 l1 outs1 F1 F2]; subst.
    inversion F2 as [|a2 d2 l2 outs2 F3 F4]; subst. inversion F4; subst.
    exists e, d1, d2. auto.
Qed.

Lemma data_at_updates chunks : forall seen r,
  data_at_digests seen (map Update chunks ++ r) = data_at_digests (seen ++ concat chunks) r.
Proof.
  induction chunks as [|c l IH]; intros seen r; simpl.
  - now rewrite app_nil_r.
  - now rewrite IH, <- app_assoc.
Qed.

Lemma data_at_repeat seen n : data_at_digests seen (repeat Digest n) = repeat seen n.
Proof. induction n; simpl; congruence. Qed.

Lemma digests_ok_updates size chunks : forall seen r,
  (forall k, digests_ok size k r) -> digests_ok size seen (map Update chunks ++ r).
Proof. induction chunks; intros seen r H; simpl; auto. Qed.

Lemma digests_ok_repeat size n k : digests_ok size k (repeat Digest n).
Proof.
  revert k. induction n; intros k; simpl; [exact I|]. split; [|apply IHn].
  right. intros b Hb. apply repeat_spec in Hb. discriminate.
Qed.

Lemma etag_final_digests md5 cs chunks n : 0 < cs ->
  exists e out,
    etag_run md5 (etag_init (Z.of_nat cs)) (map Update chunks ++ repeat Digest n)
      = Ok (e, repeat out n) /\
    is_etag md5 cs (concat chunks) out.
Proof.
  intro Hcs.
  destruct (etag_run_correct md5 cs (map Update chunks ++ repeat Digest n) Hcs) as [e [outs [E F]]].
  { apply digests_ok_updates. intro. apply digests_ok_repeat. }
  assert (X : exists out, is_etag md5 cs (concat chunks) out).
  { destruct (etag_run_correct md5 cs (map Update chunks ++ repeat Digest 1) Hcs)
      as [e1 [outs1 [_ F1]]].
    - apply digests_ok_updates. intro. apply digests_ok_repeat.
    - rewrite data_at_updates, data_at_repeat in F1. cbn in F1. inversion F1; subst. eauto. }
  destruct X as [out Hout]. exists e, out. split; [|assumption].
  rewrite data_at_updates, data_at_repeat in F. cbn [app] in F.
  rewrite E. do 2 f_equal. clear E. revert outs F.
  induction n as [|n IH]; cbn [repeat]; intros outs F; inversion F; subst; [reflexivity|].
  f_equal; [|now apply IH]. eapply is_etag_unique; eassumption.
Qed.
