(** * Proofs about reading file content *)
From Coq Require Import String NArith ZArith Bool List Lia Arith.
From Verif Require Import Model.Py Model.Etag Model.Data Spec.EtagSpec Spec.DataSpec.
From Verif Require Import Proofs.PyLemmas Proofs.EtagProofs.
Import ListNotations.

Lemma skipn_firstn_len {A} n (l : list A) : skipn (length (firstn n l)) l = skipn n l.
Proof.
  rewrite firstn_length. destruct (le_lt_dec n (length l)).
  - now rewrite Nat.min_l.
  - rewrite Nat.min_r by lia. rewrite !skipn_all2; [reflexivity|lia|lia].
Qed.

Lemma skipn_skipn' {A} a b (l : list A) : skipn (a + b) l = skipn b (skipn a l).
Proof.
  revert l. induction a as [|a IH]; intros l; simpl; [reflexivity|].
  destruct l; [now rewrite skipn_nil|]. apply IH.
Qed.

Lemma firstn_plus {A} a b (l : list A) : firstn (a + b) l = firstn a l ++ firstn b (skipn a l).
Proof.
  revert l. induction a as [|a IH]; intros l; simpl; [reflexivity|].
  destruct l; [now rewrite firstn_nil|]. simpl. now rewrite IH.
Qed.

Lemma fread_pos content pos n : (0 <= n)%Z ->
  fread content pos n =
    Ok (firstn (Z.to_nat n) (skipn pos content),
        pos + length (firstn (Z.to_nat n) (skipn pos content))).
Proof.
  intro H. unfold fread. destruct (Z.eqb_spec n (-1)); [lia|].
  destruct (Z.ltb_spec n 0); [lia|reflexivity].
Qed.

Lemma blocks_cons size x l rest :
  0 < length x -> length x <= size ->
  blocks_of size rest l -> (rest <> [] -> length x = size) ->
  blocks_of size (x ++ rest) (x :: l).
Proof.
  intros H0 H1 [E [B F]] Hx. split; [|split].
  - simpl. now rewrite E.
  - intros b [<-|Hb]; [lia|]. now apply B.
  - intros [|i] Hi; simpl in *.
    + apply Hx. intro Hr. destruct l as [|y l]; simpl in Hi; [lia|].
      specialize (B y (or_introl eq_refl)). subst rest. simpl in Hr.
      apply app_eq_nil in Hr as [Hy _]. subst. simpl in B. lia.
    + apply F. lia.
Qed.

Lemma read_all_spec (cs : nat) (content : bytes) : 0 < cs -> forall fuel pos,
  length (skipn pos content) < fuel ->
  exists l, read_all fuel content pos (Z.of_nat cs) = (l, None) /\
            blocks_of cs (skipn pos content) l.
Proof.
  intros Hcs. induction fuel as [|fuel IH]; intros pos Hf; [lia|].
  cbn [read_all]. rewrite fread_pos by lia. rewrite Nat2Z.id.
  set (rest := skipn pos content) in *.
  destruct (firstn cs rest) as [|x d] eqn:Ed.
  - exists []. split; [reflexivity|].
    assert (rest = []) by (destruct rest; [reflexivity|destruct cs; [lia|discriminate]]).
    rewrite H. split; [reflexivity|]. split; [intros b []|]. intros i Hi. simpl in Hi. lia.
  - assert (Es : skipn (pos + length (x :: d)) content = skipn cs rest).
    { rewrite skipn_skipn'. fold rest. rewrite <- Ed. apply skipn_firstn_len. }
    assert (Hsplit : rest = (x :: d) ++ skipn cs rest) by (rewrite <- Ed; symmetry; apply firstn_skipn).
    destruct (IH (pos + length (x :: d))) as [l [E B]].
    { rewrite Es. apply (f_equal (@length _)) in Hsplit. rewrite app_length in Hsplit.
      cbn [length] in Hsplit. lia. }
    rewrite E. exists ((x :: d) :: l). split; [reflexivity|].
    rewrite Es in B.
    assert (G : blocks_of cs ((x :: d) ++ skipn cs rest) ((x :: d) :: l)).
    { apply blocks_cons.
      - simpl. lia.
      - rewrite <- Ed. apply firstn_le_length.
      - assumption.
      - intro Hne. rewrite <- Ed. apply firstn_length_le.
        destruct (le_lt_dec cs (length rest)); [assumption|].
        rewrite skipn_all2 in Hne by lia. congruence. }
    rewrite <- Hsplit in G. exact G.
Qed.

Lemma data_blocks content (cs : nat) : 0 < cs ->
  exists l, data content (Z.of_nat cs) = (l, None) /\ blocks_of cs content l.
Proof.
  intro H. unfold data.
  destruct (read_all_spec cs content H (length content + 2) 0) as [l [E B]].
  - simpl. lia.
  - exists l. auto.
Qed.

Lemma fold_app_concat (l : list bytes) : forall acc,
  fold_left (fun acc chunk => acc ++ chunk) l acc = acc ++ concat l.
Proof.
  induction l as [|x l IH]; intro acc; simpl; [now rewrite app_nil_r|].
  rewrite IH. now rewrite <- app_assoc.
Qed.

Lemma pick_chosen cypher cc sc : pick_cypher cypher cc sc = chosen cypher cc sc.
Proof.
  unfold pick_cypher, chosen. cbn [filter].
  destruct cypher as [|n]; cbn [Nat.eqb negb]; [|reflexivity].
  destruct cc as [[|c]|], sc as [[|k]|]; reflexivity.
Qed.

Lemma checksum_content H content (cs : nat) cypher cc sc extra : 0 < cs ->
  checksum H content (Z.of_nat cs) cypher cc sc extra
  = Ok (map (fun c => H c content) (chosen cypher cc sc :: extra)).
Proof.
  intro Hcs. unfold checksum, digests. rewrite pick_chosen.
  destruct (data_blocks content cs Hcs) as [l [-> [E _]]].
  cbn [fst snd]. do 2 f_equal; rewrite fold_app_concat, E; reflexivity.
Qed.

Lemma local_etag_correct md5 content (dcs cs : nat) : 0 < dcs -> 0 < cs ->
  exists out, local_etag md5 content (Z.of_nat dcs) (Z.of_nat cs) = Ok out /\
              is_etag md5 cs content out.
Proof.
  intros Hd Hc. unfold local_etag.
  destruct (data_blocks content dcs Hd) as [l [-> [E _]]].
  destruct (etag_final_digests md5 cs l 1 Hc) as [e [out [R S]]].
  cbn [repeat] in R. rewrite R. cbn. exists out. split; [reflexivity|]. now rewrite E in S.
Qed.

(** ** Ranges *)
Lemma read_n_spec content (cs : nat) : 0 < cs -> forall n pos last, (0 <= last)%Z ->
  exists l p, read_n content pos (Z.of_nat cs) n last = ((l, None), p) /\
    concat l = firstn (n * cs + Z.to_nat last) (skipn pos content) /\
    (forall b, In b l -> length b <= Nat.max cs (Z.to_nat last)).
Proof.
  intros Hcs. induction n as [|n IH]; intros pos last Hl.
  - cbn [read_n]. rewrite fread_pos by assumption.
    eexists; eexists. split; [reflexivity|]. split; [simpl; now rewrite app_nil_r|].
    intros b [<-|[]]. rewrite firstn_length. lia.
  - cbn [read_n]. rewrite fread_pos by lia. rewrite Nat2Z.id.
    set (d := firstn cs (skipn pos content)).
    destruct (IH (pos + length d) last Hl) as [l [p [E [C B]]]].
    rewrite E. eexists; eexists. split; [reflexivity|]. split.
    + simpl. rewrite C. rewrite skipn_skipn'. unfold d. rewrite skipn_firstn_len.
      rewrite <- firstn_plus. f_equal. lia.
    + intros b [<-|Hb]; [|now apply B]. unfold d. rewrite firstn_length. lia.
Qed.

Lemma fseek_valid content start : (0 <= range_offset (length content) start)%Z ->
  fseek content start = Ok (Z.to_nat (range_offset (length content) start)).
Proof.
  unfold range_offset, fseek. destruct (Z.ltb_spec start 0); intro H0; [|reflexivity].
  destruct (Z.ltb_spec (Z.of_nat (length content) + start) 0); [lia|reflexivity].
Qed.

Definition vars_ok (cs : nat) (v : option (Z * Z)) : Prop :=
  match v with None => True | Some (n, last) => (0 <= n /\ 0 <= last)%Z end.

Lemma data_ranges_spec content (cs : nat) : 0 < cs -> forall ranges vars,
  Forall (range_valid (length content)) ranges ->
  Forall (fun r => range_total r <> Some (Z.of_nat cs)) ranges ->
  exists ll, data_ranges content (Z.of_nat cs) vars ranges = (concat ll, None) /\
    Forall2 (fun r l => concat l = range_bytes content r /\
                        forall b, In b l -> length b <= cs) ranges ll.
Proof.
  intros Hcs. induction ranges as [|[start e] ranges IH]; intros vars Hv Ht.
  - exists []. split; [reflexivity|constructor].
  - inversion Hv as [|? ? [V1 V2] V3]; subst. inversion Ht as [|? ? T1 T2]; subst.
    cbn [fst snd] in *. cbn [data_ranges]. rewrite fseek_valid by assumption.
    destruct e as [e|].
    + replace (Z.of_nat cs =? 0)%Z with false by (symmetry; apply Z.eqb_neq; lia). cbn [andb].
      unfold range_total in T1. cbn [fst snd] in T1.
      assert (T1' : (e - start <> Z.of_nat cs)%Z) by congruence.
      set (vars' := if (e - start <? Z.of_nat cs)%Z then Some (0, e - start)%Z
         else if (Z.of_nat cs <? e - start)%Z
         then Some ((e - start) / Z.of_nat cs, (e - start) mod Z.of_nat cs)%Z else vars).
      assert (Hvars : exists n last, vars' = Some (n, last) /\ (0 <= last)%Z /\
        Z.to_nat n * cs + Z.to_nat last = Z.to_nat (e - start) /\ Z.to_nat last <= cs).
      { unfold vars'. destruct (Z.ltb_spec (e - start) (Z.of_nat cs)).
        - exists 0%Z, (e - start)%Z. repeat split; lia.
        - destruct (Z.ltb_spec (Z.of_nat cs) (e - start)); [|lia].
          pose proof (Z.div_mod (e - start) (Z.of_nat cs) ltac:(lia)) as Q.
          pose proof (Z.mod_pos_bound (e - start) (Z.of_nat cs) ltac:(lia)) as M.
          assert (0 <= (e - start) / Z.of_nat cs)%Z by (apply Z.div_pos; lia).
          exists ((e - start) / Z.of_nat cs)%Z, ((e - start) mod Z.of_nat cs)%Z.
          generalize dependent ((e - start) / Z.of_nat cs)%Z.
          generalize dependent ((e - start) mod Z.of_nat cs)%Z. intros m M q Q Hq.
          split; [reflexivity|]. split; [lia|]. split; [|lia]. apply Nat2Z.inj.
          rewrite Nat2Z.inj_add, Nat2Z.inj_mul, !Z2Nat.id by lia. lia. }
      destruct Hvars as [n [last [Ev [Hl [Htot Hmax]]]]]. rewrite Ev. rewrite <- Ev.
      destruct (read_n_spec content cs Hcs (Z.to_nat n)
                  (Z.to_nat (range_offset (length content) start)) last Hl)
        as [l [p [E [C B]]]].
      rewrite E.
      destruct (IH vars' V3 T2) as [ll [E2 F2]]. rewrite E2.
      exists (l :: ll). split; [reflexivity|]. constructor; [|assumption]. split.
      * rewrite C. unfold range_bytes. cbn [fst snd]. now rewrite Htot.
      * intros b Hb. specialize (B b Hb). lia.
    + destruct (read_all_spec cs content Hcs (length content + 2)
                  (Z.to_nat (range_offset (length content) start))) as [l [E B]].
      { rewrite skipn_length. lia. }
      rewrite E. destruct (IH vars V3 T2) as [ll [E2 F2]]. rewrite E2.
      exists (l :: ll). split; [reflexivity|]. constructor; [|assumption]. split.
      * destruct B as [B _]. rewrite B. reflexivity.
      * intros b Hb. destruct B as [_ [B _]]. apply B in Hb. lia.
Qed.

Lemma data_ranges_correct content (cs : nat) ranges : 0 < cs -> ranges <> [] ->
  Forall (range_valid (length content)) ranges ->
  Forall (fun r => range_total r <> Some (Z.of_nat cs)) ranges ->
  exists ll, data_ content (Z.of_nat cs) ranges = (concat ll, None) /\
    Forall2 (fun r l => concat l = range_bytes content r /\
                        forall b, In b l -> length b <= cs) ranges ll.
Proof.
  intros Hcs Hne Hv Ht. unfold data_. destruct ranges; [congruence|].
  now apply data_ranges_spec.
Qed.

Lemma data_no_ranges content (cs : nat) : 0 < cs ->
  exists l, data_ content (Z.of_nat cs) [] = (l, None) /\ blocks_of cs content l.
Proof.
  intro Hcs. unfold data_, data_ranges. cbn [fseek].
  change (fseek content 0) with (@Ok nat 0). cbv iota.
  destruct (read_all_spec cs content Hcs (length content + 2) 0) as [l [E B]]; [simpl; lia|].
  rewrite E. exists l. split; [|exact B]. unfold gapp. cbn. now rewrite app_nil_r.
Qed.

Lemma exact_total_fails content (cs : nat) start : 0 < cs ->
  (0 <= range_offset (length content) start)%Z ->
  forall rest,
  data_ content (Z.of_nat cs) ((start, Some (start + Z.of_nat cs)%Z) :: rest)
    = ([], Some UnboundLocalError).
Proof.
  intros Hcs Hv rest. cbn [data_ data_ranges]. replace (Z.of_nat cs =? 0)%Z with false by (symmetry; apply Z.eqb_neq; lia). cbn [andb]. rewrite fseek_valid by assumption.
  replace (start + Z.of_nat cs - start)%Z with (Z.of_nat cs) by lia.
  now rewrite Z.ltb_irrefl.
Qed.

Lemma exact_total_stale content (cs : nat) s1 e1 s2 : 0 < cs ->
  range_valid (length content) (s1, Some e1) -> (e1 - s1 < Z.of_nat cs)%Z ->
  (0 <= range_offset (length content) s2)%Z ->
  exists l, data_ content (Z.of_nat cs) [(s1, Some e1); (s2, Some (s2 + Z.of_nat cs)%Z)] = (l, None) /\
    concat l = range_bytes content (s1, Some e1) ++
               firstn (Z.to_nat (e1 - s1)) (range_bytes content (s2, Some (s2 + Z.of_nat cs)%Z)).
Proof.
  intros Hcs [V1 V2] Hlt V3. cbn [fst snd] in *. cbn [data_ data_ranges]. replace (Z.of_nat cs =? 0)%Z with false by (symmetry; apply Z.eqb_neq; lia). cbn [andb].
  rewrite (fseek_valid content s1) by assumption.
  destruct (Z.ltb_spec (e1 - s1) (Z.of_nat cs)); [|lia].
  change (Z.to_nat 0) with 0. cbn [read_n]. rewrite fread_pos by lia.
  rewrite (fseek_valid content s2) by assumption.
  replace (s2 + Z.of_nat cs - s2)%Z with (Z.of_nat cs) by lia.
  rewrite Z.ltb_irrefl. change (Z.to_nat 0) with 0. cbn [read_n].
  rewrite fread_pos by lia. eexists. split; [reflexivity|]. cbn [gapp fst snd app concat].
  unfold range_bytes. cbn [fst snd]. f_equal.
  replace (s2 + Z.of_nat cs - s2)%Z with (Z.of_nat cs) by lia.
  rewrite app_nil_r, firstn_firstn. f_equal. lia.
Qed.

(** Chunks of no bytes. *)
Lemma zero_chunks content start rest : (0 <= range_offset (length content) start)%Z ->
  data_ content 0 [] = ([], None) /\
  data_ content 0 ((start, Some start) :: rest) = ([], Some UnboundLocalError) /\
  (forall e, (start < e)%Z -> data_ content 0 ((start, Some e) :: rest) = ([], Some ZeroDivisionErr)).
Proof.
  intro Hv. split; [|split].
  - cbn [data_ data_ranges fseek]. rewrite Nat.add_comm. reflexivity.
  - cbn [data_ data_ranges]. rewrite fseek_valid by assumption. now rewrite Z.sub_diag.
  - intros e He. cbn [data_ data_ranges]. rewrite fseek_valid by assumption. replace (0 <? e - start)%Z with true by (symmetry; apply Z.ltb_lt; lia). reflexivity.
Qed.
