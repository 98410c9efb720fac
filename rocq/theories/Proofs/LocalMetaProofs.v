(** * Lemmas on the metadata of local paths *)
From Coq Require Import NArith ZArith Bool List Lia.
From Verif Require Import Model.Py Model.LocalMeta Spec.LocalMetaSpec.
Import ListNotations.

Section P.
Variables (name id parent_id cypher_name : str) (digest : bytes -> bytes).
Notation maker := (meta_maker name id parent_id cypher_name digest).
Notation hist := (history name id parent_id cypher_name digest).

(** The memo is of one of the states [l]. *)
Definition memo_ok (whole : bool) (l : list (option inode)) (m : memo) : Prop :=
  forall old, m_meta m = Some old -> exists i, In (Some i) l /\ m_change m = (n_ctime i, n_mtime i) /\ describes name id digest (Some i) old /\
    (whole = true -> n_file i = true -> l_checksum old = Some (digest (n_data i))).

Lemma maker_ok whole l w c n m r m' : memo_ok whole l m -> told_apart l -> In n l -> maker w c n m = (r, m') -> (whole = true -> w = true) ->
  match r with
  | Ok x => memo_ok whole l m' /\ describes name id digest n x /\
      (whole = true -> forall i, n = Some i -> n_file i = true -> l_checksum x = Some (digest (n_data i)))
  | Err e => n <> None
  end.
Proof.
  intros M T I E W. unfold meta_maker in E. destruct n as [i|].
  2:{ injection E as <- <-. split; [exact M|]. split; [repeat split|]. intros _ i K. discriminate K. }
  set (same := (fst (m_change m) =? fst (n_ctime i, n_mtime i))%Z && (snd (m_change m) =? snd (n_ctime i, n_mtime i))%Z) in E.
  assert (F : forall r m', match (if w then checksum digest i else Ok None) with
     | Err e => (Err e, mkMemo (m_meta m) (n_ctime i, n_mtime i))
     | Ok ck => match c with
         | Some (Npos _) => (Err TypeError, mkMemo (m_meta m) (n_ctime i, n_mtime i))
         | _ => let new := mkLmeta name id (Some parent_id) (Some (n_size i)) (Some (n_mtime i)) (Some (n_ctime i)) ck
                  (match ck with Some _ => Some cypher_name | None => None end) (Some (n_ino i)) (Some (n_uid i)) (Some (n_gid i)) (Some (n_mode i)) in
                (Ok new, mkMemo (Some new) (n_ctime i, n_mtime i))
         end end = (r, m') ->
     match r with Ok x => memo_ok whole l m' /\ describes name id digest (Some i) x /\
       (whole = true -> forall j, Some i = Some j -> n_file j = true -> l_checksum x = Some (digest (n_data j))) | Err e => Some i <> None end).
  { clear E r m'. intros r m' E.
    destruct (if w then checksum digest i else Ok None) as [ck|e] eqn:CK; [|injection E as <- <-; discriminate].
    assert (R : (Ok (mkLmeta name id (Some parent_id) (Some (n_size i)) (Some (n_mtime i)) (Some (n_ctime i)) ck
                  (match ck with Some _ => Some cypher_name | None => None end) (Some (n_ino i)) (Some (n_uid i)) (Some (n_gid i)) (Some (n_mode i))), 
                 mkMemo (Some (mkLmeta name id (Some parent_id) (Some (n_size i)) (Some (n_mtime i)) (Some (n_ctime i)) ck
                  (match ck with Some _ => Some cypher_name | None => None end) (Some (n_ino i)) (Some (n_uid i)) (Some (n_gid i)) (Some (n_mode i)))) (n_ctime i, n_mtime i)) = (r, m')
        \/ exists e, r = Err e).
    { destruct c as [[|p]|]; [now left| |now left]. right. injection E as <- <-. eauto. }
    clear E. destruct R as [R|[e ->]]; [|discriminate]. injection R as <- <-.
    assert (DS : describes name id digest (Some i) (mkLmeta name id (Some parent_id) (Some (n_size i)) (Some (n_mtime i)) (Some (n_ctime i)) ck
                  (match ck with Some _ => Some cypher_name | None => None end) (Some (n_ino i)) (Some (n_uid i)) (Some (n_gid i)) (Some (n_mode i)))).
    { repeat split. cbn [l_checksum]. unfold checksum in CK. destruct w; [|injection CK as <-; now left].
      destruct (n_file i) eqn:NF; [|injection CK as <-; now left].
      destruct (n_fails i); [discriminate CK|]. injection CK as <-. right. now split. }
    assert (WH : whole = true -> n_file i = true -> ck = Some (digest (n_data i))).
    { intros K NF. rewrite (W K) in CK. unfold checksum in CK. rewrite NF in CK. destruct (n_fails i); [discriminate CK|]. now injection CK as <-. }
    split; [|split; [exact DS|]].
    - intros old K. cbn [m_meta] in K. injection K as <-. exists i. repeat (split; [first [assumption|reflexivity|exact DS]|]). exact WH.
    - intros K j J NF. injection J as <-. now apply WH. }
  destruct (m_meta m) as [old|] eqn:O; [|exact (F _ _ E)].
  destruct same eqn:SM; [|exact (F _ _ E)].
  injection E as <- <-. destruct (M old O) as (j & J1 & J2 & J3 & J4).
  unfold same in SM. rewrite J2 in SM. cbn [fst snd] in SM. apply andb_true_iff in SM. rewrite !Z.eqb_eq in SM. destruct SM as [S1 S2].
  assert (j = i) by (now apply T). subst j. split; [|split; [exact J3|]].
  - intros o K. assert (o = old) by congruence. subst o. exists i. auto.
  - intros K k Q NF. injection Q as <-. now apply J4.
Qed.

Lemma states_in l now : In now (states l now).
Proof. revert now. induction l as [|[n|w c] r IH]; intros now; cbn; [now left|now left|apply IH]. Qed.

Lemma history_ok whole L l : told_apart L -> forall now m rs now' m',
  (forall s, In s (states l now) -> In s L) -> memo_ok whole L m -> (whole = true -> asks_all l) ->
  hist l now m = (rs, now', m') -> all_answered rs ->
  Forall2 (fun s r => exists x, r = Ok x /\ describes name id digest s x /\
     (whole = true -> forall i, s = Some i -> n_file i = true -> l_checksum x = Some (digest (n_data i)))) (asked l now) rs /\ memo_ok whole L m'.
Proof.
  intros T. induction l as [|[n|w c] r IH]; intros now m rs now' m' I M W E A.
  - injection E as <- <- <-. split; [constructor|exact M].
  - cbn [history] in E. cbn [asked]. eapply IH; [| |intros K w c H; apply (W K w c); now right|exact E|exact A]; [|exact M].
    intros s H. apply I. now right.
  - cbn [history] in E. destruct (maker w c now m) as [a m1] eqn:Q. destruct (hist r now m1) as [[rest n2] m2] eqn:H2.
    injection E as <- <- <-. destruct (A a (or_introl eq_refl)) as [x ->].
    assert (IN : In now L) by (apply I; apply (states_in (Asks w c :: r) now)).
    pose proof (maker_ok whole L w c now m _ _ M T IN Q (fun K => W K w c (or_introl eq_refl))) as (P1 & P2 & P3).
    destruct (IH now m1 rest n2 m2) as (F & M2); try assumption.
    + intros K w' c' H. apply (W K w' c'). now right.
    + intros y H. apply A. now right.
    + split; [|exact M2]. cbn [asked]. constructor; [|exact F]. exists x. now split.
Qed.

(** Going forward, the times tell everything apart. *)
Lemma forward_apart l : forall now t, forward l (Some t) -> (forall i, now = Some i -> n_ctime i = t) ->
  (forall a, In (Some a) (states l now) -> (t < n_ctime a)%Z \/ now = Some a) /\ told_apart (states l now).
Proof.
  induction l as [|[[n|]|w c] r IH]; intros now t F N; cbn [states forward] in *.
  - split; [intros a [->|[]]; now right|]. intros a b [A|[]] [B|[]] _ _. congruence.
  - destruct F as [F1 F2]. destruct (IH (Some n) (n_ctime n) F2) as [P Q]; [now intros i [= <-]|].
    assert (G : forall a, In (Some a) (states r (Some n)) -> (t < n_ctime a)%Z).
    { intros a H. destruct (P a H) as [K|[= ->]]; [lia|exact F1]. }
    split.
    + intros a [->|H]; [now right|]. left. now apply G.
    + intros a b [A|A] [B|B] E1 E2; [congruence| | |now apply Q].
      * apply G in B. rewrite (N a A) in E1. lia.
      * apply G in A. rewrite (N b B) in E1. lia.
  - destruct (IH None t F) as [P Q]; [discriminate|].
    assert (G : forall a, In (Some a) (states r None) -> (t < n_ctime a)%Z).
    { intros a H. destruct (P a H) as [K|K]; [exact K|discriminate K]. }
    split.
    + intros a [->|H]; [now right|]. left. now apply G.
    + intros a b [A|A] [B|B] E1 E2; [congruence| | |now apply Q].
      * apply G in B. rewrite (N a A) in E1. lia.
      * apply G in A. rewrite (N b B) in E1. lia.
  - exact (IH now t F N).
Qed.

Lemma fresh_ok whole l : memo_ok whole l fresh_memo.
Proof. intros old H. discriminate H. Qed.
Lemma meta_fresh l now rs now' m' : told_apart (states l now) -> hist l now fresh_memo = (rs, now', m') -> all_answered rs ->
  Forall2 (fun s r => exists x, r = Ok x /\ describes name id digest s x) (asked l now) rs.
Proof.
  intros T E A. destruct (history_ok false (states l now) l T now fresh_memo rs now' m') as [F _]; try assumption; try (now intros; assumption).
  - apply fresh_ok.
  - discriminate.
  - clear -F. induction F as [|s r ss rr (x & X1 & X2 & _) F IH]; constructor; [now exists x|exact IH].
Qed.
Lemma meta_whole l now rs now' m' : told_apart (states l now) -> asks_all l -> hist l now fresh_memo = (rs, now', m') -> all_answered rs ->
  Forall2 (fun s r => exists x, r = Ok x /\ forall i, s = Some i -> n_file i = true -> l_checksum x = Some (digest (n_data i))) (asked l now) rs.
Proof.
  intros T W E A. destruct (history_ok true (states l now) l T now fresh_memo rs now' m') as [F _]; try assumption; try (now intros; assumption).
  - apply fresh_ok.
  - clear -F. induction F as [|s r ss rr (x & X1 & _ & X3) F IH]; constructor; [exists x; split; [exact X1|now apply X3]|exact IH].
Qed.
Lemma meta_answers l : forall now m, readable (states l now) -> no_chunks l -> all_answered (fst (fst (hist l now m))).
Proof.
  induction l as [|[n|w c] r IH]; intros now m R C.
  - intros x [].
  - cbn [history]. apply IH; [intros i H; apply R; now right|intros w c H; apply (C w c); now right].
  - cbn [history]. destruct (maker w c now m) as [a m1] eqn:Q. destruct (hist r now m1) as [[rest n2] m2] eqn:H2. cbn [fst].
    intros x [<-|H].
    + unfold meta_maker in Q. destruct now as [i|]; [|injection Q as <- <-; eauto].
      assert (Z : n_fails i = None) by (apply R, (states_in (Asks w c :: r))).
      assert (K : c = None) by (apply (C w c); now left). subst c.
      assert (D : exists ck, (if w then checksum digest i else Ok None) = Ok ck).
      { unfold checksum. rewrite Z. destruct w, (n_file i); eauto. }
      destruct D as [ck D]. rewrite D in Q. destruct (m_meta m); [destruct (_ && _)|]; injection Q as <- <-; eauto.
    + assert (G : all_answered (fst (fst (hist r now m1)))).
      { apply IH; [exact R|]. intros w' c' H'. apply (C w' c'). now right. }
      rewrite H2 in G. now apply G.
Qed.
Lemma apart_forward l n : forward l (match n with Some i => Some (n_ctime i) | None => None end) -> told_apart (states l n).
Proof.
  destruct n as [i|]; [intros F; apply (forward_apart l (Some i) (n_ctime i) F); now intros j [= <-]|].
  induction l as [|[[n|]|w c] r IH]; intros F; cbn [states forward] in *.
  - intros a b [A|[]]. discriminate A.
  - destruct F as [_ F]. destruct (forward_apart r (Some n) (n_ctime n) F) as [_ Q]; [now intros j [= <-]|].
    intros a b [A|A] [B|B]; try discriminate. now apply Q.
  - intros a b [A|A] [B|B]; try discriminate. now apply IH.
  - now apply IH.
Qed.
End P.
