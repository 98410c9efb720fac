(** * Lemmas on the size of local paths *)
From Coq Require Import String NArith ZArith Bool List Lia.
From Verif Require Import Model.Py Model.PurePath Model.Fs Model.Stat Model.LocalSize Spec.FsSpec Spec.LoopSpec Spec.StatSpec Spec.LocalSizeSpec
  Proofs.PyLemmas Proofs.RunLemmas Proofs.StatProofs.
From Verif Require Proofs.MetaXattrProofs.
Import ListNotations.

Fixpoint unq (s : str) : str :=
  match s with c :: r => if N.eqb c 34 then unq r else s | [] => [] end.
Definition renamed (i : info) (s : str) : info :=
  mkInfo s (in_ino i) (in_hint i) (in_size i) (in_birth i) (in_access i) (in_modify i) (in_change i) (in_gid i) (in_uid i) (in_mode i).

Lemma unq_split s : exists k, s = repeat 34%N k ++ unq s.
Proof.
  induction s as [|c r (k & IH)]; [now exists 0|]. cbn. destruct (N.eqb_spec c 34) as [->|D].
  - exists (S k). cbn. now f_equal.
  - now exists 0.
Qed.
Lemma unq_two s : two_blanks (unq s) <-> two_blanks s.
Proof.
  induction s as [|c r IH]; [reflexivity|]. cbn. destruct (N.eqb_spec c 34) as [->|D]; [|reflexivity]. rewrite IH. split.
  - intros (a & b & ->). now exists (34%N :: a), b.
  - intros ([|x a] & b & E); [discriminate E|]. injection E as <- ->. now exists a, b.
Qed.
Lemma no_two s : nodbl s = true -> ~ two_blanks s.
Proof. intros N T. apply nodbl_spec in T. congruence. Qed.
Lemma line_split i : stat_line i = in_name i ++ 32%N :: 32%N :: join $"  " (fields i).
Proof. apply line_fields. Qed.
Lemma join_ends (sep : str) (l : list str) (x : str) : exists p, join sep (l ++ [x]) = p ++ x.
Proof.
  induction l as [|a l (p & IH)]; [now exists []|]. cbn [app].
  destruct (l ++ [x]) as [|b r] eqn:E; [now destruct l|]. exists (a ++ sep ++ p).
  change (join sep (a :: b :: r)) with (a ++ sep ++ join sep (b :: r)). rewrite IH. now rewrite <- !app_assoc.
Qed.
Lemma line_ends i : exists p, stat_line i = p ++ [hexdigit (in_mode i mod 16)].
Proof.
  destruct (join_ends $"  " [in_name i; dec_N (in_ino i); dec_N (in_hint i); dec_N (in_size i);
              match in_birth i with Some t => human t | None => $"-" end;
              match in_birth i with Some t => epoch t | None => $"0" end;
              human (in_access i); epoch (in_access i);
              human (in_modify i); epoch (in_modify i);
              human (in_change i); epoch (in_change i);
              dec_N (in_gid i); dec_N (in_uid i)] (hex4 (in_mode i))) as (p & E).
  exists (p ++ map hexdigit [(in_mode i / 4096); (in_mode i / 256) mod 16; (in_mode i / 16) mod 16]%N).
  rewrite <- app_assoc. exact E.
Qed.
Lemma enc_last p h b : (h < 128)%N -> utf8_enc (p ++ [h]) = Some b -> exists a, utf8_enc p = Some a /\ b = a ++ [byte_of h].
Proof.
  intros H. rewrite utf8_enc_app, (utf8_enc_ascii [h]).
  - destruct (utf8_enc p) as [a|]; [|discriminate]. intros E. exists a. split; [reflexivity|]. now injection E as <-.
  - cbn. apply N.ltb_lt in H. now rewrite H.
Qed.
Lemma enc_first c s b : c <> 34%N -> utf8_enc (c :: s) = Some b -> exists x y, b = x :: y /\ bdquote x = false.
Proof.
  intros D E. pose proof (MetaXattrProofs.utf8_bytes _ _ E) as B. destruct b as [|x y].
  - exfalso. cbn [flat_map map] in B. unfold utf8_enc1 in B. destruct (N.ltb c 128), (N.ltb c 2048), (N.ltb c 65536); discriminate B.
  - exists x, y. split; [reflexivity|]. unfold bdquote. apply N.eqb_neq. intros K. cbn [map flat_map] in B. rewrite K in B.
    unfold utf8_enc1 in B. destruct (N.ltb c 128) eqn:C1; [injection B as B _; congruence|].
    apply (f_equal (hd 0%N)) in B. destruct (N.ltb c 2048); cbn [hd app] in B; [generalize dependent (c / 64)%N; intros; lia|].
    destruct (N.ltb c 65536); cbn [hd app] in B; [generalize dependent (c / 4096)%N|generalize dependent (c / 262144)%N]; intros; lia.
Qed.
Lemma drop_quotes k x y : bdquote x = false -> drop_while bdquote (map byte_of (repeat 34%N k) ++ x :: y) = x :: y.
Proof. intros H. induction k as [|k IH]; cbn; [now rewrite H|exact IH]. Qed.
Lemma brstrip_last f (a : bytes) x : brstrip f (a ++ [x]) = if f x then brstrip f a else a ++ [x].
Proof.
  unfold brstrip. rewrite rev_app_distr. cbn [rev app drop_while]. destruct (f x); [reflexivity|]. cbn [rev]. now rewrite rev_involutive.
Qed.
Lemma hexdigit_lt n : (n < 16)%N -> (hexdigit n < 128)%N /\ bdquote (byte_of (hexdigit n)) = false /\ bspace (byte_of (hexdigit n)) = false.
Proof.
  intros H. assert (F : forallb (fun k => (N.ltb (hexdigit (N.of_nat k)) 128 && negb (bdquote (byte_of (hexdigit (N.of_nat k)))) && negb (bspace (byte_of (hexdigit (N.of_nat k)))))%bool) (seq 0 16) = true) by reflexivity.
  rewrite forallb_forall in F. specialize (F (N.to_nat n)). rewrite N2Nat.id in F.
  assert (K : In (N.to_nat n) (seq 0 16)) by (apply in_seq; lia). specialize (F K).
  apply andb_true_iff in F as [F C]. apply andb_true_iff in F as [A B]. apply N.ltb_lt in A. apply negb_true_iff in B, C. auto.
Qed.
Lemma unquoted_line i b : utf8_enc ($"""" ++ stat_line i ++ $"""" ++ [10%N]) = Some b ->
  utf8_enc (stat_line (renamed i (unq (in_name i)))) = Some (unquoted b).
Proof.
  intros E. destruct (unq_split (in_name i)) as (k & K).
  set (j := renamed i (unq (in_name i))).
  assert (L : $"""" ++ stat_line i ++ $"""" ++ [10%N] = repeat 34%N (S k) ++ stat_line j ++ [34%N; 10%N]).
  { rewrite (line_split i), (line_split j). rewrite K at 1. cbn [in_name j renamed]. cbn [repeat app]. change $"""" with [34%N]. cbn [app].
    rewrite <- !app_assoc. reflexivity. }
  rewrite L, !utf8_enc_app in E. clear L.
  rewrite (utf8_enc_ascii (repeat 34%N (S k))) in E.
  2:{ unfold ascii_str. apply forallb_forall. intros x X. now apply repeat_spec in X as ->. }
  rewrite (utf8_enc_ascii [34%N; 10%N] eq_refl) in E.
  destruct (utf8_enc (stat_line j)) as [c|] eqn:C; [|discriminate]. f_equal. injection E as <-.
  assert (F : exists x y, c = x :: y /\ bdquote x = false).
  { destruct (unq (in_name i)) as [|h t] eqn:U.
    - rewrite (line_split j) in C. cbn [in_name j renamed app] in C. refine (enc_first 32%N _ c _ C). discriminate.
    - rewrite (line_split j) in C. cbn [in_name j renamed app] in C. refine (enc_first h _ c _ C). intros ->.
      clear -U. revert t U. induction (in_name i) as [|a s IH]; [discriminate|]. cbn. destruct (N.eqb_spec a 34); [apply IH|congruence]. }
  destruct F as (x & y & -> & X). destruct (line_ends j) as (p & P). rewrite P in C.
  destruct (hexdigit_lt (in_mode j mod 16) ltac:(apply N.mod_lt; lia)) as (H1 & H2 & H3).
  apply enc_last in C as (a & _ & A); [|exact H1]. unfold unquoted.
  change (drop_while bdquote _) with (drop_while bdquote (map byte_of (repeat 34%N (S k)) ++ x :: (y ++ [byte_of 34; byte_of 10]))).
  rewrite drop_quotes by exact X.
  rewrite app_comm_cons, A. set (h := byte_of (hexdigit (in_mode j mod 16))) in *.
  change ((a ++ [h]) ++ [byte_of 34; byte_of 10]) with ((a ++ [h]) ++ [byte_of 34] ++ [byte_of 10]). rewrite app_assoc.
  rewrite (brstrip_last bdquote). change (bdquote (byte_of 10)) with false. cbv iota.
  rewrite (brstrip_last bspace). change (bspace (byte_of 10)) with true. cbv iota.
  rewrite (brstrip_last bspace). change (bspace (byte_of 34)) with false. cbv iota.
  rewrite (brstrip_last bdquote). change (bdquote (byte_of 34)) with true. cbv iota.
  rewrite brstrip_last, H2. reflexivity.
Qed.

Lemma read_line i b : good_info i -> utf8_enc ($"""" ++ stat_line i ++ $"""" ++ [10%N]) = Some b ->
  (two_blanks (in_name i) -> StatResult (unquoted b) = Err ValueError) /\
  (~ two_blanks (in_name i) -> exists r, StatResult (unquoted b) = Ok r /\ sr_size r = Z.of_N (in_size i)).
Proof.
  intros G E. apply unquoted_line in E. set (j := renamed i (unq (in_name i))) in *.
  assert (GJ : good_info j) by exact G. split; intros T.
  - apply (parse_dbl _ j GJ E). now apply unq_two.
  - assert (TJ : ~ two_blanks (in_name j)) by (intros K; apply T; now apply unq_two).
    destruct (list_eq_dec N.eq_dec (in_name j) []) as [Z|Z].
    + eexists. split; [apply (parse_nice _ j GJ E TJ)|reflexivity]. intros (a & K). rewrite Z in K. now destruct a.
    + destruct (exists_last Z) as (a & c & K). destruct (N.eq_dec c 32) as [->|D].
      * eexists. split; [apply (parse_trailing _ j a GJ E TJ K)|reflexivity].
      * eexists. split; [apply (parse_nice _ j GJ E TJ)|reflexivity]. intros (a' & K'). rewrite K in K'. apply app_inj_tail in K' as [_ K']. exact (D K').
Qed.

Section Size.
Variable prints : str -> place -> node -> bytes.
Variable option_out : str -> bytes * bool.
Variable dir_size : place -> N.
Hypothesis PL : prints_line dir_size prints.
Notation size := (local_size prints option_out dir_size).

Lemma unquoted_some name q n : (exists b, utf8_enc name = Some b) -> unquoted (prints name q n) <> [].
Proof.
  intros U. destruct (PL name q n U) as (i & _ & _ & _ & E). apply unquoted_line in E. intros K. rewrite K in E.
  destruct (line_ends (renamed i (unq (in_name i)))) as (p & P). rewrite P in E. apply enc_last in E as (a & _ & A).
  - now destruct a.
  - apply hexdigit_lt. apply N.mod_lt. lia.
Qed.
(** What the program says *)
Lemma local_stat_run p w r w' : usable (pp_str p) -> local_stat prints option_out p w = (r, w') ->
  same w w' /\
  match lookup false p (w_fs w) (w_cwd w), w_fault w (w_tick w) with
  | Ok (q, n), None =>
      (two_blanks (pp_str p) -> r = Err ValueError) /\
      (~ two_blanks (pp_str p) -> exists st, r = Ok st /\ sr_size st = Z.of_N (node_size dir_size q n))
  | _, Some e => r = Err (match e with OSErr _ => OSErr EIO | _ => e end)
  | Err e, None => r = Err (OSErr EIO)
  end.
Proof.
  intros [U D] H. unfold local_stat, stat_program in H. rewrite D in H. unfold bind, catch, ask, ret, raise, lift in H.
  destruct (w_fault w (w_tick w)) as [e|].
  - destruct (lookup false p (w_fs w) (w_cwd w)) as [[q n]|e']; destruct e; cbn in H; injection H as <- <-; (split; [now repeat split|reflexivity]).
  - destruct (lookup false p (w_fs w) (w_cwd w)) as [[q n]|e'] eqn:L.
    + cbn [fst snd] in H. pose proof (unquoted_some (pp_str p) q n U) as NE. destruct (PL (pp_str p) q n U) as (i & G & NI & SI & E).
      destruct (read_line i _ G E) as [R1 R2]. rewrite NI in R1, R2. rewrite SI in R2.
      destruct (unquoted (prints (pp_str p) q n)) as [|x y]; [congruence|]. injection H as <- <-.
      split; [now repeat split|]. split; [exact R1|exact R2].
    + unfold lookup, fail in L. destruct (walk (w_fs w) (w_cwd w) false p); try discriminate L; injection L as <-; cbn in H; injection H as <- <-;
        (split; [now repeat split|reflexivity]).
Qed.
Lemma lookup_err f p fs cwd e : lookup f p fs cwd = Err e -> exists n, e = OSErr n.
Proof. unfold lookup, fail. destruct (walk fs cwd f p); intros H; try discriminate H; injection H as <-; eauto. Qed.

(** Without faults, exactly *)
Lemma size_exact p w r w' : no_fault w -> usable (pp_str p) -> size p w = (r, w') ->
  same w w' /\
  match lookup true p (w_fs w) (w_cwd w), lookup false p (w_fs w) (w_cwd w) with
  | Ok (q, n), _ => r = Ok (Z.of_N (node_size dir_size q n))
  | Err _, Ok (q, n) => (two_blanks (pp_str p) -> r = Err ValueError) /\
      (~ two_blanks (pp_str p) -> r = Ok (Z.of_N (node_size dir_size q n)))
  | Err _, Err _ => r = Err (OSErr EIO)
  end.
Proof.
  intros NF U H. unfold local_size, catch, bind, ask, ret, raise in H. rewrite NF in H.
  destruct (lookup true p (w_fs w) (w_cwd w)) as [[q n]|e] eqn:L; [injection H as <- <-; split; [now repeat split|reflexivity]|].
  apply lookup_err in L as (m & ->).
  match type of H with context [local_stat _ _ p ?w1] => set (w2 := w1) in H; destruct (local_stat prints option_out p w2) as [r1 w3] eqn:S end.
  pose proof (local_stat_run p w2 r1 w3 U S) as [SM R]. assert (SW : same w w2) by now repeat split.
  assert (w' = w3) by (destruct r1; congruence). subst w'. split; [exact (same_trans _ _ _ SW SM)|].
  change (w_fs w2) with (w_fs w) in R. change (w_cwd w2) with (w_cwd w) in R. replace (w_fault w2 (w_tick w2)) with (@None exn) in R by (symmetry; apply NF).
  destruct (lookup false p (w_fs w) (w_cwd w)) as [[q n]|e].
  - destruct R as [R1 R2]. split; intros T.
    + rewrite (R1 T) in H. congruence.
    + destruct (R2 T) as (st & -> & <-). congruence.
  - subst r1. congruence.
Qed.
(** With any faults: a number is the size of something that is there. *)
Lemma size_honest p w z w' : usable (pp_str p) -> size p w = (Ok z, w') ->
  exists f q n, lookup f p (w_fs w) (w_cwd w) = Ok (q, n) /\ z = Z.of_N (node_size dir_size q n).
Proof.
  intros U H. unfold local_size, catch, bind, ret, raise in H.
  destruct (ask (lookup true p) w) as [r0 w2] eqn:A. apply ask_inv in A as [(S1 & S2 & S3 & S4) A].
  destruct r0 as [[q n]|e].
  - destruct A as [A|(e & K & _)]; [|discriminate]. injection H as <- _. now exists true, q, n.
  - destruct e; try discriminate H. destruct (local_stat prints option_out p w2) as [[st|e1] w3] eqn:S; [|discriminate].
    apply local_stat_run in S as [_ R]; [|exact U]. injection H as <- _. rewrite S1, S2 in R.
    destruct (lookup false p (w_fs w) (w_cwd w)) as [[q n]|e1] eqn:L; destruct (w_fault w2 (w_tick w2)); try discriminate R.
    destruct R as [R1 R2]. exists false, q, n. split; [exact L|].
    destruct (list_eq_dec N.eq_dec (pp_str p) (pp_str p)) as [_|?]; [|congruence].
    assert (D : two_blanks (pp_str p) \/ ~ two_blanks (pp_str p)).
    { destruct (nodbl (pp_str p)) eqn:N; [right|left; now apply nodbl_spec]. intros T. apply nodbl_spec in T. congruence. }
    destruct D as [D|D]; [specialize (R1 D); discriminate|]. destruct (R2 D) as (st' & K & <-). congruence.
Qed.
End Size.

(** A program that prints such lines *)
Definition one_time : moment * written := (mkMoment 1700000000 5, mkWritten $"2023-11-14" $"22:13:20" $"+0000").
Definition an_info (name : str) (size : N) : info :=
  mkInfo name 7 4096 size None one_time one_time one_time 100 1000 33188.
Definition a_program (dir_size : place -> N) (name : str) (q : place) (n : node) : bytes :=
  match utf8_enc ($"""" ++ stat_line (an_info name (node_size dir_size q n)) ++ $"""" ++ [10%N]) with Some b => b | None => [] end.
Lemma dec_ascii n : ascii_str (dec_N n) = true.
Proof.
  destruct (dec_N_spec n) as (D & _ & _). unfold ascii_str. rewrite forallb_forall in *. intros x X. specialize (D x X).
  unfold is_digit in D. apply andb_true_iff in D as [_ D]. apply N.leb_le in D. apply N.ltb_lt. change (chr "9") with 57%N in D. lia.
Qed.
Lemma ascii_app a b : ascii_str (a ++ b) = (ascii_str a && ascii_str b)%bool.
Proof. unfold ascii_str. apply forallb_app. Qed.
Lemma a_program_prints dir_size : prints_line dir_size (a_program dir_size).
Proof.
  intros name q n (b & B). exists (an_info name (node_size dir_size q n)).
  assert (T : good_time one_time).
  { unfold good_time, one_time, plain_text. cbn [fst snd mo_ns wr_date wr_clock wr_zone]. split; [reflexivity|].
    repeat split; try discriminate; intros H; vm_compute in H; repeat (destruct H as [H|H]; [discriminate H|]); exact H. }
  split; [split; [exact T|split; [exact T|split; [exact T|split; [discriminate|cbn; lia]]]]|]. split; [reflexivity|]. split; [reflexivity|].
  unfold a_program. set (s := node_size dir_size q n).
  destruct (utf8_enc ($"""" ++ stat_line (an_info name s) ++ $"""" ++ [10%N])) eqn:E; [reflexivity|]. exfalso.
  assert (L : stat_line (an_info name s) = name ++ ($"  7  4096  " ++ dec_N s ++ join $"  " ([] :: skipn 3 (fields (an_info name 0))))) by reflexivity.
  rewrite L, !utf8_enc_app, B in E. rewrite (utf8_enc_ascii (dec_N s) (dec_ascii s)) in E. vm_compute in E. discriminate E.
Qed.

(** The size of a link is that of its text in bytes. *)
Lemma link_size ds q t b : utf8_enc t = Some b -> node_size ds q (Link t) = N.of_nat (length b).
Proof.
  unfold utf8_enc. destruct (forallb scalar t) eqn:A; [|discriminate]. intros H. injection H as <-. rewrite map_length. cbn [node_size].
  induction t as [|c t IH]; [reflexivity|]. cbn [forallb] in A. apply andb_true_iff in A as [A1 A2]. cbn [fold_right flat_map]. rewrite app_length, Nat2N.inj_add, (IH A2). f_equal.
  unfold fs_width. destruct (N.leb 56448 c && N.leb c 56575)%bool eqn:B; [|reflexivity].
  exfalso. apply andb_true_iff in B as [B1 B2]. apply N.leb_le in B1, B2. unfold scalar in A1.
  apply andb_true_iff in A1 as [A0 A1]. apply orb_true_iff in A1 as [A1|A1] || apply negb_true_iff in A1.
  all: try apply N.ltb_lt in A1; try apply N.leb_le in A1; try apply andb_false_iff in A1 as [A1|A1]; try apply N.leb_gt in A1; try apply N.ltb_ge in A1; try lia.
Qed.
Lemma size_bytes prints oo ds : prints_line ds prints -> forall p w q t b,
  no_fault w -> usable (pp_str p) -> ~ two_blanks (pp_str p) -> (forall r, lookup true p (w_fs w) (w_cwd w) <> Ok r) ->
  lookup false p (w_fs w) (w_cwd w) = Ok (q, Link t) -> utf8_enc t = Some b ->
  fst (local_size prints oo ds p w) = Ok (Z.of_nat (length b)).
Proof.
  intros PL p w q t b N U T F L B. destruct (local_size _ _ _ _ _) as [r w'] eqn:E. cbn [fst].
  apply (size_exact prints oo ds PL) in E as [_ E]; [|assumption|assumption]. rewrite L in E.
  destruct (lookup true p (w_fs w) (w_cwd w)) as [x|e]; [elim (F x eq_refl)|]. destruct E as [_ E]. rewrite (E T), (link_size _ _ _ _ B). f_equal. lia.
Qed.
