(** * Lemmas on drives *)
From Coq Require Import String NArith Arith Bool List Lia.
From Verif Require Import Model.Py Model.SplitRoot Spec.SplitRootSpec Proofs.PyLemmas.
Import ListNotations.

Lemma find_some c s i : find_char c s = Some i -> s = firstn i s ++ c :: skipn (S i) s /\ ~ In c (firstn i s).
Proof.
  revert i. induction s as [|x r IH]; intros i H; [discriminate|]. cbn in H. destruct (N.eqb_spec x c) as [->|D].
  - injection H as <-. split; [reflexivity|intros []].
  - destruct (find_char c r) as [k|]; [|discriminate]. injection H as <-. destruct (IH k eq_refl) as [E N]. split.
    + cbn [firstn skipn app]. now f_equal.
    + cbn [firstn]. intros [K|K]; [congruence|exact (N K)].
Qed.
Lemma find_none c s : find_char c s = None -> ~ In c s.
Proof.
  induction s as [|x r IH]; intros H; [intros []|]. cbn in H. destruct (N.eqb_spec x c); [discriminate|].
  destruct (find_char c r); [discriminate|]. intros [K|K]; [congruence|now apply IH].
Qed.
Lemma find_app c a r : ~ In c a -> find_char c (a ++ c :: r) = Some (length a).
Proof.
  induction a as [|x a IH]; intros N; cbn; [now rewrite N.eqb_refl|].
  destruct (N.eqb_spec x c) as [->|D]; [destruct N; now left|]. rewrite IH; [reflexivity|]. intros K; apply N; now right.
Qed.
Lemma find_len c s i : find_char c s = Some i -> i < length s.
Proof.
  revert i. induction s as [|x r IH]; intros i H; [discriminate|]. cbn in H. destruct (N.eqb x c); [injection H as <-; cbn; lia|].
  destruct (find_char c r) as [k|]; [|discriminate]. injection H as <-. specialize (IH k eq_refl). cbn. lia.
Qed.

Lemma has_drive_in s l : has_drive s l = true <-> In s l.
Proof.
  unfold has_drive. rewrite existsb_exists. split; [intros (x & X & E); apply str_eqb_eq in E; now subst|].
  intros H. exists s. split; [exact H|]. now apply str_eqb_eq.
Qed.
Lemma has_letter a : has_drive [a] drive_letters = existsb (N.eqb a) $"abcdefghijklmnopqrstuvwxyzABCDEFGHIJKLMNOPQRSTUVWXYZ".
Proof.
  apply eq_true_iff_eq. rewrite has_drive_in, existsb_exists. unfold drive_letters, letters. rewrite in_app_iff, in_map_iff. split.
  - intros [(x & E & X)|R]; [injection E as ->; exists a; split; [exact X|apply N.eqb_refl]|].
    repeat (destruct R as [R|R]; [discriminate R|]); destruct R.
  - intros (x & X & E). apply N.eqb_eq in E. subst. left. now exists x.
Qed.
Lemma drive_cases s : In s drive_letters -> (exists a, s = [a]) \/ In s registry_drives.
Proof.
  unfold drive_letters, letters. rewrite in_app_iff, in_map_iff. intros [(x & <- & _)|R]; [left; now exists x|now right].
Qed.
Lemma registry_name r : In r registry_drives -> length r = 4 /\ ~ In colon r /\ ~ In bsl r.
Proof. intros [<-|[<-|[<-|[<-|[]]]]]; (split; [reflexivity|]); split; intros K; vm_compute in K; repeat (destruct K as [K|K]; [discriminate K|]); exact K. Qed.

(** ** Nothing but the registry changes *)
Definition registered (part name rest : str) : Prop := In name registry_drives /\ part = name ++ colon :: rest.

Lemma no_share_registered prefix part name rest : registered part name rest ->
  no_share prefix part = (prefix ++ name, [], colon :: rest).
Proof.
  intros [R ->]. destruct (registry_name name R) as (L & C & B). unfold no_share.
  assert (S2 : str_eqb (slice 1 2 (name ++ colon :: rest)) [colon] = false).
  { apply str_eqb_neq. destruct name as [|a [|b name]]; try discriminate L. unfold slice. cbn. intros K. injection K as ->. apply C. right. now left. }
  rewrite S2. cbn [andb]. rewrite (find_app _ _ _ C).
  assert (I : match find_char bsl (name ++ colon :: rest) with None => true | Some i => Nat.ltb (length name) i end = true).
  { destruct (find_char bsl (name ++ colon :: rest)) as [i|] eqn:F; [|reflexivity]. apply Nat.ltb_lt.
    apply find_some in F as [F _]. destruct (Nat.le_gt_cases i (length name)) as [K|K]; [exfalso|exact K].
    assert (N : nth i (name ++ colon :: rest) 0%N = bsl).
    { assert (FL : length (firstn i (name ++ colon :: rest)) = i) by (apply firstn_length_le; rewrite app_length; cbn; lia).
      rewrite F at 1. rewrite app_nth2 by lia. rewrite FL, Nat.sub_diag. reflexivity. }
    destruct (Nat.eq_dec i (length name)) as [->|Q].
    - rewrite app_nth2, Nat.sub_diag in N by lia. discriminate N.
    - rewrite app_nth1 in N by lia. apply B. rewrite <- N. apply nth_In. lia. }
  rewrite I. rewrite firstn_app, firstn_all, Nat.sub_diag, app_nil_r by lia.
  assert (H : has_drive name drive_letters = true) by (apply has_drive_in; unfold drive_letters; apply in_app_iff; now right).
  rewrite H. rewrite skipn_app, skipn_all, Nat.sub_diag. reflexivity.
Qed.
Lemma rooted_cpython prefix part : 
  rooted prefix [] (slice 0 1 part) part = (if str_eqb (firstn 1 part) [bsl] then (prefix ++ [], [bsl], lstrip_sep part) else (prefix ++ [], [], part)).
Proof.
  unfold rooted, slice. cbn [skipn Nat.sub]. destruct (str_eqb (firstn 1 part) [bsl]) eqn:E; [|reflexivity].
  apply str_eqb_eq in E. now rewrite E.
Qed.
Lemma no_share_same prefix part : (forall name rest, ~ registered part name rest) ->
  no_share prefix part = cpython_no_share prefix part.
Proof.
  intros NR.
  assert (F : (if match find_char colon part with
               | Some index1 => if match find_char bsl part with None => true | Some index2 => Nat.ltb index1 index2 end
                                then has_drive (firstn index1 part) drive_letters else false
               | None => false end
               then match find_char colon part with Some 1 => true | _ => false end else true) = true).
  { destruct (find_char colon part) as [i|] eqn:C; [|reflexivity]. destruct (match find_char bsl part with None => true | Some index2 => Nat.ltb i index2 end); [|reflexivity].
    destruct (has_drive (firstn i part) drive_letters) eqn:H; [|reflexivity]. apply has_drive_in, drive_cases in H as [(a & A)|R].
    - pose proof (find_len _ _ _ C) as L. pose proof (firstn_length_le part (n:=i) ltac:(lia)) as FL. rewrite A in FL. cbn in FL. now subst i.
    - apply find_some in C as [C _]. destruct (NR (firstn i part) (skipn (S i) part)). split; [exact R|exact C]. }
  unfold no_share, cpython_no_share. destruct part as [|a [|b r]].
  - cbn. reflexivity.
  - change (slice 1 2 [a]) with (@nil N). change (slice 0 1 [a]) with [a]. cbn [str_eqb andb list_eqb].
    change (str_eqb [] [colon]) with false. cbn [andb]. cbn [find_char] in *. destruct (N.eqb a colon) eqn:A.
    + cbn [firstn]. change (has_drive [] drive_letters) with false.
      destruct (match (if N.eqb a bsl then Some 0 else option_map S None) with None => true | Some index2 => Nat.ltb 0 index2 end); exact (rooted_cpython prefix [a]).
    + exact (rooted_cpython prefix [a]).
  - change (slice 1 2 (a :: b :: r)) with [b]. change (slice 0 1 (a :: b :: r)) with [a]. change (slice 0 2 (a :: b :: r)) with [a; b].
    change (skipn 2 (a :: b :: r)) with r. change (slice 2 3 (a :: b :: r)) with (firstn 1 r).
    assert (E : str_eqb [b] [colon] = N.eqb b colon).
    { apply eq_true_iff_eq. rewrite str_eqb_eq, N.eqb_eq. split; congruence. }
    rewrite E, has_letter. destruct (N.eqb b colon && _)%bool eqn:D.
    + unfold rooted. destruct (str_eqb (firstn 1 r) [bsl]) eqn:Q; [|reflexivity]. apply str_eqb_eq in Q. now rewrite Q.
    + assert (Z : rooted prefix [] [a] (a :: b :: r) = if str_eqb [a] [bsl] then (prefix ++ [], [bsl], lstrip_sep (a :: b :: r)) else (prefix ++ [], [], a :: b :: r))
        by exact (rooted_cpython prefix (a :: b :: r)).
      transitivity (rooted prefix [] [a] (a :: b :: r)); [clear Z|exact Z]. destruct (find_char colon (a :: b :: r)) as [i|] eqn:C; [|reflexivity].
      destruct (match find_char bsl (a :: b :: r) with None => true | Some index2 => Nat.ltb i index2 end); [|reflexivity].
      destruct (has_drive (firstn i (a :: b :: r)) drive_letters) eqn:H; [|reflexivity]. exfalso.
      destruct i as [|[|i]]; try discriminate F. cbn [firstn] in H. rewrite has_letter in H. rewrite H, andb_true_r in D.
      apply find_some in C as [C _]. cbn in C. injection C as C. rewrite C, N.eqb_refl in D. discriminate D.
Qed.

Definition stripped (s : str) : str * str :=
  if (str_eqb (slice 1 2 s) [bsl] && str_eqb (slice 0 1 s) [bsl])%bool then extended s else ([], s).
Lemma one_eqb (a c : N) : str_eqb [a] [c] = N.eqb a c.
Proof. apply eq_true_iff_eq. rewrite str_eqb_eq, N.eqb_eq. split; congruence. Qed.
Lemma stripped_cpython s : stripped s = match s with a :: b :: _ => if (N.eqb a bsl && N.eqb b bsl)%bool then extended s else ([], s) | _ => ([], s) end.
Proof.
  unfold stripped. destruct s as [|a [|b r]]; try reflexivity.
  change (slice 1 2 (a :: b :: r)) with [b]. change (slice 0 1 (a :: b :: r)) with [a]. rewrite !one_eqb, andb_comm. reflexivity.
Qed.
Lemma splitroot_same s : (forall name rest, ~ registered (snd (stripped s)) name rest) -> splitroot s = cpython_splitroot s.
Proof.
  intros NR. unfold splitroot, cpython_splitroot. fold (stripped s). rewrite <- stripped_cpython.
  destruct (stripped s) as [prefix part]. cbn [snd] in NR. pose proof (no_share_same prefix part NR) as NS.
  destruct part as [|a [|b r]]; [exact NS|exact NS|].
  change (slice 1 2 (a :: b :: r)) with [b]. change (slice 0 1 (a :: b :: r)) with [a]. change (slice 2 3 (a :: b :: r)) with (firstn 1 r).
  rewrite !one_eqb, (andb_comm (N.eqb b bsl)). destruct (_ && _ && _)%bool; [|exact NS].
  unfold find_from at 1. change (skipn 2 (a :: b :: r)) with r. destruct (find_char bsl r) as [i|] eqn:I; [|exact NS].
  change (option_map (Nat.add 2) (Some i)) with (Some (2 + i)). cbv iota.
  unfold find_from. replace (2 + i + 1) with (S (S (i + 1))) by lia. change (skipn (S (S (i + 1))) (a :: b :: r)) with (skipn (i + 1) r).
  destruct (find_char bsl (skipn (i + 1) r)) as [j|] eqn:J.
  - cbn [option_map]. destruct j as [|j].
    + rewrite Nat.add_0_r, Nat.eqb_refl. exact NS.
    + replace (Nat.eqb (S (S (i + 1)) + S j) (S (S (i + 1)))) with false by (symmetry; apply Nat.eqb_neq; lia).
      replace (S (S (i + 1)) + S j) with (i + S j + 3) by lia. destruct prefix; reflexivity.
  - cbn [option_map]. assert (SK : skipn (length (a :: b :: r) + 1) (a :: b :: r) = []) by (apply skipn_all2; lia). rewrite SK.
    destruct prefix as [|c prefix].
    + rewrite firstn_all. reflexivity.
    + change (str_eqb (c :: prefix) []) with false. cbv iota. unfold slice. cbn [length skipn tl]. rewrite firstn_all2 by (cbn; lia). reflexivity.
Qed.
Lemma splitroot_registered s name rest : registered (snd (stripped s)) name rest ->
  splitroot s = (fst (stripped s) ++ name, [], colon :: rest).
Proof.
  intros R. unfold splitroot. fold (stripped s). destruct (stripped s) as [prefix part]. cbn [fst snd] in *.
  pose proof (no_share_registered prefix part name rest R) as NS. destruct R as [R P]. destruct (registry_name name R) as (L & C & B).
  destruct name as [|x [|y name]]; try discriminate L. rewrite P at 1. change (slice 1 2 ((x :: y :: name) ++ colon :: rest)) with [y].
  rewrite one_eqb. destruct (N.eqb_spec y bsl) as [->|D]; [destruct B; right; now left|exact NS].
Qed.
(** What is stripped *)
Lemma startswith_iff s p : startswith s p = true <-> exists r, s = p ++ r.
Proof. apply startswith_spec. Qed.
Lemma stripped_registered s name rest : registered (snd (stripped s)) name rest <-> in_registry s (fst (stripped s)) name rest.
Proof.
  unfold registered, in_registry. split.
  - intros [R P]. split; [exact R|]. rewrite stripped_cpython in *. destruct s as [|a [|b r]]; [split; [now left|exact P]|split; [now left|exact P]|].
    destruct (N.eqb a bsl && N.eqb b bsl)%bool; [|split; [now left|exact P]].
    unfold extended in *. fold long in *. destruct (startswith (a :: b :: r) long) eqn:S; [|split; [now left|exact P]].
    apply startswith_iff in S as (t & S). rewrite S in *. change (skipn 4 (long ++ t)) with t in *. change (firstn 4 (long ++ t)) with long in *.
    destruct (startswith t ($"UNC" ++ [bsl])).
    + exfalso. cbn [snd] in P. destruct (registry_name name R) as (L & _ & B). destruct name; [discriminate L|]. injection P as P _. apply B. left. symmetry. exact P.
    + cbn [fst snd] in *. split; [now right|]. now rewrite P.
  - intros (R & Q & P). split; [exact R|]. rewrite stripped_cpython in *. destruct s as [|a [|b r]].
    + destruct Q as [Q|Q]; [|discriminate Q]. cbn [fst] in *. exact P.
    + exact P.
    + destruct (N.eqb a bsl && N.eqb b bsl)%bool; [|exact P]. unfold extended in *. fold long in *.
      destruct (startswith (a :: b :: r) long) eqn:S; [|exact P].
      apply startswith_iff in S as (t & S). rewrite S in *. change (skipn 4 (long ++ t)) with t in *. change (firstn 4 (long ++ t)) with long in *.
      destruct (startswith t ($"UNC" ++ [bsl])) eqn:U.
      * exfalso. apply startswith_iff in U as (u & ->). destruct Q as [Q|Q]; vm_compute in Q; discriminate Q.
      * cbn [fst snd] in *. apply app_inv_head in P. exact P.
Qed.
Lemma registry_stripped s pre name rest : in_registry s pre name rest -> pre = fst (stripped s).
Proof.
  intros (R & Q & ->). change (In name registry_drives) in R. destruct (registry_name name R) as (L & _ & B).
  destruct name as [|x [|y name]]; try discriminate L. destruct Q as [-> | ->].
  - rewrite stripped_cpython. cbn [app]. destruct (N.eqb_spec x bsl) as [->|D]; [destruct B; now left|reflexivity].
  - rewrite stripped_cpython. cbn [long app]. change (N.eqb bsl bsl && N.eqb bsl bsl)%bool with true. cbv iota. unfold extended.
    change (startswith _ [bsl; bsl; chr "?"; bsl]) with true. cbv iota. cbn [skipn].
    destruct R as [R|[R|[R|[R|[]]]]]; injection R as <- <- <-; reflexivity.
Qed.
Lemma registry_exact s :
  (forall pre name rest, in_registry s pre name rest -> splitroot s = (pre ++ name, [], [colon] ++ rest)) /\
  (splitroot s = cpython_splitroot s <-> forall pre name rest, ~ in_registry s pre name rest).
Proof.
  assert (A : forall pre name rest, in_registry s pre name rest -> splitroot s = (pre ++ name, [], [colon] ++ rest)).
  { intros pre name rest H. pose proof (registry_stripped _ _ _ _ H) as ->. now apply splitroot_registered, stripped_registered. }
  split; [exact A|]. split.
  - intros E pre name rest H. specialize (A _ _ _ H). rewrite A in E. clear A.
    destruct H as (R & Q & ->). destruct R as [<-|[<-|[<-|[<-|[]]]]]; destruct Q as [-> | ->]; vm_compute in E; discriminate E.
  - intros N. apply splitroot_same. intros name rest R. apply stripped_registered in R. exact (N _ _ _ R).
Qed.

(** ** Nothing of the text is lost but separators *)
Lemma lstrip_split s : exists k, s = repeat bsl k ++ lstrip_sep s /\ (forall c r, s = c :: r -> c = bsl -> 1 <= k) /\ startswith (lstrip_sep s) [bsl] = false.
Proof.
  induction s as [|c r (k & E & _ & N)]; [exists 0; split; [reflexivity|]; split; [discriminate|reflexivity]|]. cbn [lstrip_sep]. destruct (N.eqb_spec c bsl) as [->|D].
  - exists (S k). split; [cbn; now f_equal|]. split; [intros; lia|exact N].
  - exists 0. split; [reflexivity|]. split; [congruence|]. apply not_true_iff_false. intros K.
    apply startswith_iff in K as (t & K). injection K as K _. contradiction.
Qed.
(** What it is cut into, for a part that stands after [prefix] *)
Definition cut (part drv root rest : str) : Prop :=
  exists k, part = drv ++ repeat bsl k ++ rest /\ (root = [] /\ k = 0 \/ root = [bsl] /\ 1 <= k).
Lemma rooted_cut prefix drv part part' : part = drv ++ part' ->
  exists root rest, rooted prefix drv (slice 0 1 part') part' = (prefix ++ drv, root, rest) /\ cut part drv root rest.
Proof.
  intros ->. unfold rooted, slice. cbn [Nat.sub skipn]. destruct (str_eqb (firstn 1 part') [bsl]) eqn:E.
  - apply str_eqb_eq in E. destruct part' as [|c r]; [discriminate E|]. cbn in E. injection E as ->.
    destruct (lstrip_split (bsl :: r)) as (k & K & P & _). exists [bsl], (lstrip_sep (bsl :: r)). split; [reflexivity|].
    exists k. split; [now rewrite <- K|]. right. split; [reflexivity|]. exact (P _ _ eq_refl eq_refl).
  - exists [], part'. split; [reflexivity|]. exists 0. split; [reflexivity|now left].
Qed.
Lemma no_share_cut prefix part : exists drv root rest, no_share prefix part = (prefix ++ drv, root, rest) /\ cut part drv root rest /\
  (drv = [] \/ startswith part [bsl] = false).
Proof.
  assert (Z : exists drv root rest, rooted prefix [] (slice 0 1 part) part = (prefix ++ drv, root, rest) /\ cut part drv root rest /\
    (drv = [] \/ startswith part [bsl] = false)).
  { destruct (rooted_cut prefix [] part part eq_refl) as (root & rest & E & C). exists [], root, rest. split; [exact E|]. split; [exact C|now left]. }
  unfold no_share. destruct (_ && _)%bool eqn:D.
  - apply andb_true_iff in D as [D1 D2]. destruct part as [|a [|b r]]; try discriminate D1.
    destruct (rooted_cut prefix [a; b] (a :: b :: r) r eq_refl) as (root & rest & E & C). exists [a; b], root, rest.
    split; [exact E|]. split; [exact C|]. right. destruct (startswith (a :: b :: r) [bsl]) eqn:S; [|reflexivity].
    apply startswith_iff in S as (t & S). injection S as -> _. discriminate D2.
  - destruct (find_char colon part) as [i|] eqn:C; [|exact Z].
    destruct (match find_char bsl part with None => true | Some index2 => Nat.ltb i index2 end) eqn:B; [|exact Z].
    destruct (has_drive (firstn i part) drive_letters); [|exact Z].
    destruct (rooted_cut prefix (firstn i part) part (skipn i part) (eq_sym (firstn_skipn i part))) as (root & rest & E & K).
    exists (firstn i part), root, rest. split; [exact E|]. split; [exact K|]. right. destruct (startswith part [bsl]) eqn:S; [|reflexivity].
    apply startswith_iff in S as (t & ->). cbn [app find_char] in B. change (N.eqb bsl bsl) with true in B. cbv iota in B. apply Nat.ltb_lt in B. lia.
Qed.
Lemma stripped_text s : startswith s (long ++ [bsl; bsl]) = false ->
  (s = fst (stripped s) ++ snd (stripped s) /\ (fst (stripped s) = [] \/ startswith (snd (stripped s)) [bsl; bsl] = false)) \/
  (exists r, s = fst (stripped s) ++ bsl :: r /\ snd (stripped s) = bsl :: bsl :: r /\ fst (stripped s) <> []).
Proof.
  intros G. rewrite stripped_cpython. destruct s as [|a [|b r]]; [left; split; [reflexivity|now left]|left; split; [reflexivity|now left]|].
  destruct (N.eqb a bsl && N.eqb b bsl)%bool; [|left; split; [reflexivity|now left]]. unfold extended. fold long.
  destruct (startswith (a :: b :: r) long) eqn:S; [|left; split; [reflexivity|now left]].
  apply startswith_iff in S as (t & S). rewrite S in *. change (skipn 4 (long ++ t)) with t. change (firstn 4 (long ++ t)) with long.
  destruct (startswith t ($"UNC" ++ [bsl])) eqn:U.
  - apply startswith_iff in U as (u & ->). right. exists u. cbn [fst snd]. split; [reflexivity|]. split; [reflexivity|discriminate].
  - left. cbn [fst snd]. split; [reflexivity|]. right. destruct (startswith t [bsl; bsl]) eqn:V; [|reflexivity].
    apply startswith_iff in V as (v & ->). rewrite <- not_true_iff_false in G. destruct G. apply startswith_iff. now exists v.
Qed.
Lemma no_share_text s : startswith s (long ++ [bsl; bsl]) = false ->
  exists drv root rest k, no_share (fst (stripped s)) (snd (stripped s)) = (drv, root, rest) /\ s = drv ++ repeat bsl k ++ rest /\
    (root = [] /\ k = 0 \/ root = [bsl] /\ 1 <= k).
Proof.
  intros G. destruct (no_share_cut (fst (stripped s)) (snd (stripped s))) as (drv & root & rest & E & (k & P & Q) & D). rewrite E.
  destruct (stripped_text s G) as [[S _]|(r & S & T & _)].
  - exists (fst (stripped s) ++ drv), root, rest, k. split; [reflexivity|]. split; [|exact Q]. rewrite S at 1. rewrite P at 1. now rewrite <- !app_assoc.
  - assert (drv = []) as ->. { destruct D as [D|D]; [exact D|]. rewrite T in D. cbn in D. discriminate D. }
    cbn [app] in P. rewrite T in P.
    destruct k as [|[|k]].
    + exfalso. assert (K : exists c, no_share (fst (stripped s)) (bsl :: bsl :: r) = (c, [bsl], lstrip_sep (bsl :: bsl :: r))).
      { unfold no_share. change (slice 1 2 (bsl :: bsl :: r)) with [bsl]. change (str_eqb [bsl] [colon]) with false. cbn [andb].
        assert (F : forall o, (match find_char colon (bsl :: bsl :: r) with Some i => if match find_char bsl (bsl :: bsl :: r) with None => true | Some j => Nat.ltb i j end then o i else rooted (fst (stripped s)) [] (slice 0 1 (bsl :: bsl :: r)) (bsl :: bsl :: r) | None => rooted (fst (stripped s)) [] (slice 0 1 (bsl :: bsl :: r)) (bsl :: bsl :: r) end) = rooted (fst (stripped s)) [] (slice 0 1 (bsl :: bsl :: r)) (bsl :: bsl :: r)).
        { intros o. destruct (find_char colon (bsl :: bsl :: r)); reflexivity. }
        rewrite F. eexists. reflexivity. }
      destruct K as (c & K). rewrite T, K in E. injection E as _ E _. destruct Q as [[Q _]|[_ Q]]; [congruence|lia].
    + exfalso. destruct Q as [[_ Q]|[-> _]]; [discriminate Q|]. cbn in P. injection P as P.
      assert (K : exists c, no_share (fst (stripped s)) (bsl :: bsl :: r) = (c, [bsl], lstrip_sep (bsl :: bsl :: r))).
      { unfold no_share. change (slice 1 2 (bsl :: bsl :: r)) with [bsl]. change (str_eqb [bsl] [colon]) with false. cbn [andb].
        destruct (find_char colon (bsl :: bsl :: r)); eexists; reflexivity. }
      destruct K as (c & K). rewrite T, K in E. injection E as _ E. destruct (lstrip_split (bsl :: bsl :: r)) as (m & _ & _ & N). change (lstrip_sep (bsl :: bsl :: r)) with (lstrip_sep r) in N. rewrite E in N.
      rewrite <- P in N. discriminate N.
    + exists (fst (stripped s) ++ []), root, rest, (Datatypes.S k). split; [reflexivity|]. rewrite app_nil_r. split.
      * rewrite S at 1. cbn in P. injection P as P. cbn. now rewrite P.
      * destruct Q as [[_ Q]|[Q _]]; [discriminate Q|]. right. split; [exact Q|lia].
Qed.
Lemma share_text part (e : nat) : nth_error part e = Some bsl \/ e = length part ->
  exists k, part = firstn e part ++ repeat bsl k ++ skipn (e + 1) part /\ (1 <= k \/ skipn (e + 1) part = []).
Proof.
  intros [H| ->].
  - exists 1. split; [|left; lia]. apply nth_error_split in H as (a & b & -> & <-).
    rewrite firstn_app, firstn_all, Nat.sub_diag. cbn [firstn]. rewrite app_nil_r. rewrite skipn_app, (skipn_all2 a) by lia.
    replace (length a + 1 - length a) with 1 by lia. reflexivity.
  - exists 0. rewrite firstn_all, skipn_all2 by lia. split; [cbn; now rewrite app_nil_r|now right].
Qed.
Lemma find_from_nth c s i j : find_from c s i = Some j -> nth_error s j = Some c /\ i <= j.
Proof.
  unfold find_from. destruct (find_char c (skipn i s)) as [k|] eqn:E; [|discriminate]. intros K. injection K as <-. split; [|lia].
  pose proof (find_len _ _ _ E) as L. apply find_some in E as [E _]. rewrite <- (firstn_skipn i s). rewrite skipn_length in L.
  rewrite nth_error_app2; rewrite firstn_length_le by lia; [|lia]. replace (i + k - i) with k by lia. rewrite E.
  rewrite nth_error_app2; rewrite firstn_length_le by (rewrite skipn_length; lia); [|lia]. now rewrite Nat.sub_diag.
Qed.
Lemma splitroot_text s drv root rest : startswith s (long ++ [bsl; bsl]) = false -> splitroot s = (drv, root, rest) ->
  exists k, s = drv ++ repeat bsl k ++ rest /\ (root = [] /\ k = 0 \/ root = [bsl] /\ (1 <= k \/ rest = [])).
Proof.
  intros G H. pose proof (no_share_text s G) as (d & ro & re & k & E & S & Q).
  assert (NS : no_share (fst (stripped s)) (snd (stripped s)) = (drv, root, rest) ->
    exists k, s = drv ++ repeat bsl k ++ rest /\ (root = [] /\ k = 0 \/ root = [bsl] /\ (1 <= k \/ rest = []))).
  { intros K. rewrite K in E. injection E as <- <- <-. exists k. split; [exact S|]. destruct Q as [Q|[Q1 Q2]]; [now left|right; split; [exact Q1|now left]]. }
  clear d ro re k E S Q. unfold splitroot in H. fold (stripped s) in H. pose proof (stripped_text s G) as ST.
  destruct (stripped s) as [prefix part]. cbn [fst snd] in *.
  destruct (str_eqb (slice 1 2 part) [bsl] && str_eqb (slice 0 1 part) [bsl] && negb (str_eqb (slice 2 3 part) [bsl]))%bool eqn:B; [|exact (NS H)].
  apply andb_true_iff in B as [B _]. apply andb_true_iff in B as [B1 B2]. destruct part as [|a [|b r]]; try discriminate B1.
  change (str_eqb [b] [bsl] = true) in B1. change (str_eqb [a] [bsl] = true) in B2. rewrite one_eqb in B1, B2. apply N.eqb_eq in B1, B2. subst a b.
  destruct (find_from bsl (bsl :: bsl :: r) 2) as [i|]; [|exact (NS H)].
  assert (SH : forall e, nth_error (bsl :: bsl :: r) e = Some bsl \/ e = length (bsl :: bsl :: r) -> 2 <= e ->
    match prefix with
    | _ :: _ => (prefix ++ slice 1 e (bsl :: bsl :: r), [bsl], skipn (e + 1) (bsl :: bsl :: r))
    | [] => (firstn e (bsl :: bsl :: r), [bsl], skipn (e + 1) (bsl :: bsl :: r)) end = (drv, root, rest) ->
    exists k, s = drv ++ repeat bsl k ++ rest /\ (root = [] /\ k = 0 \/ root = [bsl] /\ (1 <= k \/ rest = []))).
  { intros e He He2 K. destruct (share_text _ e He) as (k & P & Q). destruct ST as [[S V]|(r' & S & T & NE)].
    - destruct prefix as [|c prefix]; [|destruct V as [V|V]; [discriminate V|cbn in V; discriminate V]].
      injection K as <- <- <-. cbn in S. subst s. exists k. split; [exact P|]. right. split; [reflexivity|exact Q].
    - injection T as ->. destruct prefix as [|c prefix]; [congruence|]. injection K as <- <- <-. exists k. split; [|right; split; [reflexivity|exact Q]].
      change (c :: prefix ++ slice 1 e (bsl :: bsl :: r')) with ((c :: prefix) ++ slice 1 e (bsl :: bsl :: r')).
      rewrite <- app_assoc. rewrite S at 1. f_equal. destruct e as [|e]; [lia|]. cbn [firstn app] in P. apply (f_equal (@tl N)) in P. cbn [tl] in P.
      unfold slice. change (skipn 1 (bsl :: bsl :: r')) with (bsl :: r').
      replace (Datatypes.S e - 1) with e by lia. exact P. }
  destruct (find_from bsl (bsl :: bsl :: r) (i + 1)) as [j|] eqn:J.
  - destruct (Nat.eqb j (i + 1)) eqn:EQ; [exact (NS H)|]. apply find_from_nth in J as [J1 J2]. apply Nat.eqb_neq in EQ.
    refine (SH j (or_introl J1) _ H). lia.
  - refine (SH _ (or_intror eq_refl) _ H). cbn. lia.
Qed.
