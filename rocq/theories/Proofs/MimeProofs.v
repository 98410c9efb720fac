(** * Lemmas on the types of files *)
From Coq Require Import String NArith ZArith Bool List Lia.
From Verif Require Import Model.Py Model.PurePath Model.Fs Model.PathOps Model.DataDir Model.Mime Spec.FsSpec Spec.LoopSpec Spec.MimeSpec.
From Verif Require Import Proofs.PyLemmas Proofs.RunLemmas Proofs.FsLemmas.
From Verif Require Proofs.RmdirtreeProofs.
Import ListNotations.

(** ** Texts *)
Lemma last_at_none c : forall s, last_at c s = None <-> ~ In c s.
Proof.
  induction s as [|x s IH]; [now split|]. cbn [last_at In]. destruct (last_at c s) as [[a b]|].
  - split; [discriminate|]. intro H. assert (X : ~ In c s) by tauto. apply (proj2 IH) in X. discriminate.
  - destruct (N.eqb_spec x c) as [->|D]; [split; [discriminate|tauto]|]. split; [|reflexivity]. intros _ [X|X]; [contradiction|]. now apply IH.
Qed.
Lemma last_at_some c : forall s a b, last_at c s = Some (a, b) <-> exists r, b = c :: r /\ s = a ++ b /\ ~ In c r.
Proof.
  induction s as [|x s IH]; intros a b.
  - split; [discriminate|]. intros (r & -> & E & _). now destruct a.
  - cbn [last_at]. destruct (last_at c s) as [[a' b']|] eqn:L.
    + split.
      * intro H. injection H as <- <-. destruct (proj1 (IH a' b') eq_refl) as (r & -> & -> & N0). now exists r.
      * intros (r & -> & E & N0). destruct a as [|y a]; cbn [app] in E; injection E as -> ->.
        -- apply last_at_none in N0. congruence.
        -- assert (X : Some (a', b') = Some (a, c :: r)) by (apply IH; now exists r). injection X as -> ->. reflexivity.
    + apply last_at_none in L. destruct (N.eqb_spec x c) as [->|D].
      * split; [intro H; injection H as <- <-; now exists s|]. intros (r & -> & E & N0). destruct a as [|y a]; cbn [app] in E; [now injection E as ->|]. injection E as _ E.
        destruct L. rewrite E. apply in_app_iff. right. now left.
      * split; [discriminate|]. intros (r & -> & E & N0). destruct a as [|y a]; cbn [app] in E; [injection E as -> _; now destruct D|]. injection E as _ E. destruct L. rewrite E. apply in_app_iff. right. now left.
Qed.
Lemma has_in c s : has c s = true <-> In c s.
Proof.
  unfold has. rewrite existsb_exists. split; [intros (x & I & E); apply N.eqb_eq in E; now subst|]. intro I. exists c. split; [assumption|apply N.eqb_refl].
Qed.

(** ** Quoting *)
Lemma hex_ge n : (48 <= hex_digit n)%N.
Proof. unfold hex_digit. destruct (N.ltb n 10); lia. Qed.
Lemma escape_out b c : (c = 46 \/ c = 47)%N -> ~ In c (escape b).
Proof.
  intros C I. cbn [escape In] in I. pose proof (hex_ge (b / 16)). pose proof (hex_ge (b mod 16)). change (chr "%") with 37%N in I. destruct I as [I|[I|[I|[]]]]; lia.
Qed.
Lemma quote1_out x c : (c = 46 \/ c = 47)%N -> x <> c -> ~ In c (quote1 x).
Proof.
  intros C D. unfold quote1. destruct (safe x); [intros [I|[]]; contradiction|]. intro I. apply in_flat_map in I. destruct I as (b & _ & I). exact (escape_out b c C I).
Qed.
Lemma quote1_dot : quote1 (chr ".") = [chr "."]. Proof. reflexivity. Qed.
Lemma quote1_self c : (c = 46 \/ c = 47)%N -> quote1 c = [c].
Proof. intros [->| ->]; reflexivity. Qed.
Lemma quote_app a b : quote (a ++ b) = quote a ++ quote b. Proof. apply flat_map_app. Qed.
Lemma quote_in c s : (c = 46 \/ c = 47)%N -> In c (quote s) <-> In c s.
Proof.
  intro C. unfold quote. rewrite in_flat_map. split.
  - intros (x & I & J). destruct (N.eq_dec x c) as [->|D]; [assumption|]. destruct (quote1_out x c C D J).
  - intro I. exists c. split; [assumption|]. rewrite (quote1_self c C). now left.
Qed.
Lemma quote_last c s : (c = 46 \/ c = 47)%N -> last_at c (quote s) = match last_at c s with Some (a, b) => Some (quote a, quote b) | None => None end.
Proof.
  intro C. destruct (last_at c s) as [[a b]|] eqn:L.
  - apply last_at_some in L. destruct L as (r & -> & -> & N0). apply last_at_some. exists (quote r). rewrite quote_app. split; [|split; [reflexivity|now rewrite quote_in]].
    change (c :: r) with ([c] ++ r). rewrite quote_app. unfold quote at 1. cbn [flat_map]. now rewrite (quote1_self c C).
  - apply last_at_none in L. apply last_at_none. now rewrite quote_in.
Qed.
Lemma fs_bytes_some c : exists b r, fs_bytes c = b :: r.
Proof.
  unfold fs_bytes, utf8_enc1. destruct (_ && _)%bool; [eauto|]. destruct (N.ltb c 128), (N.ltb c 2048), (N.ltb c 65536); eauto.
Qed.
Lemma quote_nondot s : existsb (fun c => negb (N.eqb c (chr "."))) (quote s) = existsb (fun c => negb (N.eqb c (chr "."))) s.
Proof.
  unfold quote. induction s as [|x s IH]; [reflexivity|]. cbn [flat_map]. rewrite existsb_app, IH. change (existsb ?f (x :: s)) with (f x || existsb f s)%bool. f_equal. unfold quote1. destruct (safe x) eqn:E.
  - cbn [existsb]. now rewrite orb_false_r.
  - destruct (fs_bytes_some x) as (b & r & ->). cbn [flat_map app escape existsb]. change (negb (N.eqb (chr "%") (chr "."))) with true. cbn [orb].
    destruct (N.eqb_spec x (chr ".")) as [->|D]; [discriminate|reflexivity].
Qed.
Lemma has_quote s : has (chr "/") (quote s) = has (chr "/") s.
Proof. apply eq_true_iff_eq. rewrite !has_in. apply quote_in. now right. Qed.
Lemma quote_tl c b : (c = 46 \/ c = 47)%N -> tl (quote (c :: b)) = quote b.
Proof. intro C. unfold quote. cbn [flat_map]. now rewrite (quote1_self c C). Qed.
Lemma splitext_quote p : splitext (quote p) = (quote (fst (splitext p)), quote (snd (splitext p))).
Proof.
  unfold splitext. rewrite (quote_last (chr ".")) by now left. destruct (last_at (chr ".") p) as [[b e]|]; [|reflexivity]. rewrite has_quote. destruct (has (chr "/") e); [reflexivity|].
  rewrite (quote_last (chr "/")) by now right. destruct (last_at (chr "/") b) as [[d t]|] eqn:L.
  - apply last_at_some in L. destruct L as (r & -> & _). rewrite quote_tl by now right. cbn [tl]. rewrite quote_nondot. now destruct (existsb _ r).
  - rewrite quote_nondot. now destruct (existsb _ b).
Qed.

(** ** Plain texts *)
Lemma quote_plain s : plain_text s -> quote s = s.
Proof.
  unfold quote. induction s as [|x s IH]; intro H; [reflexivity|]. cbn [flat_map]. rewrite IH by (intros c I; apply H; now right). unfold quote1. now rewrite (H x (or_introl eq_refl)).
Qed.
Lemma plain_dec s : {plain_text s} + {~ plain_text s}.
Proof.
  destruct (forallb safe s) eqn:E; [left; intros c I; rewrite forallb_forall in E; now apply E|right]. intro H. assert (X : forallb safe s = true) by (apply forallb_forall; exact H). congruence.
Qed.
Lemma low_cases c : (low c = c /\ (c < 65 \/ 90 < c)%N) \/ (low c = (c + 32)%N /\ (65 <= c <= 90)%N).
Proof. unfold low. destruct (N.leb_spec 65 c), (N.leb_spec c 90); cbn [andb]; (left; split; [reflexivity|lia]) || (right; split; [reflexivity|lia]). Qed.
Lemma low_safe c : safe (low c) = safe c.
Proof.
  destruct (low_cases c) as [(-> & _)|(-> & L)]; [reflexivity|]. unfold safe. apply eq_true_iff_eq.
  assert (A : (N.leb 65 c && N.leb c 90)%bool = true) by (apply andb_true_iff; rewrite !N.leb_le; lia). assert (B : (N.leb 97 (c + 32) && N.leb (c + 32) 122)%bool = true) by (apply andb_true_iff; rewrite !N.leb_le; lia).
  rewrite A, B. cbn [orb]. rewrite orb_true_r. cbn [orb]. tauto.
Qed.
Lemma low_plain s : plain_text (map low s) <-> plain_text s.
Proof.
  unfold plain_text. split; intros H c I.
  - rewrite <- low_safe. apply H. now apply in_map.
  - apply in_map_iff in I. destruct I as (x & <- & I). rewrite low_safe. now apply H.
Qed.
Lemma quoted_not_plain s : ~ plain_text s -> ~ plain_text (quote s).
Proof.
  intros H P. apply H. intros c I. destruct (safe c) eqn:E; [reflexivity|]. assert (X : In (chr "%") (quote s)).
  { unfold quote. apply in_flat_map. exists c. split; [assumption|]. unfold quote1. rewrite E. destruct (fs_bytes_some c) as (b & r & ->). now left. }
  apply P in X. vm_compute in X. discriminate.
Qed.
Lemma low_twice s : map low (quote (map low s)) = map low (quote s).
Proof.
  unfold quote. induction s as [|x s IH]; [reflexivity|]. cbn [map flat_map]. rewrite !map_app, IH. f_equal. clear IH. unfold quote1. rewrite low_safe. destruct (low_cases x) as [(-> & _)|(L & R)]; [reflexivity|].
  assert (S0 : safe x = true) by (unfold safe; assert (A : (N.leb 65 x && N.leb x 90)%bool = true) by (apply andb_true_iff; rewrite !N.leb_le; lia); now rewrite A). rewrite S0. cbn [map]. f_equal.
  rewrite L. unfold low at 1. destruct (N.leb_spec 65 (x + 32)), (N.leb_spec (x + 32) 90); cbn [andb]; try reflexivity. lia.
Qed.
Definition plain_keys (t : list (str * str)) : bool := forallb (fun e => forallb safe (fst e)) t.
Lemma table_plain t k v : plain_keys t = true -> in_table t k = Some v -> plain_text k.
Proof.
  unfold in_table. intros H E. destruct (find _ t) as [[k' v']|] eqn:F; [|discriminate]. apply find_some in F. destruct F as (I & F). cbn [fst] in F. apply str_eqb_eq in F. subst k'.
  unfold plain_keys in H. rewrite forallb_forall in H. apply H in I. cbn [fst] in I. rewrite forallb_forall in I. exact I.
Qed.
Lemma table_quote t e : plain_keys t = true -> in_table t (quote e) = in_table t e.
Proof.
  intro H. destruct (plain_dec e) as [P|P]; [now rewrite (quote_plain e P)|]. destruct (in_table t (quote e)) eqn:A; [apply (table_plain t _ _ H) in A; now destruct (quoted_not_plain e P)|].
  destruct (in_table t e) eqn:B; [apply (table_plain t _ _ H) in B; contradiction|reflexivity].
Qed.
Lemma table_low t e : plain_keys t = true -> in_table t (map low (quote e)) = in_table t (map low e).
Proof.
  intro H. destruct (plain_dec e) as [P|P]; [now rewrite (quote_plain e P)|]. destruct (in_table t (map low (quote e))) eqn:A.
  - apply (table_plain t _ _ H) in A. apply (proj1 (low_plain _)) in A. now destruct (quoted_not_plain e P).
  - destruct (in_table t (map low e)) eqn:B; [apply (table_plain t _ _ H) in B; apply (proj1 (low_plain _)) in B; contradiction|reflexivity].
Qed.
Lemma values_plain k x : in_table suffix_map k = Some x -> plain_text x /\ ~ In (chr "/") x.
Proof.
  unfold in_table. destruct (find _ suffix_map) as [[k' v]|] eqn:F; [|discriminate]. intro H. injection H as <-. apply find_some in F. destruct F as (I & _).
  assert (V : forallb (fun e => forallb safe (snd e) && negb (has (chr "/") (snd e)))%bool suffix_map = true) by reflexivity. rewrite forallb_forall in V. apply V in I. cbn [snd] in I. apply andb_true_iff in I. destruct I as (I & J).
  split; [intros c Ic; rewrite forallb_forall in I; now apply I|]. intro X. apply has_in in X. now rewrite X in J.
Qed.
Lemma expand_quote b e : expand (quote b, quote e) = (quote (fst (expand (b, e))), quote (snd (expand (b, e)))).
Proof.
  unfold expand. cbn [fst snd]. rewrite table_low by reflexivity. destruct (in_table suffix_map (map low e)) as [x|] eqn:E; [|reflexivity].
  destruct (values_plain _ _ E) as (P & _). rewrite <- (quote_plain x P) at 1. rewrite <- quote_app, splitext_quote. reflexivity.
Qed.
Lemma guess_quote types s : guess types (quote s) = guess (fun k => types (map low (quote k))) s.
Proof.
  unfold guess. rewrite splitext_quote, expand_quote. rewrite <- (surjective_pairing (splitext s)). destruct (expand (splitext s)) as [b e]. cbn [fst snd]. rewrite table_quote by reflexivity. destruct (in_table encodings_map e).
  - rewrite splitext_quote. cbn [snd]. now rewrite low_twice.
  - now rewrite low_twice.
Qed.

(** ** The last part of a path *)
Lemma splitext_dir d n : ~ In (chr "/") n -> splitext (d ++ chr "/" :: n) = (d ++ chr "/" :: fst (splitext n), snd (splitext n)).
Proof.
  intro H. unfold splitext. destruct (last_at (chr ".") n) as [[b e]|] eqn:L.
  - apply last_at_some in L. destruct L as (r & -> & -> & N0).
    assert (E : last_at (chr ".") (d ++ chr "/" :: b ++ chr "." :: r) = Some (d ++ chr "/" :: b, chr "." :: r)).
    { apply last_at_some. exists r. split; [reflexivity|]. split; [now rewrite <- app_assoc|assumption]. }
    rewrite E. destruct (has (chr "/") (chr "." :: r)) eqn:Hh; [apply has_in in Hh; destruct H; apply in_app_iff; now right|].
    assert (Nb : ~ In (chr "/") b) by (intro I; apply H; apply in_app_iff; now left).
    assert (E2 : last_at (chr "/") (d ++ chr "/" :: b) = Some (d, chr "/" :: b)) by (apply last_at_some; now exists b). rewrite E2. cbn [tl]. rewrite (proj2 (last_at_none _ b) Nb).
    destruct (existsb _ b); [reflexivity|reflexivity].
  - apply last_at_none in L. cbn [fst snd]. destruct (last_at (chr ".") (d ++ chr "/" :: n)) as [[b e]|] eqn:E; [|reflexivity]. apply last_at_some in E. destruct E as (r & -> & E & N0).
    assert (X : In (chr "/") r).
    { apply app_eq_app in E. destruct E as (l & [(E1 & E2)|(E1 & E2)]).
      - destruct l as [|y l]; cbn [app] in E2; [discriminate|]. injection E2 as _ E2. rewrite E2. apply in_app_iff. right. now left.
      - destruct l as [|y l]; cbn [app] in E2; [discriminate|]. injection E2 as _ E2. destruct L. rewrite E2. apply in_app_iff. right. now left. }
    assert (Y : has (chr "/") (chr "." :: r) = true) by (apply has_in; now right). now rewrite Y.
Qed.
Lemma splitext_whole n : n = fst (splitext n) ++ snd (splitext n).
Proof.
  unfold splitext. destruct (last_at (chr ".") n) as [[b e]|] eqn:L; [|now rewrite app_nil_r]. apply last_at_some in L. destruct L as (r & -> & -> & _).
  destruct (has _ _); [now rewrite app_nil_r|]. destruct (existsb _ _); [reflexivity|now rewrite app_nil_r].
Qed.
Lemma part_slash n : ~ In (chr "/") n -> ~ In (chr "/") (fst (splitext n)).
Proof. intros H I. apply H. rewrite (splitext_whole n). apply in_app_iff. now left. Qed.
Lemma guess_dir types d n : ~ In (chr "/") n -> guess types (d ++ chr "/" :: n) = guess types n.
Proof.
  intro H. unfold guess. rewrite (splitext_dir d n H). pose proof (part_slash n H) as Hb. destruct (splitext n) as [b e]. cbn [fst snd] in *.
  assert (E : expand (d ++ chr "/" :: b, e) = (d ++ chr "/" :: fst (expand (b, e)), snd (expand (b, e))) /\ ~ In (chr "/") (fst (expand (b, e)))).
  { unfold expand. cbn [fst snd]. destruct (in_table suffix_map (map low e)) as [x|] eqn:E; [|now split]. destruct (values_plain _ _ E) as (_ & Nx).
    assert (Nb : ~ In (chr "/") (b ++ x)) by (rewrite in_app_iff; tauto). rewrite <- app_assoc. cbn [app]. rewrite (splitext_dir d _ Nb). split; [reflexivity|now apply part_slash]. }
  destruct E as (-> & Nb). destruct (expand (b, e)) as [b' e']. cbn [fst snd] in *. destruct (in_table encodings_map e'); [|reflexivity]. now rewrite (splitext_dir d b' Nb).
Qed.
Lemma join_last (l : list str) (n : str) : exists d, $"/" ++ join $"/" (l ++ [n]) = d ++ chr "/" :: n.
Proof.
  induction l as [|a l (d & IH)]; [now exists []|]. cbn [app]. destruct (l ++ [n]) as [|b r] eqn:E; [now destruct l|].
  change (join $"/" (a :: b :: r)) with (a ++ $"/" ++ join $"/" (b :: r)). rewrite IH. exists ($"/" ++ a ++ d). now rewrite <- !app_assoc.
Qed.
Lemma path_guess types p n : pp_abs p = true -> ends_in p n -> guess_uri types p = guess (fun k => types (map low (quote k))) n.
Proof.
  intros A (l & E & H). unfold guess_uri. rewrite guess_quote. unfold pp_str. rewrite A, E. destruct (join_last l n) as (d & ->). now apply guess_dir.
Qed.

(** ** Tables *)
Lemma seen_table types : plain_table types -> forall k, types (map low (quote k)) = types (map low k).
Proof.
  intros H k. destruct (plain_dec k) as [P|P]; [now rewrite (quote_plain k P)|]. destruct (types (map low (quote k))) eqn:A.
  - assert (X : plain_text (map low (quote k))) by (apply H; congruence). apply (proj1 (low_plain _)) in X. now destruct (quoted_not_plain k P).
  - destruct (types (map low k)) eqn:B; [|reflexivity]. assert (X : plain_text (map low k)) by (apply H; congruence). apply (proj1 (low_plain _)) in X. contradiction.
Qed.
Lemma ext_shape n : snd (splitext n) = [] \/ exists r, snd (splitext n) = chr "." :: r.
Proof.
  unfold splitext. destruct (last_at (chr ".") n) as [[b e]|] eqn:L; [|now left]. apply last_at_some in L. destruct L as (r & -> & _).
  destruct (has _ _); [now left|]. destruct (existsb _ _); [right; now exists r|now left].
Qed.
Lemma plain_ext n : plain_suffixes n -> plain_text (snd (splitext n)).
Proof.
  intro H. destruct (ext_shape n) as [E|(r & E)]; [rewrite E; intros ? []|]. pose proof (splitext_whole n) as W. rewrite E in W. apply H in W. rewrite E. intros c [<-|I]; [reflexivity|now apply W].
Qed.
Lemma plain_base n : plain_suffixes n -> plain_suffixes (fst (splitext n)).
Proof.
  intros H a b E. pose proof (splitext_whole n) as W. rewrite E, <- app_assoc in W. cbn [app] in W. apply H in W. intros c I. apply W. apply in_app_iff. now left.
Qed.
Lemma plain_app b x : plain_suffixes b -> plain_text x -> plain_suffixes (b ++ x).
Proof.
  intros H P a c E. apply app_eq_app in E. destruct E as (l & [(E1 & E2)|(E1 & E2)]).
  - destruct l as [|y l]; cbn [app] in E2.
    + intros z I. apply P. rewrite <- E2. now right.
    + injection E2 as <- ->. intros z I. apply in_app_iff in I. destruct I as [I|I]; [|now apply P]. now apply (H a l E1).
  - intros z I. apply P. rewrite E2. apply in_app_iff. right. now right.
Qed.
Lemma seen_low (types : str -> option str) k : plain_text k -> types (map low (quote (map low k))) = types (map low k).
Proof. intro P. rewrite low_twice. now rewrite (quote_plain k P). Qed.
Lemma guess_readable types n : readable types n -> guess (fun k => types (map low (quote k))) n = guess types n.
Proof.
  intros [H|H].
  - unfold guess. destruct (expand (splitext n)) as [b e]. cbn [fst snd]. destruct (in_table encodings_map e); rewrite low_twice, (seen_table types H); reflexivity.
  - pose proof (plain_ext n H) as Pe. pose proof (plain_base n H) as Pb. unfold guess. destruct (splitext n) as [b e]. cbn [fst snd] in *.
    assert (X : plain_suffixes (fst (expand (b, e))) /\ plain_text (snd (expand (b, e)))).
    { unfold expand. cbn [fst snd]. destruct (in_table suffix_map (map low e)) as [x|] eqn:E; [|now split]. destruct (values_plain _ _ E) as (Px & _).
      pose proof (plain_app b x Pb Px) as Q. split; [now apply plain_base|now apply plain_ext]. }
    destruct X as (Xb & Xe). destruct (expand (b, e)) as [b' e']. cbn [fst snd] in *. destruct (in_table encodings_map e').
    + now rewrite (seen_low types _ (plain_ext b' Xb)).
    + now rewrite (seen_low types _ Xe).
Qed.
(** The loop over the suffixes ends after one round. *)
Lemma expand_once p : in_table suffix_map (map low (snd (expand (splitext p)))) = None.
Proof.
  unfold expand. destruct (in_table suffix_map (map low (snd (splitext p)))) as [x|] eqn:E; [|exact E].
  assert (V : exists y z, x = y ++ chr "." :: z /\ existsb (fun c => negb (N.eqb c (chr "."))) y = true /\ ~ In (chr ".") z /\ ~ In (chr "/") x /\ in_table suffix_map (map low (chr "." :: z)) = None).
  { unfold in_table in E. destruct (find _ suffix_map) as [[k' v]|] eqn:F; [|discriminate]. injection E as <-. apply find_some in F. destruct F as (I & _). cbn [suffix_map In] in I.
    assert (D : forall s c, existsb (N.eqb c) s = false -> ~ In c s). { intros s c Q J. assert (Q' : existsb (N.eqb c) s = true) by (apply existsb_exists; exists c; split; [assumption|apply N.eqb_refl]). congruence. }
    destruct I as [I|[I|[I|[I|[I|[I|[]]]]]]]; injection I as <- <-;
      [exists $".svg", $"gz"|exists $".tar", $"gz"|exists $".tar", $"gz"|exists $".tar", $"gz"|exists $".tar", $"bz2"|exists $".tar", $"xz"];
      (split; [reflexivity|]; split; [reflexivity|]; split; [now apply D|]; split; [now apply D|reflexivity]). }
  destruct V as (y & z & -> & Ny & Nz & Ns & Out). unfold splitext at 1.
  assert (L : last_at (chr ".") (fst (splitext p) ++ y ++ chr "." :: z) = Some (fst (splitext p) ++ y, chr "." :: z)).
  { apply last_at_some. exists z. split; [reflexivity|]. split; [now rewrite <- app_assoc|assumption]. }
  rewrite L. destruct (has (chr "/") (chr "." :: z)) eqn:Hh; [apply has_in in Hh; destruct Ns; apply in_app_iff; now right|].
  assert (T : existsb (fun c => negb (N.eqb c (chr "."))) (match last_at (chr "/") (fst (splitext p) ++ y) with Some (_, t) => tl t | None => fst (splitext p) ++ y end) = true).
  { destruct (last_at (chr "/") (fst (splitext p) ++ y)) as [[d t]|] eqn:E2.
    - apply last_at_some in E2. destruct E2 as (r & -> & E2 & N0). cbn [tl]. apply app_eq_app in E2. destruct E2 as (l & [(E3 & E4)|(E3 & E4)]).
      + destruct l as [|u l]; cbn [app] in E4.
        * destruct Ns. apply in_app_iff. left. rewrite <- E4. now left.
        * injection E4 as _ ->. rewrite existsb_app, Ny. apply orb_true_r.
      + destruct Ns. apply in_app_iff. left. rewrite E4. apply in_app_iff. right. now left.
    - rewrite existsb_app, Ny. apply orb_true_r. }
  rewrite T. exact Out.
Qed.

(** ** Runs *)
Lemma test_says follow p f w : no_fault w -> exists w', same w w' /\
  test (sys_stat follow p) f w = (Ok (match walk (w_fs w) (w_cwd w) follow p with Found _ n => f n | _ => false end), w').
Proof.
  intro N0. destruct (test_run follow p f w N0) as (w' & S0 & E). exists w'. split; [assumption|]. rewrite E. destruct (walk (w_fs w) (w_cwd w) follow p) as [q n|d x|e] eqn:W; try reflexivity.
  unfold walk in W. apply RmdirtreeProofs.walk_fail in W. now rewrite W.
Qed.
Lemma broken_says p w : no_fault w -> exists w', same w w' /\
  p_is_broken_symlink p w = (Ok (match walk (w_fs w) (w_cwd w) false p, walk (w_fs w) (w_cwd w) true p with
                                 | Found _ (Link _), Found _ _ => false
                                 | Found _ (Link _), _ => true
                                 | _, _ => false
                                 end), w').
Proof.
  intro N0. unfold p_is_broken_symlink, bind. destruct (test_says false p (fun n => match n with Link _ => true | _ => false end) w N0) as (w1 & S1 & E1). unfold p_is_symlink. rewrite E1.
  pose proof (no_fault_same _ _ S1 N0) as N1. destruct (test_says true p (fun _ => true) w1 N1) as (w2 & S2 & E2). pose proof S1 as (Ef & Ec & _). rewrite Ef, Ec in E2.
  destruct (walk (w_fs w) (w_cwd w) false p) as [q [d xs|xs es|t]|d x|e]; try (exists w1; split; [assumption|]; now destruct (walk (w_fs w) (w_cwd w) true p)).
  unfold p_exists. rewrite E2. exists w2. split; [exact (same_trans _ _ _ S1 S2)|]. now destruct (walk (w_fs w) (w_cwd w) true p).
Qed.
Lemma place_end fs q n : good_fs fs -> get fs q = Some n -> (forall xs es, n <> Dir xs es) -> ends_in (path_of q) (last q []).
Proof.
  intros (G & (xs & es & Ef)) H Nd. destruct (list_eq_dec (list_eq_dec N.eq_dec) q []) as [->|N0].
  - cbn [get] in H. injection H as <-. now destruct (Nd xs es).
  - destruct (exists_last N0) as (l & x & ->). rewrite last_last. exists l. split; [reflexivity|]. apply (good_names _ _ _ G) in H. apply Forall_app in H. destruct H as (_ & H). inversion_clear H as [|? ? (_ & _ & _ & X) _]. exact X.
Qed.

Section Runs.
Variables (far : node -> place -> ppath -> res ppath) (types : str -> option str) (custom : list str -> option str).
Notation mime := (mimetype far types custom).
Notation enc := (encoding far types).

Lemma kind_of p n : pp_abs p = true -> ends_in p n -> readable types n ->
  match fst (guess_uri types p) with Some m => match m with [] => custom (suffixes (pp_name p)) | _ => Some m end | None => custom (suffixes (pp_name p)) end = kind types custom n /\
  snd (guess_uri types p) = coding types n.
Proof.
  intros A E R. rewrite (path_guess types p n A E), (guess_readable types n R). unfold kind, coding. destruct E as (l & E & _). unfold pp_name. rewrite E, last_last.
  destruct (fst (guess types n)) as [[|c m]|]; now split.
Qed.
Lemma is_dir_no w p : no_fault w -> no_directory (w_fs w) (w_cwd w) p -> exists w', same w w' /\ p_is_dir p w = (Ok false, w').
Proof.
  intros N0 H. destruct (test_says true p (fun n => match n with Dir _ _ => true | _ => false end) w N0) as (w' & S0 & E). exists w'. split; [assumption|]. unfold p_is_dir. rewrite E.
  destruct (walk (w_fs w) (w_cwd w) true p) as [q [d xs|xs es|t]|d x|e] eqn:W; try reflexivity. now apply H in W.
Qed.
Lemma absolute_kind w p n : no_fault w -> pp_abs p = true -> ends_in p n -> readable types n -> no_directory (w_fs w) (w_cwd w) p ->
  (exists w', mime p w = (Ok (kind types custom n), w') /\ same w w') /\ enc p w = (Ok (coding types n), w).
Proof.
  intros N0 A E R D. pose proof (kind_of p n A E R) as (K1 & K2). split.
  - destruct (is_dir_no w p N0 D) as (w1 & S1 & E1). exists w1. split; [|assumption]. unfold mimetype, bind at 1. rewrite E1. rewrite A. unfold bind, ret. now rewrite K1.
  - unfold encoding. rewrite A. unfold bind, ret. now rewrite K2.
Qed.
Lemma directory_kind w p q xs es : no_fault w -> walk (w_fs w) (w_cwd w) true p = Found q (Dir xs es) ->
  exists w', mime p w = (Ok (Some $"inode/directory"), w') /\ same w w'.
Proof.
  intros N0 W. destruct (test_says true p (fun n => match n with Dir _ _ => true | _ => false end) w N0) as (w' & S0 & E). exists w'. split; [|assumption]. unfold mimetype, bind at 1. unfold p_is_dir. rewrite E, W. reflexivity.
Qed.
Lemma resolves w p q : no_fault w -> (exists n, walk (w_fs w) (w_cwd w) true p = Found q n) \/ (exists d x, walk (w_fs w) (w_cwd w) true p = Missing d x /\ q = d ++ [x]) ->
  exists w', p_resolve far p w = (Ok (path_of q), w') /\ same w w'.
Proof.
  intros N0 H. destruct (p_resolve far p w) as [r w'] eqn:E. exists w'. apply ask_inv in E. destruct E as (S0 & E). split; [|assumption].
  destruct E as [-> |(e & _ & F)]; [|rewrite N0 in F; discriminate]. destruct H as [(n & ->)|(d & x & -> & ->)]; reflexivity.
Qed.
(** A relative path is taken to the place it leads to, a broken link excepted. *)
Lemma relative_place w p q : no_fault w -> pp_abs p = false -> no_directory (w_fs w) (w_cwd w) p -> ends_in (path_of q) (last q []) -> readable types (last q []) ->
  (exists n, walk (w_fs w) (w_cwd w) true p = Found q n) \/ (exists d x, walk (w_fs w) (w_cwd w) true p = Missing d x /\ q = d ++ [x] /\ forall q' t, walk (w_fs w) (w_cwd w) false p <> Found q' (Link t)) ->
  (exists w', mime p w = (Ok (kind types custom (last q [])), w') /\ same w w') /\ (exists w', enc p w = (Ok (coding types (last q [])), w') /\ same w w').
Proof.
  intros N0 A D E R H. pose proof (kind_of (path_of q) (last q []) eq_refl E R) as (K1 & K2).
  assert (Rs : forall w', same w w' -> exists w'', p_resolve far p w' = (Ok (path_of q), w'') /\ same w w'').
  { intros w' S'. pose proof (no_fault_same _ _ S' N0) as N'. destruct S' as (Ef & Ec & S'). destruct (resolves w' p q N') as (w'' & E' & S'').
    - rewrite Ef, Ec. destruct H as [H|(d & x & H1 & H2 & _)]; [now left|right; now exists d, x].
    - exists w''. split; [assumption|]. apply (same_trans _ w'); [exact (conj Ef (conj Ec S'))|assumption]. }
  split.
  - destruct (is_dir_no w p N0 D) as (w1 & S1 & E1). unfold mimetype, bind at 1. rewrite E1, A. unfold bind at 1 2. pose proof (no_fault_same _ _ S1 N0) as N1.
    destruct (broken_says p w1 N1) as (w2 & S2 & E2). rewrite E2. destruct S1 as (Ef & Ec & S1). rewrite Ef, Ec. pose proof (same_trans _ _ _ (conj Ef (conj Ec S1)) S2) as S12. destruct (Rs w2 S12) as (w3 & E3 & S3).
    assert (B : match walk (w_fs w) (w_cwd w) false p, walk (w_fs w) (w_cwd w) true p with | Found _ (Link _), Found _ _ => false | Found _ (Link _), _ => true | _, _ => false end = false).
    { destruct H as [(n & ->)|(d & x & -> & _ & H)]; destruct (walk (w_fs w) (w_cwd w) false p) as [q' [? ?|? ?|t]| |] eqn:W; try reflexivity. now destruct (H q' t). }
    rewrite B, E3. exists w3. split; [|assumption]. unfold ret. now rewrite K1.
  - unfold encoding. rewrite A. unfold bind. destruct (Rs w (same_refl w)) as (w3 & E3 & S3). rewrite E3. exists w3. split; [|assumption]. unfold ret. now rewrite K2.
Qed.
Lemma relative_found w p q n : no_fault w -> good_fs (w_fs w) -> pp_abs p = false -> walk (w_fs w) (w_cwd w) true p = Found q n -> (forall xs es, n <> Dir xs es) -> readable types (last q []) ->
  (exists w', mime p w = (Ok (kind types custom (last q [])), w') /\ same w w') /\ (exists w', enc p w = (Ok (coding types (last q [])), w') /\ same w w').
Proof.
  intros N0 G A W Nd R. apply relative_place; try assumption.
  - intros q' xs es E. rewrite W in E. injection E as _ E. now apply Nd in E.
  - apply (place_end _ _ n G); [|assumption]. unfold walk in W. now apply walk_found_get in W.
  - left. now exists n.
Qed.
(** A broken link has its own name for one, its target's for the other. *)
Lemma relative_broken w p q t n : no_fault w -> pp_abs p = false -> ends_in p n -> readable types n -> walk (w_fs w) (w_cwd w) false p = Found q (Link t) ->
  (forall q' n', walk (w_fs w) (w_cwd w) true p <> Found q' n') ->
  exists w', mime p w = (Ok (kind types custom n), w') /\ same w w'.
Proof.
  intros N0 A E R W B. assert (D : no_directory (w_fs w) (w_cwd w) p) by (intros q' xs es; apply B).
  destruct (is_dir_no w p N0 D) as (w1 & S1 & E1). unfold mimetype, bind at 1. rewrite E1, A. unfold bind at 1 2. pose proof (no_fault_same _ _ S1 N0) as N1.
  destruct (broken_says p w1 N1) as (w2 & S2 & E2). rewrite E2. destruct S1 as (Ef & Ec & S1). rewrite Ef, Ec, W. pose proof (same_trans _ _ _ (conj Ef (conj Ec S1)) S2) as S12.
  assert (Bt : match walk (w_fs w) (w_cwd w) true p with Found _ _ => false | _ => true end = true) by (destruct (walk (w_fs w) (w_cwd w) true p) ; [now destruct (B _ _ eq_refl)|reflexivity|reflexivity]). rewrite Bt.
  pose proof (no_fault_same _ _ S12 N0) as N2. destruct (ask_run (fun (_ : node) cwd => Ok (if pp_abs p then p else mkPP true (cwd ++ pp_parts p))) w2 N2) as (w3 & E3 & S3). unfold p_absolute. rewrite E3, A.
  exists w3. split; [|exact (same_trans _ _ _ S12 S3)]. unfold ret. destruct E as (l & E & Hs).
  assert (Ee : ends_in (mkPP true (w_cwd w2 ++ pp_parts p)) n) by (exists (w_cwd w2 ++ l); split; [cbn [pp_parts]; now rewrite E, app_assoc|assumption]).
  now rewrite (proj1 (kind_of (mkPP true (w_cwd w2 ++ pp_parts p)) n eq_refl Ee R)).
Qed.
End Runs.

Lemma quoted_suffix far types w d : types $".c++" = Some $"text/x-c++src" -> types $".c%2b%2b" = None ->
  no_fault w -> no_directory (w_fs w) (w_cwd w) (mkPP true (d ++ [$"a.c++"])) ->
  kind types (fun _ => None) $"a.c++" = Some $"text/x-c++src" /\
  exists w', mimetype far types (fun _ => None) (mkPP true (d ++ [$"a.c++"])) w = (Ok None, w').
Proof.
  intros H1 H2 N0 D. split.
  - unfold kind. assert (E : guess types $"a.c++" = (types $".c++", None)) by reflexivity. rewrite E, H1. reflexivity.
  - destruct (is_dir_no w _ N0 D) as (w1 & S1 & E1). exists w1. unfold mimetype, bind at 1. rewrite E1. cbn [pp_abs]. unfold bind, ret.
    assert (E : ends_in (mkPP true (d ++ [$"a.c++"])) $"a.c++") by (exists d; split; [reflexivity|]; vm_compute; intuition discriminate).
    rewrite (path_guess types (mkPP true (d ++ [$"a.c++"])) _ eq_refl E). assert (G : guess (fun k => types (map low (quote k))) $"a.c++" = (types $".c%2b%2b", None)) by reflexivity. rewrite G. cbn [fst]. now rewrite H2.
Qed.

(** ** Suffixes *)
Lemma ends_dot name : N.eqb (last name 0%N) (chr ".") = true <-> exists a, name = a ++ [chr "."].
Proof.
  split.
  - intro H. apply N.eqb_eq in H. destruct name as [|x n _] using rev_ind; [discriminate|]. rewrite last_last in H. subst x. now exists n.
  - intros (a & ->). now rewrite last_last.
Qed.
Lemma lstrip_spec s : exists k, s = repeat (chr ".") k ++ lstrip_dots s /\ forall r, lstrip_dots s <> chr "." :: r.
Proof.
  induction s as [|c s (k & E & H)]; [now exists 0|]. cbn [lstrip_dots]. destruct (N.eqb_spec c (chr ".")) as [->|D].
  - exists (S k). cbn [repeat app]. split; [now f_equal|assumption].
  - exists 0. split; [reflexivity|]. intros r X. now injection X.
Qed.
Lemma lstrip_dots_app k s : (forall r, s <> chr "." :: r) -> lstrip_dots (repeat (chr ".") k ++ s) = s.
Proof.
  intro H. induction k as [|k IH]; [|exact IH]. cbn [repeat app]. destruct s as [|c s]; [reflexivity|]. cbn [lstrip_dots].
  destruct (N.eqb_spec c (chr ".")) as [->|D]; [now elim (H s)|reflexivity].
Qed.
Lemma join_concat c x (ts : list str) : join [c] (x :: ts) = x ++ concat (map (cons c) ts).
Proof.
  revert x. induction ts as [|t ts IH]; intro x; [cbn; now rewrite app_nil_r|]. change (join [c] (x :: t :: ts)) with (x ++ [c] ++ join [c] (t :: ts)).
  rewrite IH. reflexivity.
Qed.
Lemma suffixes_exact name l : suffixes name = l <-> suffixes_of name l.
Proof.
  unfold suffixes, suffixes_of. destruct (N.eqb (last name 0%N) (chr ".")) eqn:Ed.
  - apply ends_dot in Ed. split; [intro H; left; auto|]. intros [(_ & ->)|(X & _)]; [reflexivity|contradiction].
  - assert (Nd : ~ exists a, name = a ++ [chr "."]) by (intro X; apply ends_dot in X; congruence). split.
    + intros <-. right. split; [assumption|]. destruct (lstrip_spec name) as (k & E & H). destruct (split (chr ".") (lstrip_dots name)) as [|stem ts] eqn:Sp; [now apply split_nonempty in Sp|].
      exists k, stem, ts. cbn [tl]. split; [|split; [reflexivity|split]].
      * rewrite <- join_concat, <- Sp, join_split. exact E.
      * intros x X. apply (split_parts (chr ".") (lstrip_dots name) x). rewrite Sp. exact X.
      * intros Nn ->. pose proof (join_split (chr ".") (lstrip_dots name)) as J. rewrite Sp, join_concat in J. destruct ts as [|t ts].
        -- cbn in J. rewrite <- J, app_nil_r in E. destruct k as [|k]; [contradiction|]. apply Nd. exists (repeat (chr ".") k). rewrite E. apply (repeat_cons k (chr ".")).
        -- cbn in J. symmetry in J. exact (H _ J).
    + intros [(X & _)|(_ & k & stem & ts & E & El & H & Hs)]; [contradiction|].
      assert (Es : lstrip_dots name = stem ++ concat l).
      { rewrite E. apply lstrip_dots_app. intros r X. destruct stem as [|c stem].
        - destruct name; [|now elim Hs]. symmetry in E. apply app_eq_nil in E as [_ E]. rewrite E in X. discriminate.
        - injection X as -> _. now apply (H (chr "." :: stem) (or_introl eq_refl)), or_introl. }
      rewrite Es, El, <- join_concat. rewrite split_join; [reflexivity|discriminate|assumption].
Qed.
