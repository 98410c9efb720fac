(** * Addresses on GitHub *)
From Coq Require Import String NArith ZArith Bool List Lia.
From Verif Require Import Model.Py Model.PurePath Model.RemoteUri Spec.MetaSpec Spec.FsSpec Spec.RemoteUriSpec Proofs.PyLemmas Proofs.PathLemmas Proofs.DataDirProofs.
Import ListNotations.

(** ** Cutting texts *)
Lemma upto_none stops s : (forall c, In c s -> ~ In c stops) -> upto stops s = (s, []).
Proof.
  intro H. unfold upto. induction s as [|c s IH]; [reflexivity|]. cbn [span].
  assert (E : has c stops = false) by (apply has_false, H; now left). rewrite E. cbn [negb].
  rewrite IH; [reflexivity|]. intros x Hx. apply H. now right.
Qed.
Lemma upto_app stops a c b : (forall x, In x a -> ~ In x stops) -> In c stops -> upto stops (a ++ c :: b) = (a, c :: b).
Proof.
  intros H Hc. unfold upto. induction a as [|x a IH]; cbn [app span].
  - assert (E : has c stops = true) by now apply has_In. now rewrite E.
  - assert (E : has x stops = false) by (apply has_false, H; now left). rewrite E. cbn [negb].
    rewrite IH; [reflexivity|]. intros y Hy. apply H. now right.
Qed.
Lemma upto_through stops a s : (forall x, In x a -> ~ In x stops) -> fst (upto stops (a ++ s)) = a ++ fst (upto stops s).
Proof.
  intro H. unfold upto. induction a as [|x a IH]; [reflexivity|]. cbn [app span].
  assert (E : has x stops = false) by (apply has_false, H; now left). rewrite E. cbn [negb].
  assert (IH' := IH (fun y Hy => H y (or_intror Hy))). destruct (span (fun c => negb (has c stops)) (a ++ s)) as [p q] eqn:Q.
  cbn [fst] in IH' |- *. now rewrite IH'.
Qed.
Lemma rsplit1_some c s a b : rsplit1 c s = Some (a, b) -> s = a ++ c :: b.
Proof.
  revert a b. induction s as [|x s IH]; intros a b H; [discriminate|]. cbn in H. destruct (rsplit1 c s) as [[p q]|].
  - injection H as <- <-. cbn. now rewrite <- (IH p q).
  - destruct (N.eqb x c) eqn:E; [|discriminate]. apply N.eqb_eq in E. injection H as <- <-. now subst.
Qed.
Lemma rsplit1_through c a s : rsplit1 c (a ++ c :: s) = match rsplit1 c s with Some (p, q) => Some (a ++ c :: p, q) | None => Some (a, s) end.
Proof.
  induction a as [|x a IH]; cbn [app rsplit1].
  - destruct (rsplit1 c s) as [[p q]|]; [reflexivity|]. now rewrite N.eqb_refl.
  - rewrite IH. destruct (rsplit1 c s) as [[p q]|]; reflexivity.
Qed.

Lemma stem_git r : r <> [] -> stem (r ++ $".git") = r.
Proof.
  intro H. unfold stem. change (r ++ $".git") with (r ++ chr "." :: $"git"). rewrite rsplit1_app by (cbn; intuition discriminate).
  destruct r; [congruence|reflexivity].
Qed.
Lemma stem_same r : ~ inner_dot r -> stem r = r.
Proof.
  intro H. unfold stem. destruct (rsplit1 (chr ".") r) as [[[|x a] [|y b]]|] eqn:E; try reflexivity.
  exfalso. apply H. apply rsplit1_some in E. exists (x :: a), (y :: b). repeat split; discriminate || assumption.
Qed.
Lemma stem_cut a b : a <> [] -> b <> [] -> ~ In (chr ".") b -> stem (a ++ $"." ++ b) = a.
Proof.
  intros Ha Hb H. unfold stem. change (a ++ $"." ++ b) with (a ++ chr "." :: b). rewrite rsplit1_app by assumption.
  destruct a; [congruence|]. destruct b; [congruence|reflexivity].
Qed.

(** ** Names *)
Definition mild (c : N) : Prop := letter c \/ c = chr "-" \/ c = chr "." \/ c = chr "_".
Lemma mild_not c l : mild c -> Forall (fun k => ~ mild k) l -> ~ In c l.
Proof. intros M F I'. rewrite Forall_forall in F. now apply (F c). Qed.
Ltac not_mild := let H := fresh in intro H; unfold mild, letter in H; cbn in H; lia.
Lemma owner_mild o c : owner_name o -> In c o -> mild c.
Proof. intros [_ H] I'. destruct (H c I') as [L|L]; [now left|now right; left]. Qed.
Lemma repo_mild r c : repo_name r -> In c r -> mild c.
Proof. intros (_ & _ & _ & H) I'. exact (H c I'). Qed.
Lemma mild_slash c : mild c -> c <> slash.
Proof. intros M ->. revert M. not_mild. Qed.
Lemma owner_norm o : owner_name o -> norm_part o.
Proof.
  intro H. apply good_norm. split; [apply H|]. split.
  - intros ->. destruct (proj2 H (chr ".") (or_introl eq_refl)) as [L|L]; [unfold letter in L; cbn in L; lia|discriminate].
  - split.
    + intros ->. destruct (proj2 H (chr ".") (or_introl eq_refl)) as [L|L]; [unfold letter in L; cbn in L; lia|discriminate].
    + intro I'. now apply (mild_slash _ (owner_mild o _ H I')).
Qed.
Lemma repo_norm r : repo_name r -> norm_part r.
Proof.
  intro H. apply good_norm. split; [apply H|]. split; [apply H|]. split; [apply H|]. intro I'. now apply (mild_slash _ (repo_mild r _ H I')).
Qed.
Lemma repo_git r : repo_name r -> repo_name (r ++ $".git").
Proof.
  intros (N & _ & _ & H). split; [now destruct r|]. split; [|split].
  - intro E. apply (f_equal (@length BinNums.N)) in E. rewrite app_length in E. cbn in E. lia.
  - intro E. apply (f_equal (@length BinNums.N)) in E. rewrite app_length in E. cbn in E. lia.
  - intros c I'. apply in_app_iff in I' as [I'|I']; [now apply H|]. unfold letter. cbn in I' |- *.
    destruct I' as [<-|[<-|[<-|[<-|[]]]]]; cbn; lia.
Qed.

(** ** urlparse *)
Definition url_quiet (s : str) : Prop := forall c, In c s -> ~ In c $"?#;" /\ c <> 9%N /\ c <> 10%N /\ c <> 13%N.
Lemma quiet_unsafe s : url_quiet s -> filter (fun c => negb (url_unsafe c)) s = s.
Proof.
  induction s as [|c s IH]; intro H; [reflexivity|]. cbn [filter]. destruct (H c (or_introl eq_refl)) as (_ & A & B & C).
  assert (E : url_unsafe c = false) by (unfold url_unsafe; now rewrite (proj2 (N.eqb_neq _ _) A), (proj2 (N.eqb_neq _ _) B), (proj2 (N.eqb_neq _ _) C)).
  rewrite E. cbn [negb].
  rewrite IH; [reflexivity|]. intros x Hx. apply H. now right.
Qed.
Lemma quiet_stop s k : url_quiet s -> In k $"?#;" -> forall c, In c s -> ~ In c [k].
Proof. intros H Hk c I' [->|[]]. now apply (proj1 (H c I')). Qed.
Lemma quiet_app a b : url_quiet a -> url_quiet b -> url_quiet (a ++ b).
Proof. intros A B c I'. apply in_app_iff in I' as [I'|I']; auto. Qed.
Lemma mild_quiet s : (forall c, In c s -> mild c) -> url_quiet s.
Proof.
  intros H c I'. apply H in I'. split; [|repeat split; intros ->; revert I'; not_mild].
  intros [<-|[<-|[<-|[]]]]; revert I'; not_mild.
Qed.
Lemma params_quiet s : url_quiet s -> strip_params s = s.
Proof.
  intro H. unfold strip_params. assert (E : fst (upto $";" s) = s).
  { rewrite upto_none; [reflexivity|]. apply (quiet_stop s (chr ";") H). now right; right; left. }
  destruct (rsplit1 (chr "/") s) as [[a b]|] eqn:R; [|assumption]. apply rsplit1_some in R. subst s.
  rewrite upto_none; [reflexivity|]. apply (quiet_stop b (chr ";")); [|now right; right; left].
  intros c I'. apply H. apply in_app_iff. right. now right.
Qed.
Lemma urlparse_https t : url_quiet t -> urlparse ($"https://github.com/" ++ t) = Ok (mkUrl $"https" $"github.com" ($"/" ++ t)).
Proof.
  intro H. assert (Q : url_quiet ($"/" ++ t)).
  { apply quiet_app; [|assumption]. intros c [<-|[]]. split; [cbn; intuition discriminate|repeat split; discriminate]. }
  unfold urlparse. change (snd (span (fun c : N => N.leb c 32) ($"https://github.com/" ++ t))) with ($"https://github.com/" ++ t).
  rewrite filter_app, (quiet_unsafe t H).
  change (filter (fun c => negb (url_unsafe c)) $"https://github.com/") with $"https://github.com/".
  assert (S : split_scheme ($"https://github.com/" ++ t) = ($"https", $"//github.com/" ++ t)) by reflexivity.
  rewrite S. assert (N : (if startswith ($"//github.com/" ++ t) $"//" then upto $"/?#" (skipn 2 ($"//github.com/" ++ t)) else ([], $"//github.com/" ++ t)) = ($"github.com", $"/" ++ t)).
  { change (startswith ($"//github.com/" ++ t) $"//") with true. cbv iota. change (skipn 2 ($"//github.com/" ++ t)) with ($"github.com" ++ chr "/" :: t).
    rewrite upto_app; [reflexivity| |now left]. cbn. intuition (subst; discriminate). }
  match goal with |- (let (n, r) := ?X in _) = _ => replace X with ($"github.com", $"/" ++ t) by (symmetry; exact N) end. change (negb (Bool.eqb (has (chr "[") $"github.com") (has (chr "]") $"github.com"))) with false. cbv iota zeta.
  rewrite (upto_none $"#"); [|apply (quiet_stop _ (chr "#") Q); now right; left]. cbn [fst].
  rewrite (upto_none $"?"); [|apply (quiet_stop _ (chr "?") Q); now left]. cbn [fst].
  change (uses_params $"https") with true. cbv iota. now rewrite params_quiet.
Qed.
Lemma urlparse_scp o x : owner_name o -> url_quiet x ->
  urlparse ($"ssh://git@github.com:" ++ o ++ $"/" ++ x) = Ok (mkUrl $"ssh" ($"git@github.com:" ++ o) ($"/" ++ x)).
Proof.
  intros Ho H. assert (Qo : url_quiet o) by (apply mild_quiet; intros c; now apply owner_mild).
  assert (Q : url_quiet ($"/" ++ x)).
  { apply quiet_app; [|assumption]. intros c [<-|[]]. split; [cbn; intuition discriminate|repeat split; discriminate]. }
  unfold urlparse. change (snd (span (fun c : N => N.leb c 32) ($"ssh://git@github.com:" ++ o ++ $"/" ++ x))) with ($"ssh://git@github.com:" ++ o ++ $"/" ++ x).
  rewrite !filter_app, (quiet_unsafe x H), (quiet_unsafe o Qo).
  change (filter (fun c => negb (url_unsafe c)) $"ssh://git@github.com:") with $"ssh://git@github.com:".
  change (filter (fun c => negb (url_unsafe c)) $"/") with $"/".
  set (t := o ++ $"/" ++ x) in *.
  assert (S : split_scheme ($"ssh://git@github.com:" ++ t) = ($"ssh", $"//git@github.com:" ++ t)) by reflexivity.
  rewrite S. assert (N : (if startswith ($"//git@github.com:" ++ t) $"//" then upto $"/?#" (skipn 2 ($"//git@github.com:" ++ t)) else ([], $"//git@github.com:" ++ t)) = ($"git@github.com:" ++ o, $"/" ++ x)).
  { change (startswith ($"//git@github.com:" ++ t) $"//") with true. cbv iota. change (skipn 2 ($"//git@github.com:" ++ t)) with ($"git@github.com:" ++ t).
    unfold t. change ($"/" ++ x) with (chr "/" :: x). rewrite app_assoc. rewrite upto_app; [reflexivity| |now left].
    intros c I'. apply in_app_iff in I' as [I'|I'].
    - revert I'. cbn. intuition (subst; discriminate).
    - apply (owner_mild o c Ho) in I'. apply mild_not; [assumption|]. repeat constructor; not_mild. }
  match goal with |- (let (n, r) := ?X in _) = _ => replace X with ($"git@github.com:" ++ o, $"/" ++ x) by (symmetry; exact N) end. assert (B : forall k, ~ mild k -> ~ In k $"git@github.com:" -> has k ($"git@github.com:" ++ o) = false).
  { intros k Hk Hn. apply has_false. intro I'. apply in_app_iff in I' as [I'|I']; [now apply Hn|]. now apply Hk, (owner_mild o). }
  rewrite (B (chr "[")), (B (chr "]")); try not_mild; try (cbn; intuition discriminate). cbn [Bool.eqb negb].
  rewrite (upto_none $"#"); [|apply (quiet_stop _ (chr "#") Q); now right; left]. cbn [fst].
  rewrite (upto_none $"?"); [|apply (quiet_stop _ (chr "?") Q); now left]. cbn [fst].
  reflexivity.
Qed.

(** ** The host and the path *)
Lemma helper_https o x : owner_name o -> repo_name x ->
  remote_helper (https_url o x) = Ok (https_url o x, $"github.com", $"/" ++ o ++ $"/" ++ x).
Proof.
  intros Ho Hx. unfold remote_helper, https_url. change (startswith ($"https://github.com/" ++ o ++ $"/" ++ x) $"git@") with false. cbv iota zeta.
  rewrite urlparse_https; [reflexivity|]. apply quiet_app; [apply mild_quiet; intros c; now apply owner_mild|]. apply quiet_app.
  - intros c [<-|[]]. split; [cbn; intuition discriminate|repeat split; discriminate].
  - apply mild_quiet. intros c; now apply repo_mild.
Qed.
Lemma helper_scp o x : owner_name o -> repo_name x ->
  remote_helper (scp_url o x) = Ok ($"ssh://" ++ scp_url o x, $"github.com", $"/" ++ o ++ $"/" ++ x).
Proof.
  intros Ho Hx. unfold remote_helper, scp_url. change (startswith ($"git@github.com:" ++ o ++ $"/" ++ x) $"git@") with true. cbv iota zeta.
  change ($"ssh://" ++ $"git@github.com:" ++ o ++ $"/" ++ x) with ($"ssh://git@github.com:" ++ o ++ $"/" ++ x).
  rewrite urlparse_scp; [|assumption|apply mild_quiet; intros c; now apply repo_mild]. cbn [rbind u_netloc u_path].
  change (startswith ($"git@github.com:" ++ o) $"git@github.com") with true. cbv iota.
  change ($"git@github.com:" ++ o) with ($"git@github.com" ++ chr ":" :: o). rewrite split_app by (cbn; intuition discriminate).
  rewrite split_none; [reflexivity|]. intro I'. apply (owner_mild o _ Ho) in I'. revert I'. not_mild.
Qed.

(** ** The address *)
Lemma parse_two o x : norm_part o -> norm_part x -> pp_parse ($"/" ++ o ++ $"/" ++ x) = mkPP true [o; x].
Proof.
  intros Ho Hx. change ($"/" ++ o ++ $"/" ++ x) with (pp_str (mkPP true [o; x])). apply pp_parse_str.
  constructor; [assumption|]. now constructor.
Qed.
Lemma parse_names bs : bs <> [] -> Forall good_name bs -> pp_parse (join $"/" bs) = mkPP false bs.
Proof.
  intros N F. assert (F' : Forall norm_part bs) by (apply (Forall_impl _ good_norm F)).
  destruct bs as [|b bs]; [congruence|]. change (join $"/" (b :: bs)) with (pp_str (mkPP false (b :: bs))). now apply pp_parse_str.
Qed.
Lemma understood_helper o r u : owner_name o -> repo_name r -> understood o r u ->
  exists base x, remote_helper u = Ok (base, $"github.com", $"/" ++ o ++ $"/" ++ x) /\ norm_part x /\ stem x = r /\ x <> [].
Proof.
  intros Ho Hr H. assert (Nr : r <> []) by apply Hr. assert (Hg := repo_git r Hr).
  destruct H as [-> | [-> | (D & [-> | ->])]].
  - exists (https_url o (r ++ $".git")), (r ++ $".git"). split; [now apply helper_https|]. split; [now apply repo_norm|]. split; [now apply stem_git|]. apply Hg.
  - exists ($"ssh://" ++ scp_url o (r ++ $".git")), (r ++ $".git"). split; [now apply helper_scp|]. split; [now apply repo_norm|]. split; [now apply stem_git|]. apply Hg.
  - exists (https_url o r), r. split; [now apply helper_https|]. split; [now apply repo_norm|]. split; [now apply stem_same|assumption].
  - exists ($"ssh://" ++ scp_url o r), r. split; [now apply helper_scp|]. split; [now apply repo_norm|]. split; [now apply stem_same|assumption].
Qed.
Lemma no_suffix_two o x : x <> [] -> no_suffix (mkPP true [o; x]) = Ok (mkPP true [o; stem x]).
Proof. intro H. unfold no_suffix, pp_name. cbn [pp_parts last]. destruct x; [congruence|reflexivity]. Qed.

Section Uri.
Variables (facts : ppath -> res rfacts) (find_ref : ppath -> str -> res unit) (there : ppath -> bool).

Definition here (prefix : str) (infix : option str) (o r : str) (bs rel : list str) : str :=
  address prefix (o :: r :: match infix with Some i => [i] | None => [] end ++ bs ++ rel).

Lemma uri_gen n self o x base u branch rel prefix infix ref bs :
  remote_helper u = Ok (base, $"github.com", $"/" ++ o ++ $"/" ++ x) -> norm_part o -> norm_part x -> x <> [] ->
  facts self = Ok (mkRF u branch (mkPP false rel)) -> (forall i, infix = Some i -> good_name i) ->
  (forall q, ref = Some q -> asked (find_ref self q) branch ref bs) -> (ref = None -> asked (Ok tt) branch ref bs) ->
  remote_uri facts find_ref there (S n) self prefix infix ref = Ok (here prefix infix o (stem x) bs rel).
Proof.
  intros H No Nx Ex F Hi Ha Hn. cbn [remote_uri]. rewrite F. cbn [rbind f_url]. rewrite H. cbn [rbind].
  change (str_eqb $"github.com" $"github.com") with true. cbv iota. cbn [f_branch f_relative].
  assert (A : bs <> [] /\ Forall good_name bs).
  { destruct ref as [q|]; [destruct (Ha q eq_refl) as (A & B & _)|destruct (Hn eq_refl) as (A & B & _)]; now split. }
  assert (E : match ref with
              | Some ((_ :: _) as r0) => if str_eqb r0 $"HEAD" then branch else do _ <- find_ref self r0 ; Ok r0
              | _ => branch end = Ok (join $"/" bs)).
  { destruct ref as [q|].
    - destruct (Ha q eq_refl) as (_ & _ & [(B & [Q|[Q|Q]])|(Q & Nh & Fq)]); try discriminate Q; injection Q as ->.
      + assumption.
      + assumption.
      + destruct (join $"/" bs) as [|c t] eqn:J.
        * exfalso. destruct A as [A1 A2]. destruct bs as [|b bs]; [congruence|]. apply (join_nil_iff (chr "/")) in J as [J|J]; [discriminate|].
          injection J as -> _. inversion A2 as [|? ? G _]. now destruct G.
        * rewrite (proj2 (str_eqb_neq _ _) Nh), Fq. reflexivity.
    - destruct (Hn eq_refl) as (_ & _ & [(B & _)|(Q & _)]); [assumption|discriminate]. }
  rewrite E. cbn [rbind]. rewrite parse_two by assumption. rewrite no_suffix_two by assumption. cbn [rbind].
  rewrite (parse_names bs) by apply A. do 2 f_equal. unfold here, address.
  destruct infix as [i|].
  - rewrite (pp_parse_part i) by (apply good_norm; now apply Hi). reflexivity.
  - reflexivity.
Qed.

Lemma uri_right n self o r u branch rel prefix infix ref bs :
  owner_name o -> repo_name r -> understood o r u ->
  facts self = Ok (mkRF u branch (mkPP false rel)) -> (forall i, infix = Some i -> good_name i) ->
  asked (match ref with Some q => find_ref self q | None => Ok tt end) branch ref bs ->
  remote_uri facts find_ref there (S n) self prefix infix ref = Ok (here prefix infix o r bs rel).
Proof.
  intros Ho Hr Hu F Hi Ha. destruct (understood_helper o r u Ho Hr Hu) as (base & x & H & Nx & <- & Ex).
  apply (uri_gen n self o x base u branch); try assumption; [now apply owner_norm|intros q ->; assumption|intros ->; assumption].
Qed.

Lemma uri_cut n self o a b branch rel prefix infix ref bs :
  owner_name o -> repo_name (a ++ $"." ++ b) -> a <> [] -> b <> [] -> ~ In (chr ".") b ->
  facts self = Ok (mkRF (https_url o (a ++ $"." ++ b)) branch (mkPP false rel)) -> (forall i, infix = Some i -> good_name i) ->
  asked (match ref with Some q => find_ref self q | None => Ok tt end) branch ref bs ->
  remote_uri facts find_ref there (S n) self prefix infix ref = Ok (here prefix infix o a bs rel).
Proof.
  intros Ho Hr Na Nb Db F Hi Ha. rewrite <- (stem_cut a b Na Nb Db).
  apply (uri_gen n self o (a ++ $"." ++ b) (https_url o (a ++ $"." ++ b)) (https_url o (a ++ $"." ++ b)) branch); try assumption;
    [now apply helper_https|now apply owner_norm|now apply repo_norm|now destruct a|intros q ->; assumption|intros ->; assumption].
Qed.

(** What is read from such an address. *)
Lemma org_repo n self o r u branch rel bs :
  owner_name o -> repo_name r -> understood o r u ->
  facts self = Ok (mkRF u branch (mkPP false rel)) -> asked (Ok tt) branch None bs ->
  arg_org_repo facts find_ref there (S n) self = Ok (o, r).
Proof.
  intros Ho Hr Hu F Ha. unfold arg_org_repo, remote_uri_human.
  rewrite (uri_right n self o r u branch rel $"https://github.com" (Some $"blob") None bs Ho Hr Hu F); [|intros i E; injection E as <-; repeat split; try discriminate; cbn; intuition discriminate|assumption].
  cbn [rbind]. unfold here, address. set (l := [$"blob"] ++ bs ++ rel).
  assert (El : exists t, join $"/" (o :: r :: l) = o ++ $"/" ++ r ++ $"/" ++ t) by (eexists; reflexivity).
  destruct El as (t & ->). clear l.
  change ($"https://github.com" ++ $"/" ++ o ++ $"/" ++ r ++ $"/" ++ t) with ($"https://github.com/" ++ o ++ $"/" ++ r ++ $"/" ++ t).
  assert (Qo : url_quiet o) by (apply mild_quiet; intros c; now apply owner_mild).
  assert (Qr : url_quiet r) by (apply mild_quiet; intros c; now apply repo_mild).
  assert (Qs : url_quiet $"/") by (intros c [<-|[]]; split; [cbn; intuition discriminate|repeat split; discriminate]).
  assert (P : exists t', urlparse ($"https://github.com/" ++ o ++ $"/" ++ r ++ $"/" ++ t) = Ok (mkUrl $"https" $"github.com" ($"/" ++ o ++ $"/" ++ r ++ $"/" ++ t'))).
  { unfold urlparse. change (snd (span (fun c : N => N.leb c 32) ($"https://github.com/" ++ o ++ $"/" ++ r ++ $"/" ++ t))) with ($"https://github.com/" ++ o ++ $"/" ++ r ++ $"/" ++ t).
    rewrite !filter_app, (quiet_unsafe o Qo), (quiet_unsafe r Qr), (quiet_unsafe $"/" Qs). set (v := filter _ t).
    change (filter (fun c => negb (url_unsafe c)) $"https://github.com/") with $"https://github.com/".
    set (z := o ++ $"/" ++ r ++ $"/" ++ v).
    assert (S : split_scheme ($"https://github.com/" ++ z) = ($"https", $"//github.com/" ++ z)) by reflexivity.
    rewrite S. assert (N : (if startswith ($"//github.com/" ++ z) $"//" then upto $"/?#" (skipn 2 ($"//github.com/" ++ z)) else ([], $"//github.com/" ++ z)) = ($"github.com", $"/" ++ z)).
    { change (startswith ($"//github.com/" ++ z) $"//") with true. cbv iota. change (skipn 2 ($"//github.com/" ++ z)) with ($"github.com" ++ chr "/" :: z).
      rewrite upto_app; [reflexivity| |now left]. cbn. intuition (subst; discriminate). }
    match goal with |- exists t', (let (n, r) := ?X in _) = _ => replace X with ($"github.com", $"/" ++ z) by (symmetry; exact N) end.
    change (negb (Bool.eqb (has (chr "[") $"github.com") (has (chr "]") $"github.com"))) with false. cbv iota zeta.
    change (uses_params $"https") with true. cbv iota.
    assert (Qa : url_quiet ($"/" ++ o ++ $"/" ++ r ++ $"/")) by (repeat (apply quiet_app; [assumption|]); assumption).
    assert (Ea : forall y, $"/" ++ o ++ $"/" ++ r ++ $"/" ++ y = ($"/" ++ o ++ $"/" ++ r ++ $"/") ++ y) by (intro; rewrite <- !app_assoc; reflexivity).
    unfold z. rewrite Ea. rewrite (upto_through $"#"); [|apply (quiet_stop _ (chr "#") Qa); now right; left].
    rewrite (upto_through $"?"); [|apply (quiet_stop _ (chr "?") Qa); now left].
    set (y := fst (upto $"?" _)). unfold strip_params.
    assert (Eb : ($"/" ++ o ++ $"/" ++ r ++ $"/") ++ y = ($"/" ++ o ++ $"/" ++ r) ++ chr "/" :: y) by (rewrite <- !app_assoc; reflexivity).
    rewrite Eb, rsplit1_through. destruct (rsplit1 (chr "/") y) as [[p q]|]; eexists; rewrite <- !app_assoc; reflexivity. }
  destruct P as (t' & ->). cbn [rbind u_path].
  change ($"/" ++ o ++ $"/" ++ r ++ $"/" ++ t') with ([] ++ chr "/" :: o ++ chr "/" :: r ++ chr "/" :: t').
  assert (Ns : forall s, (forall c, In c s -> mild c) -> ~ In (chr "/") s) by (intros s Hs I'; apply Hs in I'; revert I'; not_mild).
  rewrite split_app by (intros []). rewrite split_app by (apply Ns; intros c; now apply owner_mild).
  rewrite split_app by (apply Ns; intros c; now apply repo_mild). reflexivity.
Qed.

(** Names without the characters that end a path are read as they are. *)
Lemma read_back l : Forall address_name l -> urlparse (address $"https://github.com" l) = Ok (mkUrl $"https" $"github.com" ($"/" ++ join $"/" l)).
Proof.
  intro F. unfold address. change ($"https://github.com" ++ $"/" ++ join $"/" l) with ($"https://github.com/" ++ join $"/" l). apply urlparse_https.
  intros c I'. apply join_In in I' as [I'|(x & Hx & I')].
  - destruct I' as [<-|[]]. split; [cbn; intuition discriminate|repeat split; discriminate].
  - rewrite Forall_forall in F. now apply (proj2 (F x Hx)).
Qed.

(** The ssh form raises. *)
Lemma ssh_raises n self o x branch rel prefix infix ref : owner_name o -> repo_name x ->
  facts self = Ok (mkRF (ssh_url o x) branch rel) -> remote_uri facts find_ref there (S n) self prefix infix ref = Err ValueError.
Proof.
  intros Ho Hx F. cbn [remote_uri]. rewrite F. cbn [rbind f_url]. unfold remote_helper, ssh_url.
  change (startswith ($"ssh://git@github.com/" ++ o ++ $"/" ++ x) $"git@") with false. cbv iota zeta.
  assert (Qo : url_quiet o) by (apply mild_quiet; intros c; now apply owner_mild).
  assert (Qx : url_quiet x) by (apply mild_quiet; intros c; now apply repo_mild).
  unfold urlparse. change (snd (span (fun c : N => N.leb c 32) ($"ssh://git@github.com/" ++ o ++ $"/" ++ x))) with ($"ssh://git@github.com/" ++ o ++ $"/" ++ x).
  rewrite !filter_app, (quiet_unsafe x Qx), (quiet_unsafe o Qo).
  change (filter (fun c => negb (url_unsafe c)) $"ssh://git@github.com/") with $"ssh://git@github.com/".
  change (filter (fun c => negb (url_unsafe c)) $"/") with $"/".
  set (t := o ++ $"/" ++ x). assert (S : split_scheme ($"ssh://git@github.com/" ++ t) = ($"ssh", $"//git@github.com/" ++ t)) by reflexivity.
  rewrite S. assert (N : (if startswith ($"//git@github.com/" ++ t) $"//" then upto $"/?#" (skipn 2 ($"//git@github.com/" ++ t)) else ([], $"//git@github.com/" ++ t)) = ($"git@github.com", $"/" ++ t)).
  { change (startswith ($"//git@github.com/" ++ t) $"//") with true. cbv iota. change (skipn 2 ($"//git@github.com/" ++ t)) with ($"git@github.com" ++ chr "/" :: t).
    rewrite upto_app; [reflexivity| |now left]. cbn. intuition (subst; discriminate). }
  match goal with |- context [let (n, r) := ?X in _] => replace X with ($"git@github.com", $"/" ++ t) by (symmetry; exact N) end.
  reflexivity.
Qed.

(** A repository whose remote is itself. *)
Lemma cycle self branch rel base prefix infix ref : 
  (exists p, p <> [] /\ base = $"/" ++ p /\ remote_helper base = Ok (base, [], base)) -> there (pp_parse base) = true ->
  pp_join (pp_parse base) rel = self -> facts self = Ok (mkRF base branch rel) ->
  forall fuel, remote_uri facts find_ref there fuel self prefix infix ref = Err OutOfFuel.
Proof.
  intros (p & Np & Eb & H) T J F. induction fuel as [|n IH]; [reflexivity|]. cbn [remote_uri]. rewrite F. cbn [rbind f_url]. rewrite H. cbn [rbind].
  change (str_eqb [] $"github.com") with false. cbv iota. rewrite T. assert (Sb : startswith base $"/" = true) by (rewrite Eb; apply startswith_app).
  rewrite Sb. cbn [andb f_relative]. rewrite J. exact IH.
Qed.
End Uri.

(** ** Cloning *)
Lemma clone_right self o r u : owner_name o -> repo_name r -> understood o r u ->
  clone_path self u = mkPP (pp_abs self) (pp_parts self ++ [r]).
Proof.
  intros Ho Hr Hu. unfold clone_path.
  assert (P : forall pre x, norm_part x -> pp_name (pp_parse (pre ++ $"/" ++ x)) = x).
  { intros pre x Nx. unfold pp_name, pp_parse. cbn [pp_parts]. change (pre ++ $"/" ++ x) with (pre ++ slash :: x).
    fold (comps (pre ++ slash :: x)). rewrite comps_app, (comps_one x Nx). now rewrite last_last. }
  assert (Q : forall x, stem x = r -> (exists pre, u = pre ++ $"/" ++ x) -> norm_part x -> pp_join self (pp_parse (stem (pp_name (pp_parse u)))) = mkPP (pp_abs self) (pp_parts self ++ [r])).
  { intros x Sx (pre & ->) Nx. rewrite P by assumption. rewrite Sx, (pp_parse_part r) by now apply repo_norm. reflexivity. }
  assert (Nr : r <> []) by apply Hr.
  destruct Hu as [-> | [-> | (D & [-> | ->])]].
  - apply (Q (r ++ $".git")); [now apply stem_git| |now apply repo_norm, repo_git]. exists ($"https://github.com/" ++ o). unfold https_url. now rewrite <- app_assoc.
  - apply (Q (r ++ $".git")); [now apply stem_git| |now apply repo_norm, repo_git]. exists ($"git@github.com:" ++ o). unfold scp_url. now rewrite <- app_assoc.
  - apply (Q r); [now apply stem_same| |now apply repo_norm]. exists ($"https://github.com/" ++ o). unfold https_url. now rewrite <- app_assoc.
  - apply (Q r); [now apply stem_same| |now apply repo_norm]. exists ($"git@github.com:" ++ o). unfold scp_url. now rewrite <- app_assoc.
Qed.

(** ** Other hosts *)
Lemma urlparse_gen scheme nl x :
  (scheme = $"https" \/ scheme = $"ssh") -> url_quiet nl -> ~ In slash nl -> ~ In (chr "[") nl -> ~ In (chr "]") nl -> url_quiet x ->
  urlparse (scheme ++ $"://" ++ nl ++ $"/" ++ x) = Ok (mkUrl scheme nl ($"/" ++ x)).
Proof.
  intros Hs Hn Sn Bn Cn H. assert (Q : url_quiet ($"/" ++ x)).
  { apply quiet_app; [|assumption]. intros c [<-|[]]. split; [cbn; intuition discriminate|repeat split; discriminate]. }
  unfold urlparse.
  assert (L : snd (span (fun c : N => N.leb c 32) (scheme ++ $"://" ++ nl ++ $"/" ++ x)) = scheme ++ $"://" ++ nl ++ $"/" ++ x)
    by (destruct Hs as [-> | ->]; reflexivity).
  rewrite L, !filter_app, (quiet_unsafe nl Hn), (quiet_unsafe x H).
  assert (F : filter (fun c => negb (url_unsafe c)) scheme = scheme) by (destruct Hs as [-> | ->]; reflexivity). rewrite F.
  change (filter (fun c => negb (url_unsafe c)) $"://") with $"://". change (filter (fun c => negb (url_unsafe c)) $"/") with $"/".
  set (t := nl ++ $"/" ++ x). assert (S : split_scheme (scheme ++ $"://" ++ t) = (scheme, $"//" ++ t)) by (destruct Hs as [-> | ->]; reflexivity).
  rewrite S. assert (N : (if startswith ($"//" ++ t) $"//" then upto $"/?#" (skipn 2 ($"//" ++ t)) else ([], $"//" ++ t)) = (nl, $"/" ++ x)).
  { change (startswith ($"//" ++ t) $"//") with true. cbv iota. change (skipn 2 ($"//" ++ t)) with t. unfold t. change ($"/" ++ x) with (chr "/" :: x).
    rewrite upto_app; [reflexivity| |now left]. intros c I' [<-|[<-|[<-|[]]]]; [now apply Sn| |]; apply Hn in I' as [I' _]; apply I'; cbn; auto. }
  match goal with |- (let (n, r) := ?X in _) = _ => replace X with (nl, $"/" ++ x) by (symmetry; exact N) end.
  rewrite (proj2 (has_false _ _) Bn), (proj2 (has_false _ _) Cn). cbn [Bool.eqb negb].
  rewrite (upto_none $"#"); [|apply (quiet_stop _ (chr "#") Q); now right; left]. cbn [fst].
  rewrite (upto_none $"?"); [|apply (quiet_stop _ (chr "?") Q); now left]. cbn [fst].
  destruct Hs as [-> | ->]; [change (uses_params $"https") with true; cbv iota; now rewrite params_quiet|reflexivity].
Qed.
Lemma host_mild h : repo_name h -> url_quiet h /\ ~ In slash h /\ ~ In (chr "[") h /\ ~ In (chr "]") h.
Proof.
  intro Hh. split; [apply mild_quiet; intro; now apply repo_mild|].
  repeat split; intro I'; apply (repo_mild h _ Hh) in I'; revert I'; not_mild.
Qed.
Lemma startswith_git h : startswith ($"git@" ++ h) $"git@github.com" = startswith h $"github.com".
Proof. reflexivity. Qed.

Lemma prefix_of (k : N) g : forall h o t, ~ In k g -> h ++ k :: o = g ++ t -> exists t', h = g ++ t'.
Proof.
  induction g as [|a g IH]; intros h o t Ng E; [now exists h|]. destruct h as [|b h]; cbn in E.
  - injection E as E _. elim Ng. now left.
  - injection E as -> E. destruct (IH h o t) as (t' & ->); [intro; apply Ng; now right|exact E|]. now exists t'.
Qed.

Section Other.
Variables (facts : ppath -> res rfacts) (find_ref : ppath -> str -> res unit) (there : ppath -> bool).
Lemma other_host n self h o x u branch rel prefix infix ref :
  repo_name h -> owner_name o -> repo_name x ->
  (h <> $"github.com" /\ u = $"https://" ++ h ++ $"/" ++ o ++ $"/" ++ x \/
   (forall t, h <> $"github.com" ++ t) /\ u = $"git@" ++ h ++ $":" ++ o ++ $"/" ++ x) ->
  facts self = Ok (mkRF u branch rel) ->
  remote_uri facts find_ref there (S n) self prefix infix ref = Err NotImplementedExn.
Proof.
  intros Hh Ho Hx Hu F. cbn [remote_uri]. rewrite F. cbn [rbind f_url]. destruct (host_mild h Hh) as (Q & A & B & C).
  assert (Qo : url_quiet o) by (apply mild_quiet; intros c; now apply owner_mild).
  assert (Qx : url_quiet x) by (apply mild_quiet; intros c; now apply repo_mild).
  assert (Qs : url_quiet $"/") by (intros c [<-|[]]; split; [cbn; intuition discriminate|repeat split; discriminate]).
  destruct Hu as [[Nh ->]|[Nh ->]]; unfold remote_helper.
  - change (startswith ($"https://" ++ h ++ $"/" ++ o ++ $"/" ++ x) $"git@") with false. cbv iota zeta.
    change ($"https://" ++ h ++ $"/" ++ o ++ $"/" ++ x) with ($"https" ++ $"://" ++ h ++ $"/" ++ o ++ $"/" ++ x).
    rewrite urlparse_gen; try assumption; [|now left|repeat (apply quiet_app; [assumption|]); assumption]. cbn [rbind u_netloc u_path].
    assert (G : startswith h $"git@github.com" = false).
    { apply not_true_is_false. intro G. apply startswith_spec in G. destruct G as (t & G).
      assert (I' : In (chr "@") h) by (rewrite G; cbn; auto 6). apply (repo_mild h _ Hh) in I'. revert I'. not_mild. }
    rewrite G. cbn [rbind]. rewrite (proj2 (str_eqb_neq _ _) Nh). reflexivity.
  - change (startswith ($"git@" ++ h ++ $":" ++ o ++ $"/" ++ x) $"git@") with true. cbv iota zeta.
    replace ($"ssh://" ++ $"git@" ++ h ++ $":" ++ o ++ $"/" ++ x) with ($"ssh" ++ $"://" ++ ($"git@" ++ h ++ $":" ++ o) ++ $"/" ++ x)
      by (rewrite <- !app_assoc; reflexivity).
    assert (W : forall P : N -> Prop, (forall c, In c h -> P c) -> (forall c, In c o -> P c) -> (forall c, In c $"git@:" -> P c) -> forall c, In c ($"git@" ++ h ++ $":" ++ o) -> P c).
    { intros P P1 P2 P3 c I'. apply in_app_iff in I' as [I'|I']; [apply P3; cbn in I' |- *; intuition|]. apply in_app_iff in I' as [I'|I']; [auto|].
      apply in_app_iff in I' as [I'|I']; [apply P3; cbn in I' |- *; intuition|auto]. }
    assert (Z : forall k, ~ mild k -> ~ In k $"git@:" -> ~ In k ($"git@" ++ h ++ $":" ++ o)).
    { intros k Mk Nk I'. apply (W (fun c => c <> k)) in I'; [now apply I'| | |]; intros c J ->; [|  |now apply Nk].
      - now apply Mk, (repo_mild h).
      - now apply Mk, (owner_mild o). }
    rewrite urlparse_gen; try assumption.
    + cbn [rbind u_netloc u_path]. rewrite (startswith_git (h ++ $":" ++ o)).
      assert (G : startswith (h ++ $":" ++ o) $"github.com" = false).
      { apply not_true_is_false. intro G. apply startswith_spec in G. destruct G as (t & G).
        assert (K : exists t, h = $"github.com" ++ t).
        { apply (prefix_of (chr ":") $"github.com" h o t); [cbn; intuition discriminate|exact G]. }
        destruct K as (t' & K). now apply (Nh t'). }
      rewrite G. cbn [rbind]. reflexivity.
    + now right.
    + intros c I'. revert c I'. apply W; [exact Q|exact Qo|]. intros c I'. cbn in I'. repeat (destruct I' as [<-|I']; [split; [cbn; intuition discriminate|repeat split; discriminate]|]). destruct I'.
    + apply Z; [not_mild|cbn; intuition discriminate].
    + apply Z; [not_mild|cbn; intuition discriminate].
    + apply Z; [not_mild|cbn; intuition discriminate].
Qed.
End Other.

Lemma page_and_file facts find_ref there n self o r u branch rel ref bs :
  owner_name o -> repo_name r -> understood o r u -> facts self = Ok (mkRF u branch (mkPP false rel)) ->
  asked (match ref with Some q => find_ref self q | None => Ok tt end) branch ref bs ->
  remote_uri_human facts find_ref there (S n) self ref = Ok (address $"https://github.com" (o :: r :: $"blob" :: bs ++ rel)) /\
  remote_uri_machine facts find_ref there (S n) self ref = Ok (address $"https://raw.githubusercontent.com" (o :: r :: bs ++ rel)).
Proof.
  intros Ho Hr Hu Hf Ha. unfold remote_uri_human, remote_uri_machine. split.
  - apply (uri_right facts find_ref there n self o r u branch rel $"https://github.com" (Some $"blob") ref bs Ho Hr Hu Hf); [|exact Ha].
    intros i E. injection E as <-. repeat split; try discriminate; cbn; intuition discriminate.
  - apply (uri_right facts find_ref there n self o r u branch rel $"https://raw.githubusercontent.com" None ref bs Ho Hr Hu Hf); [discriminate|exact Ha].
Qed.
