(** Lemmas on remotes below an anchor *)
From Coq Require Import String Arith NArith Bool List Lia.
From Verif Require Import Model.Py Model.PurePath Model.RelPath Model.PathOps Model.RemoteTree Spec.RemoteSpec Proofs.PyLemmas Proofs.RelPathProofs Proofs.RmtreeProofs.
Import ListNotations.

Section Tree.
Variables (H : hierarchy) (a : str).

Lemma climb_step n q names : q <> a -> climb H (S n) a (Some q) names =
  climb H n a (match h_parent H q with Some r => if str_eqb r q then None else Some r | None => None end) (names ++ [h_name H q]).
Proof. intro N. cbn [climb]. apply str_eqb_neq in N. now rewrite N. Qed.
Lemma own_parent ns q : leads H a ns q -> q <> a -> h_parent H q <> Some q.
Proof.
  intro L. induction L as [|ns p x L IH N E]; intros Nq Eq; [congruence|]. assert (p = x) by congruence. subst p. now apply IH.
Qed.
Lemma climb_leads ns q : leads H a ns q -> forall names n, length ns < n -> climb H n a (Some q) names = Ok (names ++ rev ns, true).
Proof.
  intro L. induction L as [|ns p x L IH N E]; intros names n Hn; (destruct n as [|n]; [inversion Hn|]).
  - cbn [climb]. rewrite str_eqb_refl, app_nil_r. reflexivity.
  - rewrite climb_step, E by assumption. assert (Np : str_eqb p x = false).
    { apply str_eqb_neq. intros ->. now apply (own_parent (ns ++ [h_name H x]) x (leads_down H a ns x x L N E) N). }
    rewrite Np, app_length in *. cbn [length] in Hn. rewrite IH by lia. rewrite rev_app_distr, <- app_assoc. reflexivity.
Qed.
Lemma climb_found n : forall o names l, climb H n a o names = Ok (l, true) -> exists q ns, o = Some q /\ l = names ++ rev ns /\ leads H a ns q.
Proof.
  induction n as [|n IH]; intros o names l E; [discriminate|]. destruct o as [q|]; cbn [climb] in E; [|discriminate].
  exists q. destruct (str_eqb q a) eqn:Q.
  - apply str_eqb_eq in Q as ->. injection E as <-. exists []. rewrite app_nil_r. repeat split. constructor.
  - apply str_eqb_neq in Q. apply IH in E as (r & ns & Er & -> & L). exists (ns ++ [h_name H q]). split; [reflexivity|].
    split; [now rewrite rev_app_distr, <- app_assoc|]. destruct (h_parent H q) as [p|] eqn:Ep; [|discriminate].
    destruct (str_eqb p q); [discriminate|]. injection Er as ->. now constructor 2 with r.
Qed.

Lemma parts_leads ns x : leads H a ns x -> forall n, length ns <= n -> remote_parts H n x a NoCache = Ok (ns, true).
Proof.
  intros L n Hn. destruct L as [|ns p x L N E]; unfold remote_parts; [now rewrite str_eqb_refl|].
  apply str_eqb_neq in N as Nb. rewrite Nb. unfold parts_relative_to. rewrite E. destruct (str_eqb p a) eqn:Q; cbn [negb].
  - apply str_eqb_eq in Q as ->. rewrite Nb. inversion L as [Q|ms q y L' N' E' Q]; [reflexivity|congruence].
  - apply str_eqb_neq in Q. destruct L as [|ms q y L' N' E']; [congruence|]. rewrite E', !app_length in *. cbn [length] in Hn.
    rewrite (climb_leads ms q L') by lia. cbn [rbind fst snd]. rewrite rev_app_distr, rev_involutive. reflexivity.
Qed.
Lemma parts_found n ns x : remote_parts H n x a NoCache = Ok (ns, true) -> leads H a ns x.
Proof.
  unfold remote_parts. destruct (str_eqb x a) eqn:Qx; [apply str_eqb_eq in Qx as ->; intro E; injection E as <-; constructor|].
  apply str_eqb_neq in Qx. unfold parts_relative_to. destruct (h_parent H x) as [p|] eqn:Ep; [|discriminate].
  destruct (str_eqb p a) eqn:Q; cbn [negb].
  - apply str_eqb_eq in Q as ->. apply str_eqb_neq in Qx as Qb. rewrite Qb. intro E. injection E as <-. apply (leads_down H a [] a x); [constructor|assumption|assumption].
  - destruct (climb H n a (h_parent H p) [h_name H p]) as [[l b]|] eqn:C; [|discriminate]. cbn [rbind fst snd]. intro E. injection E as <- ->.
    apply climb_found in C as (q & ms & Eq & -> & L). rewrite rev_app_distr, rev_involutive. cbn [rev app].
    apply str_eqb_neq in Q. constructor 2 with p; [|assumption|assumption]. now constructor 2 with q.
Qed.
Lemma leads_fun ns x : leads H a ns x -> forall ms, leads H a ms x -> ms = ns.
Proof.
  intros L ms M. pose proof (parts_leads ns x L (length ns + length ms) ltac:(lia)) as A. rewrite (parts_leads ms x M (length ns + length ms) ltac:(lia)) in A. now injection A.
Qed.
Lemma climb_more n : forall o names r, climb H n a o names = Ok r -> climb H (S n) a o names = Ok r.
Proof.
  induction n as [|n IH]; intros o names r E; [discriminate|]. destruct o as [q|]; [|assumption]. cbn [climb] in E |- *.
  destruct (str_eqb q a); [assumption|]. now apply IH in E.
Qed.
Lemma climb_more' n m o names r : n <= m -> climb H n a o names = Ok r -> climb H m a o names = Ok r.
Proof. intros L E. induction L as [|m L IH]; [assumption|now apply climb_more]. Qed.
Lemma parts_more n m x r : n <= m -> remote_parts H n x a NoCache = Ok r -> remote_parts H m x a NoCache = Ok r.
Proof.
  intros L. unfold remote_parts, parts_relative_to. destruct (str_eqb x a); [auto|]. destruct (h_parent H x) as [p|]; [|auto].
  destruct (negb (str_eqb p a)); [|auto]. destruct (climb H n a (h_parent H p) [h_name H p]) as [c|] eqn:C; [|discriminate].
  now rewrite (climb_more' n m _ _ c L C).
Qed.
Lemma parts_lost n ns x : remote_parts H n x a NoCache = Ok (ns, false) -> forall ms, ~ leads H a ms x.
Proof.
  intros E ms L. pose proof (parts_leads ms x L (n + length ms) ltac:(lia)) as A.
  rewrite (parts_more n (n + length ms) x (ns, false) ltac:(lia) E) in A. discriminate.
Qed.

Lemma leads_determines : names_differ H -> forall ns x y, leads H a ns x -> leads H a ns y -> x = y.
Proof.
  intros D ns x y L. revert y. induction L as [|ns p x L IH N E]; intros y M.
  - inversion M as [Q|ms q z M' N' E' Q]; [reflexivity|]. destruct ms; discriminate.
  - inversion M as [Q|ms q z M' N' E' Q]; [destruct ns; discriminate|]. subst z. apply app_inj_tail in Q as [-> Q].
    assert (p = q) by now apply IH. subst q. now apply (D x y p).
Qed.

Lemma climb_cache_names up rest r0 : (forall z, In z up -> z <> h_name H a) ->
  climb_cache (h_name H a) (up ++ h_name H a :: rest) r0 = r0 ++ up ++ [h_name H a].
Proof.
  revert r0. induction up as [|u up IH]; intros r0 N; cbn [app climb_cache].
  - now rewrite str_eqb_refl.
  - assert (Q : str_eqb u (h_name H a) = false) by (apply str_eqb_neq, N; now left). rewrite Q, IH by (intros z Iz; apply N; now right).
    now rewrite <- app_assoc.
Qed.
Lemma parts_cached ns y x p rest n : leads H a ((ns ++ [y]) ++ [h_name H x]) x -> h_parent H x = Some p -> (forall z, In z ns -> z <> h_name H a) ->
  remote_parts H n x a (CacheIn (Some p) (rev ns ++ h_name H a :: rest)) = Ok (h_name H a :: (ns ++ [y]) ++ [h_name H x], true).
Proof.
  intros L Ep N. inversion L as [Q|ms q z L' N' E' Q]; [destruct (ns ++ [y]); discriminate|]. subst z. apply app_inj_tail in Q as [-> _].
  assert (q = p) by congruence. subst q. unfold remote_parts. apply str_eqb_neq in N' as Nb. rewrite Nb. unfold parts_relative_to. rewrite Ep.
  inversion L' as [Q|ms q z L2 N2 E2 Q]; [destruct ns; discriminate|]. subst z. apply app_inj_tail in Q as [-> Q].
  apply str_eqb_neq in N2 as Nb2. rewrite Nb2. cbn [negb]. rewrite str_eqb_refl. cbn [rbind fst snd].
  rewrite climb_cache_names by (intros z Iz; apply N; now apply in_rev). rewrite rev_app_distr, rev_app_distr, rev_involutive. cbn [rev app].
  rewrite Q. reflexivity.
Qed.
End Tree.

(** ** ssh *)
Lemma ssh_below anchor l : pp_abs anchor = true -> ssh_parts_relative anchor (mkPP true (pp_parts anchor ++ l)) = Ok l.
Proof.
  intro A. unfold ssh_parts_relative, relative_to. cbn [pp_abs pp_parts]. rewrite A, prefixb_app. cbn [Bool.eqb andb rbind].
  rewrite skipn_app, skipn_all, Nat.sub_diag. cbn [app skipn]. unfold ssh_parts, ssh_rpath. cbn [pp_abs pp_parts app]. f_equal.
  destruct (pp_eqb _ _) eqn:Q; [|reflexivity]. apply pp_eqb_eq in Q. unfold pp_join in Q. rewrite A in Q. cbn [pp_abs pp_parts] in Q.
  destruct anchor as [ab ap]. cbn [pp_abs pp_parts] in *. subst ab. injection Q as Q. rewrite <- (app_nil_r ap) in Q at 2. now apply app_inv_head in Q.
Qed.

(** A cache that is elsewhere makes no difference. *)
Lemma parts_elsewhere H a x p i l n : h_parent H x = Some p -> i <> Some p \/ p = a ->
  remote_parts H n x a (CacheIn i l) = remote_parts H n x a NoCache.
Proof.
  intros P D. unfold remote_parts. destruct (str_eqb x a); [reflexivity|]. unfold parts_relative_to. rewrite P.
  destruct (negb (str_eqb p a)) eqn:E; [|reflexivity]. destruct i as [i|]; [|reflexivity].
  destruct (str_eqb p i) eqn:Q; [|reflexivity]. apply str_eqb_eq in Q. subst i. destruct D as [D| ->]; [congruence|].
  now rewrite str_eqb_refl in E.
Qed.
