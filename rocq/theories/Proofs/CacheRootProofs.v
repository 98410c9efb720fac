(** * Lemmas on the root of a cached tree *)
From Coq Require Import String NArith Arith Bool List Lia.
From Verif Require Import Model.Py Model.PurePath Model.RelPath Model.Fs Model.PathOps Model.Listing Model.CacheRoot
  Spec.CacheRootSpec Proofs.PyLemmas.
Import ListNotations.

Lemma pp_eqb_eq' a b : pp_eqb a b = true <-> a = b.
Proof.
  unfold pp_eqb. destruct a as [a l], b as [b m]. cbn. rewrite andb_true_iff, eqb_true_iff.
  rewrite (list_eqb_eq str_eqb str_eqb_eq). split; [intros [-> ->]; reflexivity|intro H; injection H as -> ->; auto].
Qed.
Lemma usable_some f q : usable f = Some q <-> f = Some q /\ q <> slash.
Proof.
  unfold usable. destruct f as [x|]; [|split; [discriminate|intros [X _]; discriminate]].
  destruct (pp_eqb x slash) eqn:E.
  - apply pp_eqb_eq' in E. split; [discriminate|]. intros [X Y]. congruence.
  - split; [intro X; injection X as <-; split; [reflexivity|]; intros ->; now rewrite (proj2 (pp_eqb_eq' _ _) eq_refl) in E|].
    intros [X _]. exact X.
Qed.
Lemma usable_none f : usable f = None <-> f = None \/ f = Some slash.
Proof.
  destruct f as [x|]; cbn; [|tauto]. destruct (pp_eqb x slash) eqn:E.
  - apply pp_eqb_eq' in E. subst. tauto.
  - split; [discriminate|]. intros [X|X]; [discriminate|]. injection X as ->. now rewrite (proj2 (pp_eqb_eq' _ _) eq_refl) in E.
Qed.

(** ** The way up *)
Lemma ups_eq abs rp : ups abs rp = chain (mkPP abs (rev rp)).
Proof. unfold chain. cbn [pp_abs pp_parts]. now rewrite rev_involutive. Qed.
Lemma ups_split abs rp l1 q l2 : ups abs rp = l1 ++ q :: l2 -> q :: l2 = chain q.
Proof.
  revert l1. induction rp as [|x r IH]; intros [|y l1] H.
  - cbn in H. injection H as <- <-. reflexivity.
  - cbn in H. destruct l1; discriminate.
  - pose proof H as Q. cbn [ups app] in Q. injection Q as Q _. rewrite ups_eq in H. cbn [rev app] in H. rewrite Q in H. symmetry. exact H.
  - cbn [ups app] in H. injection H as _ H. exact (IH _ H).
Qed.
Lemma in_ups abs rp q : In q (ups abs rp) <-> at_or_above q (mkPP abs (rev rp)).
Proof.
  induction rp as [|x r IH].
  - cbn. unfold at_or_above. cbn. destruct q as [a l]. cbn. split.
    + intros [H|[]]. injection H as <- <-. split; [reflexivity|now exists []].
    + intros [-> [s H]]. destruct l; [now left|discriminate].
  - cbn [ups In]. rewrite IH. unfold at_or_above. cbn [pp_abs pp_parts]. destruct q as [a l]. cbn [pp_abs pp_parts]. split.
    + intros [H|[-> [s H]]].
      * injection H as <- <-. split; [reflexivity|]. exists []. now rewrite app_nil_r.
      * split; [reflexivity|]. exists (s ++ [x]). cbn. now rewrite H, app_assoc.
    + intros [-> [s H]]. destruct s as [|z s] using rev_ind.
      * left. rewrite app_nil_r in H. now rewrite H.
      * right. split; [reflexivity|]. exists s. cbn [rev] in H. rewrite app_assoc in H. now apply app_inj_tail in H as [H _].
Qed.
Lemma in_chain p q : In q (chain p) <-> at_or_above q p.
Proof. unfold chain. rewrite in_ups, rev_involutive. now destruct p. Qed.
Lemma above_refl p : at_or_above p p.
Proof. split; [reflexivity|]. exists []. now rewrite app_nil_r. Qed.
Lemma above_trans a b c : at_or_above a b -> at_or_above b c -> at_or_above a c.
Proof. intros [A [r R]] [B [s S]]. split; [congruence|]. exists (r ++ s). now rewrite S, R, app_assoc. Qed.
Lemma above_anti a b : at_or_above a b -> at_or_above b a -> a = b.
Proof.
  intros [A [r R]] [B [s S]]. destruct a as [a l], b as [b m]. cbn in *. subst. f_equal.
  rewrite <- app_assoc in S. rewrite <- (app_nil_r l) in S at 1. apply app_inv_head in S. symmetry in S. apply app_eq_nil in S as [-> _]. now rewrite app_nil_r.
Qed.
Lemma above_total a b p : at_or_above a p -> at_or_above b p -> at_or_above a b \/ at_or_above b a.
Proof.
  intros [A [r R]] [B [s S]]. rewrite R in S. clear R. revert S. unfold at_or_above. destruct a as [a l], b as [b m]. cbn in *. subst b a.
  generalize (pp_abs p). intro z. revert m. induction l as [|x l IH]; intros [|y m] S.
  - left. split; [reflexivity|]. now exists [].
  - left. split; [reflexivity|]. now exists (y :: m).
  - right. split; [reflexivity|]. now exists (x :: l).
  - cbn in S. injection S as <- S. destruct (IH _ S) as [[_ [t T]]|[_ [t T]]]; [left|right]; (split; [reflexivity|]); exists t; cbn; now rewrite T.
Qed.
Lemma slash_above p : pp_abs p = true -> at_or_above slash p.
Proof. intro A. split; [now rewrite A|]. now exists (pp_parts p). Qed.

Section Root.
Variable cache : ppath -> res bool.
Variable broken : ppath -> bool.
Variable variants : ppath -> list ppath.
Definition cached (q : ppath) : Prop := cache q = Ok true.
(** Nothing is raised on the way up. *)
Definition told (p : ppath) : Prop := forall q, at_or_above q p -> exists b, cache q = Ok b.

Lemma climb_ok fail found l : (forall q, In q l -> exists b, cache q = Ok b) ->
  exists f, climb cache fail found l = Ok (inr f) /\
    ((f = found /\ forall q, In q l -> ~ cached q) \/
     exists l1 q l2, l = l1 ++ q :: l2 /\ cached q /\ (forall u, In u l2 -> ~ cached u) /\ f = Some q).
Proof.
  revert found. induction l as [|x l IH]; intros found A.
  - exists found. split; [reflexivity|]. left. split; [reflexivity|]. intros q [].
  - cbn [climb]. destruct (A x (or_introl eq_refl)) as [b B]. rewrite B.
    destruct b.
    + destruct (IH (Some x)) as (f & E & [[-> N]|(l1 & q & l2 & -> & C & N & ->)]); [intros q Q; apply A; now right| |].
      * exists (Some x). split; [exact E|]. right. now exists [], x, l.
      * exists (Some q). split; [exact E|]. right. now exists (x :: l1), q, l2.
    + destruct (IH found) as (f & E & [[-> N]|(l1 & q & l2 & -> & C & N & ->)]); [intros q Q; apply A; now right| |].
      * exists found. split; [exact E|]. left. split; [reflexivity|]. intros q [<-|Q]; [unfold cached; congruence|now apply N].
      * exists (Some q). split; [exact E|]. right. now exists (x :: l1), q, l2.
Qed.
Lemma climb_top fail found p : told p ->
  exists f, climb cache fail found (chain p) = Ok (inr f) /\
    ((f = found /\ forall q, at_or_above q p -> ~ cached q) \/ exists q, topmost cached p q /\ f = Some q).
Proof.
  intro T. destruct (climb_ok fail found (chain p)) as (f & E & D).
  - intros q Q. apply T. now apply in_chain.
  - exists f. split; [exact E|]. destruct D as [[-> N]|(l1 & q & l2 & L & C & N & ->)].
    + left. split; [reflexivity|]. intros q Q. apply N. now apply in_chain.
    + right. exists q. split; [|reflexivity]. split; [apply in_chain; rewrite L; apply in_elt|]. split; [exact C|].
      intros u U CU. apply in_chain in U. unfold chain in L. apply ups_split in L. rewrite <- L in U.
      destruct U as [U|U]; [congruence|]. now apply N in U.
Qed.
Lemma topmost_fun (P : ppath -> Prop) p a b : topmost P p a -> topmost P p b -> a = b.
Proof.
  intros (A1 & A2 & A3) (B1 & B2 & B3). destruct (above_total a b p A1 B1) as [H|H]; [now apply B3|symmetry; now apply A3].
Qed.

(** A path that is no broken link and has one variant. *)
Lemma find_here fail p : broken p = false -> find_cache_root cache broken variants fail p = over cache fail None (variants p).
Proof.
  intro B. unfold find_cache_root. destruct (rev (pp_parts p)) as [|x r] eqn:R; cbn [find_root]; rewrite <- R, rev_involutive;
    destruct p as [a l]; cbn [pp_abs pp_parts]; now rewrite B.
Qed.
Lemma find_parent fail p : broken p = true -> pp_parts p <> [] ->
  find_cache_root cache broken variants fail p = find_cache_root cache broken variants fail (pp_parent p).
Proof.
  intros B N. unfold find_cache_root. destruct p as [a l]. cbn [pp_abs pp_parts pp_parent] in *.
  destruct (exists_last N) as (l' & x & ->). rewrite removelast_last, rev_app_distr. cbn [rev app find_root].
  now rewrite rev_involutive, B.
Qed.

(** Every answer is a directory above a variant that has a cache and is not "/". *)
Lemma over_sound fail found vs r : (forall q, found = Some q -> q = slash) ->
  over cache fail found vs = Ok (Some r) -> exists v, In v vs /\ at_or_above r v /\ cached r /\ r <> slash.
Proof.
  revert found. induction vs as [|v vs IH]; intros found F H; [discriminate|]. cbn [over] in H.
  assert (C : forall l found x, (forall q, found = Some q -> q <> slash -> cached q /\ at_or_above q v) ->
     (forall q, In q l -> at_or_above q v) -> climb cache fail found l = Ok x ->
     match x with inl q => cached q /\ at_or_above q v /\ q <> slash | inr f => forall q, f = Some q -> q <> slash -> cached q /\ at_or_above q v end).
  { clear. induction l as [|y l IH]; intros found x A B E; [cbn in E; injection E as <-; exact A|]. cbn [climb] in E.
    destruct (cache y) as [[]|e] eqn:Y.
    - eapply IH; [| |exact E]; [intros q Q _; injection Q as <-; split; [exact Y|apply B; now left]|intros q Q; apply B; now right].
    - eapply IH; [exact A| |exact E]. intros q Q; apply B; now right.
    - destruct (lost e); [|discriminate]. destruct fail; [discriminate|]. destruct (usable found) as [f|] eqn:U.
      + injection E as <-. apply usable_some in U as [-> U]. destruct (A f eq_refl U). auto.
      + eapply IH; [exact A| |exact E]. intros q Q; apply B; now right. }
  destruct (climb cache fail found (chain v)) as [x|e] eqn:E; [|discriminate]. cbn in H.
  assert (X := C (chain v) found x (fun q Q N => False_ind _ (N (F q Q))) (fun q Q => proj1 (in_chain v q) Q) E). clear C.
  destruct x as [q|f].
  - injection H as <-. exists v. split; [now left|]. tauto.
  - destruct (usable f) as [q|] eqn:U.
    + injection H as <-. apply usable_some in U as [-> U]. destruct (X q eq_refl U). exists v. split; [now left|]. tauto.
    + destruct (IH f) as (u & U1 & U2); [|exact H|exists u; split; [now right|exact U2]].
      intros q ->. apply usable_none in U as [U|U]; [discriminate|now injection U].
Qed.
Lemma find_sound fail p r : find_cache_root cache broken variants fail p = Ok (Some r) ->
  exists q v, at_or_above q p /\ broken q = false /\ In v (variants q) /\ at_or_above r v /\ cached r /\ r <> slash.
Proof.
  destruct p as [a l]. induction l as [|x l IH] using rev_ind.
  - destruct (broken (mkPP a [])) eqn:B.
    + unfold find_cache_root. cbn. rewrite B. discriminate.
    + rewrite find_here by exact B. intro H. apply over_sound in H as (v & V); [|discriminate]. exists (mkPP a []), v. split; [apply above_refl|]. tauto.
  - destruct (broken (mkPP a (l ++ [x]))) eqn:B.
    + rewrite find_parent; [|exact B|cbn; now destruct l]. unfold pp_parent. cbn [pp_abs pp_parts]. rewrite removelast_last.
      intro H. apply IH in H as (q & v & A & R). exists q, v. split; [|exact R]. eapply above_trans; [exact A|]. split; [reflexivity|]. now exists [x].
    + rewrite find_here by exact B. intro H. apply over_sound in H as (v & V); [|discriminate]. exists (mkPP a (l ++ [x])), v. split; [apply above_refl|]. tauto.
Qed.

(** One variant: the topmost, unless that is "/". *)
Lemma find_one fail p : broken p = false -> variants p = [p] -> told p ->
  (exists q, topmost cached p q /\ q <> slash /\ find_cache_root cache broken variants fail p = Ok (Some q)) \/
  ((topmost cached p slash \/ forall q, at_or_above q p -> ~ cached q) /\ find_cache_root cache broken variants fail p = Ok None).
Proof.
  intros B V T. rewrite (find_here _ _ B), V. cbn [over]. destruct (climb_top fail None p T) as (f & -> & D). cbn.
  destruct D as [[-> N]|(q & Q & ->)].
  - right. split; [now right|reflexivity].
  - destruct (usable (Some q)) as [u|] eqn:U.
    + apply usable_some in U as [U N]. injection U as <-. left. now exists q.
    + apply usable_none in U as [U|U]; [discriminate|]. injection U as ->. right. split; [now left|reflexivity].
Qed.
Lemma topmost_exists p : told p -> (exists q, topmost cached p q) \/ forall q, at_or_above q p -> ~ cached q.
Proof. intro T. destruct (climb_top false None p T) as (f & _ & [[_ N]|(q & Q & _)]); [now right|left; now exists q]. Qed.
Lemma find_exact fail p r : broken p = false -> variants p = [p] -> told p ->
  find_cache_root cache broken variants fail p = Ok (Some r) <-> topmost cached p r /\ r <> slash.
Proof.
  intros B V T. destruct (find_one fail p B V T) as [(q & Q & N & E)|[D E]]; rewrite E; split.
  - intro H. injection H as <-. auto.
  - intros [R _]. now rewrite (topmost_fun _ _ _ _ Q R).
  - discriminate.
  - intros [R N]. destruct D as [D|D]; [now rewrite (topmost_fun _ _ _ _ D R) in N|]. destruct R as (R1 & R2 & _). now apply D in R2.
Qed.
(** Nothing on the way: None, whatever [fail] is. *)
Lemma over_none fail vs : (forall v q, In v vs -> at_or_above q v -> cache q = Ok false) -> over cache fail None vs = Ok None.
Proof.
  induction vs as [|v vs IH]; intro N; [reflexivity|]. cbn [over].
  destruct (climb_top fail None v) as (f & -> & [[-> _]|(q & (Q1 & Q2 & _) & _)]).
  - intros q Q. exists false. apply (N v q (or_introl eq_refl) Q).
  - cbn. apply IH. intros u q U. apply N. now right.
  - unfold cached in Q2. rewrite (N v q (or_introl eq_refl) Q1) in Q2. discriminate.
Qed.

(** In one tree the topmost is the root of the tree. *)
Lemma topmost_root p q : one_tree cached p -> topmost cached p q -> told p -> root_of cached p q.
Proof.
  intros O (A & C & U) T.
  assert (Ne : exists n, at_or_above n p /\ cached n /\ at_or_above q n /\ forall u, at_or_above u p -> at_or_above n u -> cached u -> u = n).
  { destruct p as [a l]. destruct A as [A1 [r A2]]. destruct q as [b m]. cbn in A1, A2. subst b l.
    clear U O. revert T. induction r as [|x r IH] using rev_ind; intro T.
    - exists (mkPP a m). rewrite app_nil_r. repeat split; try apply above_refl; try exact C.
      intros u U1 U2 _. now apply above_anti.
    - rewrite app_assoc in *. destruct (T (mkPP a ((m ++ r) ++ [x])) (above_refl _)) as [[] B].
      + exists (mkPP a ((m ++ r) ++ [x])). repeat split; try apply above_refl; try exact B.
        * cbn. exists (r ++ [x]). now rewrite app_assoc.
        * intros u U1 U2 _. now apply above_anti.
      + destruct IH as (n & N1 & N2 & N3 & N4).
        { intros z Z. apply T. eapply above_trans; [exact Z|]. split; [reflexivity|]. now exists [x]. }
        exists n. split; [eapply above_trans; [exact N1|]; split; [reflexivity|]; now exists [x]|]. split; [exact N2|]. split; [exact N3|].
        intros u U1 U2 U3. apply N4; [|exact U2|exact U3]. apply in_chain in U1. unfold chain in U1. cbn [pp_abs pp_parts] in U1.
        rewrite rev_app_distr in U1. cbn [rev app ups] in U1. destruct U1 as [U1|U1].
        * exfalso. unfold cached in U3. rewrite <- U1 in U3. cbn [rev] in U3. rewrite rev_involutive in U3. congruence.
        * rewrite in_ups, rev_involutive in U1. exact U1. }
  destruct Ne as (n & N1 & N2 & N3 & N4). exists n. refine (conj N1 (conj N2 (conj N4 (conj N3 (conj _ _))))).
  - intros u U1 U2. exact (O q u n U2 U1 N1 C N2).
  - intros P K. assert (X : pp_parts (pp_parent q) = pp_parts q).
    { f_equal. apply U; [|exact K]. split; [reflexivity|]. exists [last (pp_parts q) []]. cbn. now apply app_removelast_last. }
    destruct (exists_last P) as (m & x & M). cbn in X. rewrite M, removelast_last in X. rewrite <- (app_nil_r m) in X at 1. apply app_inv_head in X. discriminate.
Qed.
Lemma find_root_of fail p r : broken p = false -> variants p = [p] -> told p -> one_tree cached p -> cache slash = Ok false ->
  find_cache_root cache broken variants fail p = Ok (Some r) <-> root_of cached p r.
Proof.
  intros B V T O S. rewrite find_exact by assumption. split.
  - intros [R _]. now apply topmost_root.
  - intros (n & N1 & N2 & N3 & N4 & N5 & N6).
    assert (CR : cached r) by (apply N5; [exact N4|apply above_refl]).
    split; [|intros ->; unfold cached in CR; congruence].
    split; [now apply above_trans with n|]. split; [exact CR|]. intros u U1 U2.
    destruct (pp_parts r) as [|y l] eqn:R.
    + destruct U1 as [U1 [s U3]]. rewrite R in U3. symmetry in U3. apply app_eq_nil in U3 as [U3 _]. destruct u, r. cbn in *. congruence.
    + assert (Up : at_or_above u (pp_parent r) \/ u = r).
      { destruct U1 as [U1 [s U3]]. destruct s as [|z s] using rev_ind.
        - right. rewrite app_nil_r in U3. destruct u, r. cbn in *. congruence.
        - left. split; [exact U1|]. exists s. cbn. rewrite U3, app_assoc. apply removelast_last. }
      destruct Up as [Up|Up]; [|exact Up]. exfalso. apply N6; [discriminate|].
      refine (O u (pp_parent r) r Up _ _ U2 CR).
      * split; [reflexivity|]. exists [last (pp_parts r) []]. cbn. apply app_removelast_last. now rewrite R.
      * now apply above_trans with n.
Qed.

Lemma find_slash fail p : broken p = false -> variants p = [p] -> (forall q, at_or_above q p -> cache q = Ok true) -> pp_abs p = true ->
  find_cache_root cache broken variants fail p = Ok None.
Proof.
  intros B V A P. destruct (find_one fail p B V) as [(q & (Q1 & Q2 & Q3) & N & _)|[_ E]]; [intros q Q; exists true; now apply A| |exact E].
  exfalso. apply N. symmetry. apply Q3; [|apply A; now apply slash_above]. apply slash_above. destruct Q1 as [Q1 _]. congruence.
Qed.

(** ** Ignored paths *)
Variable anchor : res ppath.
Lemma rel_below a p x r : pp_abs a = pp_abs p -> pp_parts p = pp_parts a ++ x :: r -> relative_to p a = Ok (mkPP false (x :: r)).
Proof.
  intros A B. unfold relative_to. rewrite A, eqb_reflx, B. cbn [andb].
  assert (P : forall l, prefixb str_eqb l (l ++ x :: r) = true) by (clear; induction l as [|y l IH]; cbn; [reflexivity|]; now rewrite str_eqb_refl).
  rewrite P. now rewrite skipn_app, skipn_all, Nat.sub_diag.
Qed.
(** Below the directory that counts, it is the first name that says. *)
Lemma skip_below a p x : cache p = Ok false -> cache (pp_parent p) = Ok true -> anchor = Ok a -> in_entry a p x ->
  skip_cache cache broken variants anchor p = Ok (existsb (str_eqb x) cache_ignore).
Proof.
  intros C P A [I [r J]]. unfold skip_cache. rewrite C, P, A. cbn. rewrite (rel_below _ _ _ _ I J). reflexivity.
Qed.
Lemma skip_root p q x : cache p = Ok false -> cache (pp_parent p) = Ok false -> find_cache_root cache broken variants true p = Ok (Some q) -> in_entry q p x ->
  skip_cache cache broken variants anchor p = Ok (existsb (str_eqb x) cache_ignore).
Proof.
  intros C P A [I [r J]]. unfold skip_cache. rewrite C, P, A. cbn. rewrite (rel_below _ _ _ _ I J). reflexivity.
Qed.
Lemma skip_lost p : cache p = Ok false -> cache (pp_parent p) = Ok false -> find_cache_root cache broken variants true p = Ok None ->
  skip_cache cache broken variants anchor p = Err TypeError.
Proof. intros C P A. unfold skip_cache. now rewrite C, P, A. Qed.
Lemma ignored_iff x : existsb (str_eqb x) cache_ignore = true <-> In x cache_ignore.
Proof.
  rewrite existsb_exists. split; [intros (y & A & B); apply str_eqb_eq in B; now subst|]. intro A. exists x. split; [exact A|apply str_eqb_refl].
Qed.
Lemma said_iff x r : r = Ok (existsb (str_eqb x) cache_ignore) -> (r = Ok true <-> In x cache_ignore) /\ (r = Ok false <-> ~ In x cache_ignore).
Proof.
  intros ->. rewrite <- ignored_iff. destruct (existsb _ _); split; split; intro H; try reflexivity; try discriminate; try congruence.
Qed.
Lemma skip_below_iff a p x : cache p = Ok false -> cache (pp_parent p) = Ok true -> anchor = Ok a -> in_entry a p x ->
  (skip_cache cache broken variants anchor p = Ok true <-> In x cache_ignore) /\
  (skip_cache cache broken variants anchor p = Ok false <-> ~ In x cache_ignore).
Proof. intros A B C D. apply said_iff. eapply skip_below; eassumption. Qed.
Lemma skip_root_iff p q x : cache p = Ok false -> cache (pp_parent p) = Ok false -> find_cache_root cache broken variants true p = Ok (Some q) -> in_entry q p x ->
  (skip_cache cache broken variants anchor p = Ok true <-> In x cache_ignore) /\
  (skip_cache cache broken variants anchor p = Ok false <-> ~ In x cache_ignore).
Proof. intros A B C D. apply said_iff. eapply skip_root; eassumption. Qed.
Lemma skip_cached p : cache p = Ok true -> skip_cache cache broken variants anchor p = Ok true.
Proof. intro A. unfold skip_cache. now rewrite A. Qed.
Lemma skip_outside p : broken p = false -> (forall v q, In v (variants p) -> at_or_above q v -> cache q = Ok false) ->
  In p (variants p) -> skip_cache cache broken variants anchor p = Err TypeError.
Proof.
  intros B A I. apply skip_lost.
  - apply (A p p I). apply above_refl.
  - apply (A p _ I). split; [reflexivity|]. cbn. destruct (pp_parts p) as [|x l] eqn:P; [now exists []|].
    exists [last (pp_parts p) []]. rewrite P. apply app_removelast_last. discriminate.
  - rewrite find_here by exact B. now apply over_none.
Qed.
End Root.
