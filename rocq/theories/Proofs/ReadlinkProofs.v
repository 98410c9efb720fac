(** Proofs about following a link by hand. *)
From Coq Require Import String NArith ZArith Bool List.
From Verif Require Import Model.Py Model.PurePath Model.Fs Model.Readlink.
From Verif Require Import Spec.FsSpec Spec.ReadlinkSpec Spec.LoopSpec.
From Verif Require Import Proofs.PyLemmas Proofs.PathLemmas Proofs.FsLemmas Proofs.RunLemmas.
Import ListNotations.

Section Hand.
Variable root : node.

(** ** With fewer links it is the same, or they are too many *)
Lemma walk_fewer f b : forall b' cur comps, b <= b' ->
  walk_from root f b cur comps = walk_from root f b' cur comps \/
  walk_from root f b cur comps = Fail ELOOP.
Proof.
  induction b as [|b IHb]; intros b' cur comps L; revert cur;
    induction comps as [|c rest IH]; intros cur;
    rewrite (walk_eq root f b' cur), (walk_eq root f _ cur);
    destruct (get root cur) as [m|] eqn:G; try (left; reflexivity);
    destruct m as [d xs|xs es|t]; try (left; reflexivity);
    destruct (str_eqb c $"."); try (now apply IH); destruct (str_eqb c $".."); try (now apply IH);
    destruct (entry c es) as [[d' xs'|xs' es'|t']|] eqn:E; try (now apply IH); try (left; reflexivity);
    destruct (match rest with [] => negb f | _ => false end) eqn:F; try (left; reflexivity);
    try (right; reflexivity).
  destruct b' as [|b']; [inversion L|]. destruct t' as [|a t']; [now left|].
  apply IHb. now apply PeanoNat.Nat.succ_le_mono.
Qed.

Lemma walk_more f b b' cur comps p n : b <= b' ->
  walk_from root f b cur comps = Found p n -> walk_from root f b' cur comps = Found p n.
Proof.
  intros L H. destruct (walk_fewer f b b' cur comps L) as [E|E]; rewrite H in E; [now symmetry|discriminate].
Qed.

(** ** The beginning of a path *)
Lemma walk_split b : forall cur l d n, walk_from root true b cur l = Found d n ->
  exists b', b' <= b /\ forall f r, r <> [] ->
    walk_from root f b cur (l ++ r) = walk_from root f b' d r.
Proof.
  assert (R : forall f (rest r : list str), r <> [] ->
    (match rest ++ r with [] => negb f | _ => false end) = false).
  { intros f rest r N. destruct rest; [|reflexivity]. destruct r; [now destruct N|reflexivity]. }
  induction b as [|b IHb]; intros cur l; revert cur; induction l as [|c rest IH]; intros cur d n H;
    rewrite walk_eq in H; destruct (get root cur) as [m|] eqn:G; try discriminate;
    try (injection H as <- _; exists 0; now split);
    try (injection H as <- _; exists (S b); now split);
    destruct m as [d0 xs|xs es|t]; try discriminate;
    (destruct (str_eqb c $".") eqn:D1;
      [apply IH in H as (b' & L & H); exists b'; split; [exact L|];
       intros f r N; cbn [app]; rewrite walk_eq, G, D1; now apply H|]);
    (destruct (str_eqb c $"..") eqn:D2;
      [apply IH in H as (b' & L & H); exists b'; split; [exact L|];
       intros f r N; cbn [app]; rewrite walk_eq, G, D1, D2; now apply H|]);
    destruct (entry c es) as [[d' xs'|xs' es'|t']|] eqn:E; try (destruct rest; discriminate);
    try (apply IH in H as (b' & L & H); exists b'; split; [exact L|];
       intros f r N; cbn [app]; rewrite walk_eq, G, D1, D2, E; now apply H).
  assert (F : (match rest with [] => negb true | _ => false end) = false) by (destruct rest; reflexivity).
  rewrite F in H. destruct t' as [|a t']; [discriminate|].
  apply IHb in H as (b' & L & H). exists b'. split; [now apply le_S|].
  intros f r N. cbn [app]. rewrite walk_eq, G, D1, D2, E, R by exact N.
  rewrite app_assoc. now apply H.
Qed.

(** The last name of a path that is a link is a name. *)
Lemma last_is_name b : forall cur l c q t, walk_from root false b cur (l ++ [c]) = Found q (Link t) ->
  c <> $"." /\ c <> $"..".
Proof.
  assert (K : forall x, (x = $"." \/ x = $"..") -> forall b cur q t,
     walk_from root false b cur [x] <> Found q (Link t)).
  { intros x X b0 cur q t H. rewrite walk_eq in H.
    destruct (get root cur) as [m|] eqn:G; [|discriminate]. destruct m as [d xs|xs es|t0]; try discriminate.
    destruct X as [-> | ->]; cbn [str_eqb] in H.
    - change (str_eqb $"." $".") with true in H. cbn iota in H.
      rewrite walk_eq, G in H. discriminate.
    - change (str_eqb $".." $".") with false in H. change (str_eqb $".." $"..") with true in H. cbn iota in H.
      rewrite walk_eq in H. destruct (get root (removelast cur)) as [m|] eqn:G2; [|discriminate].
      injection H as <- ->. destruct cur as [|y cur]; [cbn in G2, G; congruence|].
      destruct (exists_last (l := y :: cur)) as (k & z & EC); [discriminate|]. rewrite EC in *.
      rewrite removelast_last in G2. rewrite get_snoc, G2 in G. discriminate. }
  intros cur l c q t. revert cur l q t.
  assert (W : forall x, (x = $"." \/ x = $"..") -> forall b cur l q t,
     walk_from root false b cur (l ++ [x]) <> Found q (Link t)).
  { intros x X. induction b0 as [|b0 IHb]; intros cur l; revert cur; induction l as [|y l IH];
    intros cur q t H; try (now apply (K x X) in H); cbn [app] in H; rewrite walk_eq in H;
    destruct (get root cur) as [m|] eqn:G; try discriminate;
    destruct m as [d xs|xs es|t0]; try discriminate;
    destruct (str_eqb y $"."); try (now apply IH in H); destruct (str_eqb y $".."); try (now apply IH in H);
    destruct (entry y es) as [[d' xs'|xs' es'|t']|] eqn:E; try (now apply IH in H);
    try (destruct (l ++ [x]) eqn:Z; [destruct l; discriminate|discriminate]).
    destruct (l ++ [x]) eqn:Z; [destruct l; discriminate|]. rewrite <- Z in H.
    destruct t' as [|a t']; [discriminate|]. rewrite app_assoc in H. now apply IHb in H. }
  intros cur l q t H. split; intros ->; [apply (W $"." (or_introl eq_refl) b cur l q t H)|
    apply (W $".." (or_intror eq_refl) b cur l q t H)].
Qed.

(** ** Dots left out *)
Inductive fewer_dots : list str -> list str -> Prop :=
| fd_nil : fewer_dots [] []
| fd_keep c l l' : fewer_dots l l' -> fewer_dots (c :: l) (c :: l')
| fd_drop l l' : fewer_dots l l' -> fewer_dots ($"." :: l) l'.

Lemma fd_refl l : fewer_dots l l.
Proof. induction l; constructor; assumption. Qed.
Lemma fd_app l l' k k' : fewer_dots l l' -> fewer_dots k k' -> fewer_dots (l ++ k) (l' ++ k').
Proof. intros H K. induction H; cbn; try constructor; assumption. Qed.
Lemma fd_nil_last l : fewer_dots l [] -> l = [] \/ last l [] = $".".
Proof.
  remember (@nil str) as k. intro H. induction H as [|c l l' H IH|l l' H IH]; [now left|discriminate|].
  subst l'. right. destruct (IH eq_refl) as [-> | E]; [reflexivity|]. destruct l; [reflexivity|exact E].
Qed.
Lemma fd_nil_eq l' : fewer_dots [] l' -> l' = [].
Proof. intro H. now inversion H. Qed.

Lemma dots_forward b : forall cur l l' q n, fewer_dots l l' ->
  walk_from root true b cur l = Found q n -> walk_from root true b cur l' = Found q n.
Proof.
  induction b as [|b IHb]; intros cur l l' q n D; revert cur;
    induction D as [|c l l' D IH|l l' D IH]; intros cur H; try exact H.
  - rewrite walk_eq in H; rewrite walk_eq; destruct (get root cur) as [m|] eqn:G; try discriminate.
    destruct m as [d xs|xs es|t]; try discriminate.
    destruct (str_eqb c $"."); try (now apply IH). destruct (str_eqb c $".."); try (now apply IH).
    destruct (entry c es) as [[d' xs'|xs' es'|t']|] eqn:E; try (now apply IH); try (destruct l; discriminate).
  - rewrite walk_eq in H; destruct (get root cur) as [m|] eqn:G; try discriminate.
    destruct m as [d xs|xs es|t]; try discriminate. change (str_eqb $"." $".") with true in H. now apply IH.
  - rewrite walk_eq in H; rewrite walk_eq; destruct (get root cur) as [m|] eqn:G; try discriminate.
    destruct m as [d xs|xs es|t]; try discriminate.
    destruct (str_eqb c $"."); try (now apply IH). destruct (str_eqb c $".."); try (now apply IH).
    destruct (entry c es) as [[d' xs'|xs' es'|t']|] eqn:E; try (now apply IH); try (destruct l; discriminate).
    assert (F : forall k : list str, (match k with [] => negb true | _ => false end) = false)
      by (intros []; reflexivity).
    rewrite F in *. destruct t' as [|a t']; [discriminate|].
    apply (IHb _ (kcomps (a :: t') ++ l)); [|exact H]. apply fd_app; [apply fd_refl|exact D].
  - rewrite walk_eq in H; destruct (get root cur) as [m|] eqn:G; try discriminate.
    destruct m as [d xs|xs es|t]; try discriminate. change (str_eqb $"." $".") with true in H. now apply IH.
Qed.

Lemma last_app_ne {A} (k l : list A) d : l <> [] -> last (k ++ l) d = last l d.
Proof.
  intro N. induction k as [|x k IH]; [reflexivity|]. cbn [app].
  rewrite <- IH. destruct (k ++ l) eqn:E; [|reflexivity]. apply app_eq_nil in E as [_ E]. now destruct N.
Qed.

Definition not_dir (n : node) : Prop := forall xs es, n <> Dir xs es.

Lemma dots_back b : forall cur l l' q n, fewer_dots l l' ->
  walk_from root true b cur l' = Found q n ->
  walk_from root true b cur l = Found q n \/
  (walk_from root true b cur l = Fail ENOTDIR /\ not_dir n /\ last l [] = $".").
Proof.
  assert (DR : forall b cur l l' q n, fewer_dots l l' ->
    (forall cur, walk_from root true b cur l' = Found q n ->
       walk_from root true b cur l = Found q n \/
       (walk_from root true b cur l = Fail ENOTDIR /\ not_dir n /\ last l [] = $".")) ->
    walk_from root true b cur l' = Found q n ->
    walk_from root true b cur ($"." :: l) = Found q n \/
    (walk_from root true b cur ($"." :: l) = Fail ENOTDIR /\ not_dir n /\ last ($"." :: l) [] = $".")).
  { intros b0 cur l l' q n D IH H. rewrite (walk_eq root true b0 cur ($"." :: l)).
    pose proof H as H0. rewrite walk_eq in H0.
    destruct (get root cur) as [m|] eqn:G; try discriminate.
    change (str_eqb $"." $".") with true. cbn iota.
    destruct m as [d xs|xs es|t].
    - destruct l' as [|c l']; [|discriminate]. injection H0 as <- <-. right.
      split; [reflexivity|]. split; [intros ? ?; discriminate|].
      destruct (fd_nil_last _ D) as [-> | L]; [reflexivity|]. destruct l; [reflexivity|exact L].
    - destruct (IH cur H) as [K|(K & N & L)]; [now left|right]. split; [exact K|]. split; [exact N|].
      destruct l; [reflexivity|exact L].
    - destruct l' as [|c l']; [|discriminate]. injection H0 as <- <-. right.
      split; [reflexivity|]. split; [intros ? ?; discriminate|].
      destruct (fd_nil_last _ D) as [-> | L]; [reflexivity|]. destruct l; [reflexivity|exact L]. }
  assert (F : forall k : list str, (match k with [] => negb true | _ => false end) = false)
      by (intros []; reflexivity).
  assert (LC : forall (c : str) l, l <> [] -> last (c :: l) [] = last l []) by (intros c [|x l] N; [now destruct N|reflexivity]).
  induction b as [|b IHb]; intros cur l l' q n D; revert cur;
    induction D as [|c l l' D IH|l l' D IH]; intros cur H; try (left; exact H);
    try (apply (DR _ cur l l'); assumption).
  - destruct l as [|x l]; [apply fd_nil_eq in D as ->; now left|]. rewrite LC by discriminate.
    remember (x :: l) as k eqn:EK.
    rewrite walk_eq in H; rewrite walk_eq; destruct (get root cur) as [m|] eqn:G; try discriminate.
    destruct m as [d xs|xs es|t]; try discriminate.
    destruct (str_eqb c $"."); try (now apply IH). destruct (str_eqb c $".."); try (now apply IH).
    destruct (entry c es) as [[d' xs'|xs' es'|t']|] eqn:E; try (now apply IH).
    + rewrite F in H. discriminate.
    + destruct l'; discriminate.
  - destruct l as [|x l]; [apply fd_nil_eq in D as ->; now left|]. rewrite LC by discriminate.
    remember (x :: l) as k eqn:EK.
    rewrite walk_eq in H; rewrite walk_eq; destruct (get root cur) as [m|] eqn:G; try discriminate.
    destruct m as [d xs|xs es|t]; try discriminate.
    destruct (str_eqb c $"."); try (now apply IH). destruct (str_eqb c $".."); try (now apply IH).
    destruct (entry c es) as [[d' xs'|xs' es'|t']|] eqn:E; try (now apply IH).
    + rewrite F in *. destruct t' as [|a t']; [discriminate|].
      apply (IHb _ (kcomps (a :: t') ++ k)) in H.
      * rewrite last_app_ne in H by (subst k; discriminate). exact H.
      * apply fd_app; [apply fd_refl|exact D].
    + destruct l'; discriminate.
Qed.

(** ** The text of a link *)
Lemma fd_filter (l : list str) :
  fewer_dots (filter (fun c => negb (str_eqb c [])) l) (filter real_part l).
Proof.
  induction l as [|c l IH]; [constructor|]. cbn [filter]. unfold real_part at 1.
  destruct (str_eqb c []) eqn:E1; cbn [negb orb]; [exact IH|].
  destruct (str_eqb c $".") eqn:E2; cbn [negb orb]; [|now constructor].
  apply str_eqb_eq in E2 as ->. now constructor.
Qed.

Lemma fd_text t : fewer_dots (kcomps t) (pp_parts (pp_parse t)).
Proof.
  unfold kcomps, pp_parse. cbn [pp_parts]. rewrite <- (app_nil_r (filter real_part _)).
  apply fd_app; [apply fd_filter|]. destruct (match rev t with [] => _ | _ => _ end); repeat constructor.
Qed.

Lemma last_filter (p : str -> bool) l : l <> [] -> p (last l []) = true -> last (filter p l) [] = last l [].
Proof.
  intros N P. destruct l as [|x l] using rev_ind; [now destruct N|]. clear IHl.
  rewrite last_last in *. rewrite filter_app. cbn [filter]. rewrite P. apply last_last.
Qed.

Lemma asks t : last (kcomps t) [] = $"." -> asks_dir t.
Proof.
  unfold kcomps. destruct (rev t) as [|c r] eqn:R.
  { assert (T : t = []) by (rewrite <- (rev_involutive t), R; reflexivity). subst t. cbn. discriminate. }
  assert (T : t = rev r ++ [c]) by (rewrite <- (rev_involutive t), R; reflexivity).
  destruct (N.eqb c (chr "/")) eqn:C.
  - intros _. apply N.eqb_eq in C. subst c. right. exists (rev r). left. exact T.
  - rewrite app_nil_r. intro L. apply N.eqb_neq in C.
    pose proof (split_nonempty (chr "/") t) as N. pose proof (join_split (chr "/") t) as J.
    destruct (split (chr "/") t) as [|y ys] using rev_ind; [now destruct N|]. clear IHys.
    assert (Y : y <> []).
    { intros ->. destruct ys as [|z zs].
      - cbn in J. rewrite T in J. destruct (rev r); discriminate J.
      - assert (Q : exists s, join [chr "/"] ((z :: zs) ++ [[]]) = s ++ [chr "/"]).
        { clear. revert z. induction zs as [|w zs IH]; intro z.
          - exists z. cbn. reflexivity.
          - destruct (IH w) as [s S]. exists (z ++ [chr "/"] ++ s).
            cbn [app] in S |- *. rewrite join_cons, S. now rewrite <- !app_assoc. }
        destruct Q as [s Q]. pose proof (eq_trans (eq_sym Q) (eq_trans J T)) as Z.
        apply app_inj_tail in Z as [_ Z]. now apply C. }
    rewrite last_filter in L; [|now intro Z; apply N|rewrite last_last; now apply negb_true_iff, str_eqb_neq].
    rewrite last_last in L. subst y. destruct ys as [|z zs].
    + left. cbn in J. now rewrite <- J.
    + right. assert (Q : exists s, join [chr "/"] ((z :: zs) ++ [$"."]) = s ++ $"/.").
      { clear. revert z. induction zs as [|w zs IH]; intro z.
        - exists z. cbn. reflexivity.
        - destruct (IH w) as [s S]. exists (z ++ [chr "/"] ++ s).
          cbn [app] in S |- *. rewrite join_cons, S. now rewrite <- !app_assoc. }
      destruct Q as [s Q]. exists s. right. exact (eq_trans (eq_sym J) Q).
Qed.

End Hand.

(** ** Following by hand *)
Section Whole.
Variables (fs : node) (cwd : place).
Hypothesis Hroot : is_dir_at fs [].
Hypothesis Hcwd : is_dir_at fs cwd.
Hypothesis Htext : texts fs.

Lemma from_is_dir p : exists xs es, get fs (if pp_abs p then [] else cwd) = Some (Dir xs es).
Proof. destruct (pp_abs p); [destruct Hroot as [xs H]|destruct Hcwd as [xs H]]; apply look_dir in H as [es H]; eauto. Qed.

(** A link and what there is around it. *)
Lemma link_shape p q t : walk fs cwd false p = Found q (Link t) ->
  exists l c d xs es b, pp_parts p = l ++ [c] /\ b <= max_links /\
    walk_from fs true max_links (if pp_abs p then [] else cwd) l = Found d (Dir xs es) /\
    t <> [] /\
    (forall f r, r <> [] -> walk_from fs f max_links (if pp_abs p then [] else cwd) (l ++ r) = walk_from fs f b d r) /\
    walk fs cwd true p =
      match b with
      | O => Fail ELOOP
      | S b' => walk_from fs true b' (if startswith t $"/" then [] else d) (kcomps t)
      end.
Proof.
  intro H. unfold walk in *. set (cur := if pp_abs p then [] else cwd) in *.
  destruct (pp_parts p) as [|c l _] eqn:EP using rev_ind.
  { rewrite walk_eq in H. destruct (from_is_dir p) as (xs & es & G). fold cur in G. rewrite G in H. discriminate. }
  destruct (last_is_name _ _ _ _ _ _ _ H) as [N1 N2].
  destruct (walk_snoc_found _ _ _ _ _ _ _ N1 N2 H) as (d & xs & es & W & Q). subst q.
  destruct (walk_split _ _ _ _ _ _ W) as (b & L & S).
  pose proof (walk_found_get _ _ _ _ _ _ _ H) as G. pose proof (walk_found_get _ _ _ _ _ _ _ W) as GD.
  rewrite get_snoc, GD in G.
  assert (T : t <> []).
  { intros ->. apply (Htext (d ++ [c])). apply look_link. now rewrite get_snoc, GD. }
  exists l, c, d, xs, es, b. repeat match goal with |- _ /\ _ => split end; try assumption; try reflexivity.
  rewrite S by discriminate. rewrite walk_eq, GD. apply str_eqb_neq in N1, N2. rewrite N1, N2, G.
  cbn [negb]. destruct b; [reflexivity|]. destruct t; [now destruct T|]. now rewrite app_nil_r.
Qed.

Definition hand (p : ppath) (t : str) : ppath := pp_join (pp_parent p) (pp_parse t).

(** Where the path by hand is looked up. *)
Lemma hand_walk p q t : walk fs cwd false p = Found q (Link t) ->
  exists cur b1 b2, b1 <= b2 /\ 
      walk fs cwd true (hand p t) = walk_from fs true b2 cur (pp_parts (pp_parse t)) /\
      (walk fs cwd true p = Fail ELOOP \/
       walk fs cwd true p = walk_from fs true b1 cur (kcomps t)).
Proof.
  intro H. destruct (link_shape p q t H) as (l & c & d & xs & es & b & EP & L & W & T & S & P).
  assert (PA : pp_parent p = mkPP (pp_abs p) l) by (unfold pp_parent; rewrite EP, removelast_last; reflexivity).
  exists (if startswith t $"/" then [] else d), (pred b).
  destruct (startswith t $"/") eqn:A.
  - exists max_links. split; [etransitivity; [apply PeanoNat.Nat.le_pred_l|exact L]|]. split.
    + assert (B : pp_abs (pp_parse t) = true) by exact A. unfold hand, pp_join, walk. now rewrite !B.
    + rewrite P. destruct b; [now left|now right].
  - assert (HW : walk fs cwd true (hand p t) =
       walk_from fs true max_links (if pp_abs p then [] else cwd) (l ++ pp_parts (pp_parse t))).
    { assert (B : pp_abs (pp_parse t) = false) by exact A.
      unfold hand, pp_join, walk. rewrite PA, !B. reflexivity. }
    exists b. split; [apply PeanoNat.Nat.le_pred_l|]. split.
    + rewrite HW. destruct (pp_parts (pp_parse t)) as [|x r] eqn:R.
      * rewrite app_nil_r, W. rewrite walk_eq. now rewrite (walk_found_get _ _ _ _ _ _ _ W).
      * apply S. discriminate.
    + rewrite P. destruct b; [now left|now right].
Qed.

Lemma hand_opens p q t r : walk fs cwd false p = Found q (Link t) ->
  opens fs cwd p r -> opens fs cwd (hand p t) r.
Proof.
  intros H [n O]. destruct (hand_walk p q t H) as (cur & b1 & b2 & L & HW & [E|E]); rewrite O in E; [discriminate|].
  exists n. rewrite HW. apply (walk_more _ _ b1); [exact L|].
  apply (dots_forward _ _ _ (kcomps t)); [apply fd_text|now symmetry].
Qed.

Lemma hand_back p q t r : walk fs cwd false p = Found q (Link t) ->
  opens fs cwd (hand p t) r ->
  opens fs cwd p r \/ refuses fs cwd p ELOOP \/
  (refuses fs cwd p ENOTDIR /\ asks_dir t /\ ~ is_dir_at fs r).
Proof.
  intros H [n O]. destruct (hand_walk p q t H) as (cur & b1 & b2 & L & HW & [E|E]); [right; now left|].
  rewrite O in HW. symmetry in HW. pose proof (walk_found_get _ _ _ _ _ _ _ HW) as G.
  destruct (walk_fewer fs true b1 b2 cur (kcomps t) L) as [K|K]; rewrite K in E; [|right; now left].
  destruct (dots_back _ _ _ _ _ _ _ (fd_text t) HW) as [F|(F & N & A)].
  - left. exists n. now rewrite E.
  - right. right. split; [unfold refuses; now rewrite E|]. split; [now apply asks|].
    intros [xs D]. apply look_dir in D as [es D]. rewrite G in D. injection D as ->. now apply (N xs es).
Qed.
End Whole.

(** ** Runs *)
Lemma raw_inv p w r w' : p_readlink_raw p w = (r, w') ->
  w_fs w' = w_fs w /\ w_cwd w' = w_cwd w /\
  forall t, r = Ok t -> exists q, walk (w_fs w) (w_cwd w) false p = Found q (Link t).
Proof.
  unfold p_readlink_raw, sys_readlink, ask, lookup. intro H.
  destruct (w_fault w (w_tick w)) as [e|]; injection H as <- <-; cbn [w_fs w_cwd];
    (split; [reflexivity|]; split; [reflexivity|]); intros t E; [discriminate|].
  destruct (walk (w_fs w) (w_cwd w) false p) as [q n| |]; try discriminate. cbn [rbind snd] in E.
  destruct n; try discriminate. apply Ok_inj in E. subst. now exists q.
Qed.

Lemma raw_run p w q t : no_fault w -> walk (w_fs w) (w_cwd w) false p = Found q (Link t) ->
  fst (p_readlink_raw p w) = Ok t.
Proof. intros N H. unfold p_readlink_raw, sys_readlink, ask, lookup. now rewrite N, H. Qed.

Lemma raw_exact p w w' t : p_readlink_raw p w = (Ok t, w') ->
  exists q, leads (w_fs w) (w_cwd w) p q /\ look (w_fs w) q = Some (ALink t).
Proof.
  intro H. apply raw_inv in H as (_ & _ & H). destruct (H t eq_refl) as [q W].
  exists q. split; [now exists (Link t)|]. apply look_link. exact (walk_found_get _ _ _ _ _ _ _ W).
Qed.

Lemma raw_reads p w q t : no_fault w -> leads (w_fs w) (w_cwd w) p q ->
  look (w_fs w) q = Some (ALink t) -> fst (p_readlink_raw p w) = Ok t.
Proof.
  intros N [n W] L. apply (raw_run p w q); [exact N|]. apply look_link in L.
  pose proof (walk_found_get _ _ _ _ _ _ _ W) as G. rewrite G in L. injection L as ->. exact W.
Qed.

Lemma raw_other p w q : leads (w_fs w) (w_cwd w) p q -> no_fault w ->
  (forall t, look (w_fs w) q <> Some (ALink t)) -> fst (p_readlink_raw p w) = Err (OSErr EINVAL).
Proof.
  intros [n W] N L. unfold p_readlink_raw, sys_readlink, ask, lookup. rewrite N, W. cbn [rbind snd fst].
  pose proof (walk_found_get _ _ _ _ _ _ _ W) as G.
  destruct n as [d xs|xs es|t]; try reflexivity. exfalso. apply (L t). now apply look_link.
Qed.

Lemma path_inv p w t w' : p_readlink p w = (Ok t, w') ->
  exists raw, p_readlink_raw p w = (Ok raw, w') /\ t = pp_parse raw.
Proof.
  unfold p_readlink, p_readlink_raw, bind, ret. destruct (sys_readlink p w) as [[raw|e] w1]; intro H; [|discriminate].
  injection H as <- <-. now exists raw.
Qed.

Lemma by_hand_inv p w h w' : p_by_hand p w = (Ok h, w') ->
  exists raw, p_readlink_raw p w = (Ok raw, w') /\ h = hand p raw.
Proof.
  unfold p_by_hand, bind, ret. destruct (p_readlink p w) as [[t|e] w1] eqn:R; intro H; [|discriminate].
  injection H as <- <-. apply path_inv in R as (raw & R & ->). exists raw. split; [exact R|reflexivity].
Qed.

Lemma by_hand_opens p w h w' r : is_dir_at (w_fs w) [] -> is_dir_at (w_fs w) (w_cwd w) -> texts (w_fs w) ->
  p_by_hand p w = (Ok h, w') ->
  opens (w_fs w) (w_cwd w) p r -> opens (w_fs w') (w_cwd w') h r.
Proof.
  intros R C T H O. apply by_hand_inv in H as (raw & H & ->). apply raw_inv in H as (-> & -> & H).
  destruct (H raw eq_refl) as [q W]. now apply (hand_opens _ _ R C T p q).
Qed.

Lemma by_hand_back p w h w' r : is_dir_at (w_fs w) [] -> is_dir_at (w_fs w) (w_cwd w) -> texts (w_fs w) ->
  p_by_hand p w = (Ok h, w') -> opens (w_fs w') (w_cwd w') h r ->
  opens (w_fs w) (w_cwd w) p r \/ refuses (w_fs w) (w_cwd w) p ELOOP \/
  (refuses (w_fs w) (w_cwd w) p ENOTDIR /\ (exists t, fst (p_readlink_raw p w) = Ok t /\ asks_dir t) /\
   ~ is_dir_at (w_fs w) r).
Proof.
  intros R C T H O. apply by_hand_inv in H as (raw & H & ->). pose proof H as H0.
  apply raw_inv in H as (E1 & E2 & H). rewrite E1, E2 in O.
  destruct (H raw eq_refl) as [q W]. destruct (hand_back _ _ R C T p q raw r W O) as [K|[K|(K & A & D)]];
    [now left|right; now left|right; right]. split; [exact K|]. split; [|exact D].
  exists raw. now rewrite H0.
Qed.

(** How many links there are between a path and what it opens does not matter for
    texts of the sort augpathlib asks about: a directory is a directory either way. *)
Lemma by_hand_dir p w h w' r : is_dir_at (w_fs w) [] -> is_dir_at (w_fs w) (w_cwd w) -> texts (w_fs w) ->
  p_by_hand p w = (Ok h, w') -> opens (w_fs w') (w_cwd w') h r -> is_dir_at (w_fs w) r ->
  ~ refuses (w_fs w) (w_cwd w) p ELOOP -> opens (w_fs w) (w_cwd w) p r.
Proof.
  intros R C T H O D L. destruct (by_hand_back p w h w' r R C T H O) as [K|[K|(_ & _ & K)]];
    [exact K|now destruct L|now destruct K].
Qed.

(** To check examples. *)
Fixpoint texts_b (n : node) : bool :=
  match n with
  | Link [] => false
  | Dir _ es => (fix all (es : list (str * node)) : bool :=
      match es with [] => true | (_, c) :: r => (texts_b c && all r)%bool end) es
  | _ => true
  end.
Lemma texts_b_ok : forall n, texts_b n = true -> texts n.
Proof.
  fix IH 1. intros n. destruct n as [d xs|xs es|t]; intros H q L.
  - destruct q; discriminate L.
  - destruct q as [|x q]; [discriminate L|]. unfold look in L. cbn [get] in L.
    induction es as [|[y c] es IHes]; [discriminate L|].
    apply andb_true_iff in H as [H1 H2]. unfold entry in L. cbn [find fst] in L.
    destruct (str_eqb y x) eqn:E.
    + cbn in L. exact (IH c H1 q L).
    + exact (IHes H2 L).
  - destruct q; [|discriminate L]. cbn in L. injection L as ->. discriminate H.
Qed.
