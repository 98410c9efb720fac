(** * Proofs about attributes on Windows *)
From Coq Require Import String NArith ZArith Bool List Lia Permutation.
From Verif Require Import Model.Py Model.PurePath Model.Fs Model.Ads Spec.FsSpec Spec.MetaSpec Spec.XattrSpec Spec.AdsSpec.
From Verif Require Import Proofs.PyLemmas Proofs.MetaXattrProofs.
Import ListNotations.

Lemma NoDup_app_one {A} (l : list A) x : NoDup l -> ~ In x l -> NoDup (l ++ [x]).
Proof. intros H N0. apply (Permutation_NoDup (l := x :: l)); [apply Permutation_cons_append|now constructor]. Qed.

(** ** Texts *)
Lemma cut_none c : forall s, ~ In c s -> cut c s = (s, None).
Proof.
  induction s as [|x s IH]; intro H; [reflexivity|]. cbn [cut]. destruct (N.eqb_spec x c) as [->|_]; [destruct H; now left|].
  rewrite IH; [reflexivity|]. intro I. apply H. now right.
Qed.
Lemma cut_some c : forall a b, ~ In c a -> cut c (a ++ c :: b) = (a, Some b).
Proof.
  induction a as [|x a IH]; intros b H; cbn [cut app]; [now rewrite N.eqb_refl|].
  destruct (N.eqb_spec x c) as [->|_]; [destruct H; now left|]. rewrite IH; [reflexivity|]. intro I. apply H. now right.
Qed.
Lemma no_sep s c : clean s -> separator c -> ~ In c s.
Proof. intros (_ & H) S I. exact (H c I S). Qed.
Lemma colon_sep : separator (chr ":"). Proof. now left. Qed.
Lemma slash_sep : separator 47%N. Proof. right. now left. Qed.
Lemma back_sep : separator 92%N. Proof. right. now right. Qed.
#[local] Hint Resolve colon_sep slash_sep back_sep : core.

Lemma split_none c : forall s, ~ In c s -> split c s = [s].
Proof.
  induction s as [|x s IH]; intro H; [reflexivity|]. cbn [split]. destruct (N.eqb_spec x c) as [->|_]; [destruct H; now left|].
  rewrite IH; [reflexivity|]. intro I. apply H. now right.
Qed.
Lemma replace1_none a b : forall s, ~ In a s -> replace1 a b s = s.
Proof.
  unfold replace1. induction s as [|x s IH]; intro H; [reflexivity|]. cbn [map]. destruct (N.eqb_spec x a) as [->|_]; [destruct H; now left|].
  rewrite IH; [reflexivity|]. intro I. apply H. now right.
Qed.

Lemma parts_one t : ~ In 47%N t -> ~ In 92%N t -> t <> [] -> t <> $"." -> win_parts ($"./" ++ t) = [t].
Proof.
  intros H1 H2 N0 N1. unfold win_parts. change ($"./" ++ t) with (46 :: 47 :: t)%N.
  assert (R : replace1 47 92 (46 :: 47 :: t)%N = (46 :: 92 :: t)%N).
  { unfold replace1. cbn [map]. change (map (fun x => if N.eqb x 47 then 92%N else x) t) with (replace1 47 92 t). now rewrite (replace1_none 47 92). }
  rewrite R. cbn [split N.eqb Pos.eqb]. rewrite (split_none 92 t H2). cbn [filter]. change (str_eqb [46%N] []) with false. change (str_eqb [46%N] $".") with true. cbn [orb negb].
  destruct (str_eqb t []) eqn:E0; [apply str_eqb_eq in E0; contradiction|]. destruct (str_eqb t $".") eqn:E1; [apply str_eqb_eq in E1; contradiction|]. reflexivity.
Qed.

(** ** Paths *)
Lemma climb_id : forall l acc, ~ In $".." l -> climb acc l = rev acc ++ l.
Proof.
  induction l as [|x l IH]; intros acc H; cbn [climb]; [now rewrite app_nil_r|].
  destruct (str_eqb x $"..") eqn:E; [apply str_eqb_eq in E; subst; destruct H; now left|]. rewrite IH by (intro I; apply H; now right). cbn [rev]. now rewrite <- app_assoc.
Qed.

Section Where.
Variables (cwd : list str) (p : wpath) (q : list str).
Hypothesis Hn : named cwd p q.

Lemma q_parts : exists D l x, q = D :: l ++ [x] /\ Forall good_part l /\ good_part x /\ D <> $"..".
Proof.
  destruct Hn as (D & l & -> & N0 & ND & F & _). destruct (exists_last N0) as (l' & x & ->). exists D, l', x. apply Forall_app in F. destruct F as (F1 & F2).
  split; [reflexivity|]. split; [assumption|]. split; [now inversion F2|assumption].
Qed.
Lemma q_plain : ~ In $".." q.
Proof.
  destruct q_parts as (D & l & x & -> & F & (_ & _ & G) & ND). intros [H|H]; [now subst|]. apply in_app_iff in H. destruct H as [H|[H|[]]]; [|now subst].
  rewrite Forall_forall in F. now apply F in H as (_ & _ & H).
Qed.
Lemma full_id : full cwd p = q.
Proof.
  unfold full. destruct Hn as (D & l & E & _ & _ & _ & [(A & P)|(A & r & C & L & _)]).
  - rewrite A, P, climb_id; [reflexivity|exact q_plain].
  - rewrite A. assert (Q : cwd ++ wp_parts p = q) by (rewrite C, E, L; reflexivity). rewrite Q, climb_id; [reflexivity|exact q_plain].
Qed.

(** The path of a stream. *)
Lemma stream_path name : clean name -> exists p', a_stream p name = Ok p' /\ full cwd p' = removelast q ++ [last q [] ++ $":" ++ name] /\
  last (wp_parts p') [] = last q [] ++ $":" ++ name.
Proof.
  intro Cn. destruct q_parts as (D & l & x & E & F & (Cx & Nx & Nx2) & ND).
  assert (Eq : q = (D :: l) ++ [x]) by now rewrite E. rewrite Eq, removelast_last, last_last.
  assert (W : win_parts ($"./" ++ x ++ $":" ++ name) = [x ++ $":" ++ name]).
  { apply parts_one.
    - intro I. rewrite !in_app_iff in I. destruct I as [I|[I|I]]; [exact (no_sep _ _ Cx slash_sep I)| |exact (no_sep _ _ Cn slash_sep I)]. destruct I as [I|[]]. discriminate.
    - intro I. rewrite !in_app_iff in I. destruct I as [I|[I|I]]; [exact (no_sep _ _ Cx back_sep I)| |exact (no_sep _ _ Cn back_sep I)]. destruct I as [I|[]]. discriminate.
    - destruct x; discriminate.
    - intro I. apply (f_equal (@length N)) in I. rewrite !app_length in I. destruct Cx as (Cx & _). destruct x; [now destruct Cx|]. cbn in I. lia. }
  assert (Pl : ~ In $".." ((D :: l) ++ [x ++ $":" ++ name])).
  { pose proof q_plain as Q. rewrite Eq in Q. intro I. apply in_app_iff in I. destruct I as [I|[I|[]]]; [apply Q; rewrite in_app_iff; now left|].
    assert (J : In (chr ":") $"..") by (rewrite <- I; rewrite !in_app_iff; right; left; now left). vm_compute in J. intuition discriminate. }
  unfold a_stream. destruct Hn as (D' & l' & E' & _ & _ & _ & [(A & P)|(A & r & C & L & N0 & S1)]).
  - rewrite P, Eq, rev_app_distr. cbn [rev app]. destruct (rev l ++ [D]) as [|y t] eqn:R; [now apply app_eq_nil in R|]. cbn [andb].
    rewrite <- R, rev_app_distr, rev_involutive. cbn [rev app]. eexists. split; [reflexivity|]. unfold full. cbn [wp_abs wp_parts]. rewrite A, W. split.
    + change (D :: l ++ [x ++ $":" ++ name]) with ((D :: l) ++ [x ++ $":" ++ name]). now rewrite climb_id.
    + rewrite app_comm_cons. now rewrite last_last.
  - destruct (exists_last N0) as (m & y & Em). rewrite Em in *. assert (Y : D' :: r ++ m = D :: l /\ y = x).
    { rewrite E', L in Eq. apply app_inj_tail. rewrite <- Eq. cbn [app]. now rewrite <- app_assoc. } destruct Y as (Y & ->).
    rewrite rev_app_distr. cbn [rev app]. assert (Sg : (match rev m with [] => true | _ => false end && Nat.eqb (length x) 1)%bool = false).
    { destruct (rev m) eqn:R; [|reflexivity]. apply (f_equal (@rev _)) in R. rewrite rev_involutive in R. subst m. cbn [andb]. apply Nat.eqb_neq. now apply S1. }
    rewrite Sg, rev_involutive. eexists. split; [reflexivity|]. unfold full. cbn [wp_abs wp_parts]. rewrite A, W, C. split.
    + rewrite app_assoc. change ((D' :: r) ++ m) with (D' :: r ++ m). rewrite Y. now rewrite climb_id.
    + now rewrite last_last.
Qed.

Lemma resolved : named cwd (mkWP true (full cwd p)) q.
Proof.
  rewrite full_id. destruct Hn as (D & l & E & N0 & ND & F & _). exists D, l. repeat (split; [assumption|]). now left.
Qed.
End Where.

Section Volume.
Variables (up : N -> N) (legal : str -> bool) (order : list (str * bytes) -> list (str * bytes)).
Hypothesis Horder : forall l, Permutation (order l) l.
Notation alike := (alike up). Notation alike_place := (alike_place up). Notation find_file := (find_file up).

Lemma alike_spec a b : alike a b = true <-> folded up a b.
Proof. unfold Ads.alike, folded. apply str_eqb_eq. Qed.
Lemma place_spec a b : alike_place a b = true <-> map (map up) a = map (map up) b.
Proof.
  unfold Ads.alike_place. revert b. induction a as [|x a IH]; intros [|y b]; cbn [list_eqb map]; try (split; (reflexivity || discriminate)).
  rewrite andb_true_iff, alike_spec, IH. unfold folded. split; [intros (-> & ->); reflexivity|intro H; now injection H].
Qed.
Lemma find_put q f q' d : find_file (put_file up q f d) q' = if alike_place q q' then Some f else find_file d q'.
Proof.
  unfold Ads.find_file. induction d as [|[a g] d IH]; cbn [put_file find fst].
  - destruct (alike_place q q'); reflexivity.
  - destruct (alike_place a q) eqn:E; cbn [find fst].
    + assert (K : alike_place a q' = alike_place q q').
      { apply place_spec in E. apply eq_true_iff_eq. rewrite !place_spec, E. reflexivity. } rewrite K. destruct (alike_place q q'); reflexivity.
    + destruct (alike_place a q') eqn:E'; [|exact IH]. destruct (alike_place q q') eqn:E2; [|reflexivity].
      apply place_spec in E'. apply place_spec in E2. assert (K : alike_place a q = true) by (apply place_spec; congruence). congruence.
Qed.
Lemma place_refl q : alike_place q q = true. Proof. now apply place_spec. Qed.

(** ** Streams *)
Notation names l := (map (map up) (map fst l)).
Lemma stream_in s l v : NoDup (names l) -> In (s, v) l -> find_stream up s l = Some v.
Proof.
  unfold find_stream. induction l as [|[a b] l IH]; intros ND I; [destruct I|]. cbn [map fst] in ND. inversion_clear ND as [|? ? N1 N2]. cbn [find fst].
  destruct I as [I|I].
  - injection I as -> ->. assert (E : alike s s = true) by now apply alike_spec. now rewrite E.
  - destruct (alike a s) eqn:E; [|now apply IH]. apply alike_spec in E. destruct N1. unfold folded in E. rewrite E. apply in_map. now apply (in_map fst) in I.
Qed.
Lemma stream_find s l v : find_stream up s l = Some v -> exists n, folded up n s /\ In (n, v) l.
Proof.
  unfold find_stream. destruct (find _ l) as [[n b]|] eqn:E; [|discriminate]. intro H. injection H as ->. apply find_some in E. destruct E as (I & A).
  exists n. split; [now apply alike_spec|assumption].
Qed.
Lemma put_names s v l : (exists n w, In (n, w) l /\ folded up n s) -> names (put_stream up s v l) = names l.
Proof.
  induction l as [|[a b] l IH]; intros (n & w & I & F); [destruct I|]. cbn [put_stream]. destruct (alike a s) eqn:E; [reflexivity|].
  cbn [map fst]. f_equal. apply IH. destruct I as [I|I]; [|now exists n, w]. injection I as -> ->. apply alike_spec in F. congruence.
Qed.
Lemma put_new s v l : (forall n w, In (n, w) l -> ~ folded up n s) -> put_stream up s v l = l ++ [(s, v)].
Proof.
  induction l as [|[a b] l IH]; intro H; [reflexivity|]. cbn [put_stream app]. destruct (alike a s) eqn:E.
  - apply alike_spec in E. destruct (H a b (or_introl eq_refl) E).
  - f_equal. apply IH. intros n w I. apply (H n w). now right.
Qed.
Lemma put_nodup s v l : NoDup (names l) -> NoDup (names (put_stream up s v l)).
Proof.
  intro ND. destruct (existsb (fun e => alike (fst e) s) l) eqn:E.
  - apply existsb_exists in E. destruct E as ([n w] & I & F). apply alike_spec in F. rewrite put_names; [assumption|now exists n, w].
  - rewrite put_new.
    + rewrite !map_app. cbn [map fst]. apply NoDup_app_one; [assumption|]. intro I. apply in_map_iff in I. destruct I as (n & F & I). apply in_map_iff in I. destruct I as ([n' w] & <- & I).
      assert (X : existsb (fun e => alike (fst e) s) l = true); [|congruence]. apply existsb_exists. exists (n', w). split; [assumption|]. apply alike_spec. exact F.
    + intros n w I F. assert (X : existsb (fun e => alike (fst e) s) l = true); [|congruence]. apply existsb_exists. exists (n, w). split; [assumption|]. now apply alike_spec.
Qed.
(** With the name itself as the only one alike. *)
Lemma put_in s v l : NoDup (names l) -> (forall n w, In (n, w) l -> folded up n s -> n = s) ->
  forall n w, In (n, w) (put_stream up s v l) <-> (n = s /\ w = v) \/ (n <> s /\ In (n, w) l).
Proof.
  induction l as [|[a b] l IH]; intros ND H n w.
  - cbn. split; [intros [E|[]]; injection E as <- <-; now left|]. intros [(-> & ->)|(_ & [])]. now left.
  - cbn [map fst] in ND. inversion_clear ND as [|? ? N1 N2]. cbn [put_stream]. destruct (alike a s) eqn:E.
    + apply alike_spec in E. assert (a = s) as -> by (apply (H a b); [now left|exact E]). cbn [In]. split.
      * intros [K|K]; [injection K as <- <-; now left|]. right. split; [|now right]. intros ->. destruct N1. apply in_map. now apply (in_map fst) in K.
      * intros [(-> & ->)|(K & [J|J])]; [now left|injection J as -> ->; now destruct K|now right].
    + assert (Na : a <> s). { intros ->. assert (X : alike s s = true) by now apply alike_spec. congruence. }
      cbn [In]. rewrite (IH N2) by (intros n' w' I; apply (H n' w'); now right). split.
      * intros [K|[K|(K & J)]]; [injection K as <- <-; right; split; [assumption|now left]|now left|right; split; [assumption|now right]].
      * intros [K|(K & [J|J])]; [right; now left|now left|right; right; now split].
Qed.
Lemma drop_in s l : (forall n w, In (n, w) l -> folded up n s -> n = s) -> forall n w, In (n, w) (drop_stream up s l) <-> n <> s /\ In (n, w) l.
Proof.
  intros H n w. unfold drop_stream. rewrite filter_In. cbn [fst]. split.
  - intros (I & E). split; [|assumption]. intros ->. assert (X : alike s s = true) by now apply alike_spec. now rewrite X in E.
  - intros (Nn & I). split; [assumption|]. destruct (alike n s) eqn:E; [|reflexivity]. apply alike_spec in E. destruct Nn. now apply (H n w).
Qed.
Lemma drop_nodup s l : NoDup (names l) -> NoDup (names (drop_stream up s l)).
Proof.
  unfold drop_stream. induction l as [|[a b] l IH]; intro ND; [constructor|]. cbn [map fst] in ND. inversion_clear ND as [|? ? N1 N2]. cbn [filter fst].
  destruct (alike a s); cbn [negb]; [now apply IH|]. cbn [map fst]. constructor; [|now apply IH]. intro I. apply N1.
  apply in_map_iff in I. destruct I as (n & E & I). apply in_map_iff in I. destruct I as (e & <- & I). apply filter_In in I. rewrite <- E. now apply in_map, in_map.
Qed.

Variables (cwd : list str) (p : wpath) (q : list str).
Hypothesis Hn : named cwd p q.

Lemma q_shape : exists D l x, q = (D :: l) ++ [x] /\ removelast q = D :: l /\ last q [] = x /\ Forall good_part l /\ good_part x.
Proof.
  destruct (q_parts cwd p q Hn) as (D & l & x & -> & F & G & _). exists D, l, x. rewrite app_comm_cons, removelast_last, last_last. exact (conj eq_refl (conj eq_refl (conj eq_refl (conj F G)))).
Qed.
Lemma folders_plain D l x : q = (D :: l) ++ [x] -> Forall good_part l -> existsb (has (chr ":")) l = false.
Proof.
  intros _ F. destruct (existsb _ l) eqn:E; [|reflexivity]. apply existsb_exists in E. destruct E as (y & I & H). rewrite Forall_forall in F.
  apply F in I. destruct I as (C & _). unfold has in H. apply existsb_exists in H. destruct H as (c & I & Ec). apply N.eqb_eq in Ec. subst c. destruct (no_sep _ _ C colon_sep I).
Qed.
Lemma aim_stream p' name : clean name -> legal name = true -> full cwd p' = removelast q ++ [last q [] ++ $":" ++ name] -> aim up legal cwd p' = Ok (q, Some name).
Proof.
  intros Cn Lg Fp. destruct q_shape as (D & l & x & E & R & L & F & (Cx & _)). unfold aim. rewrite Fp, R, L, last_last, removelast_last.
  unfold stream_of. change (x ++ $":" ++ name) with (x ++ chr ":" :: name). rewrite cut_some by exact (no_sep _ _ Cx colon_sep).
  rewrite (cut_none _ name) by exact (no_sep _ _ Cn colon_sep). destruct Cx as (Cx & _), Cn as (Cn & _). destruct x as [|c x]; [now destruct Cx|]. destruct name as [|c' name]; [now destruct Cn|].
  rewrite Lg. cbn [rbind fst snd tl]. rewrite (folders_plain D l _ E F). now rewrite E.
Qed.
Lemma aim_file : aim up legal cwd p = Ok (q, None).
Proof.
  destruct q_shape as (D & l & x & E & R & L & F & (Cx & _)). unfold aim. rewrite (full_id _ _ _ Hn), R, L. unfold stream_of.
  rewrite (cut_none _ x) by exact (no_sep _ _ Cx colon_sep). destruct Cx as (Cx & _). destruct x as [|c x]; [now destruct Cx|].
  cbn [rbind fst snd tl]. rewrite (folders_plain D l _ E F). now rewrite E.
Qed.

(** ** Names *)
Variable K : str -> Prop.
Hypothesis Hk : usable up legal K.
Lemma name_clean k : K k -> clean (full_name k).
Proof.
  intro H. destruct (proj1 Hk k H) as ((N0 & C) & _). split; [discriminate|]. intros c I S. apply in_app_iff in I. destruct I as [I|I]; [|exact (C c I S)].
  vm_compute in I. unfold separator in S. intuition subst; discriminate.
Qed.
Lemma only_itself s f k n v : shows up legal K s f -> K k -> In (n, v) (w_streams f) -> folded up n (full_name k) -> n = full_name k.
Proof.
  intros (_ & _ & _ & Sn) H I F. destruct (Sn n v I) as (_ & _ & [(k' & Hk' & ->)|(_ & Z)]); [|destruct (Z k H F)].
  f_equal. now apply (proj2 Hk).
Qed.
Lemma full_inj k k' : full_name k = full_name k' -> k = k'.
Proof. unfold full_name. apply app_inv_head. Qed.

Notation step := (a_step up legal order cwd p).
Notation here s d := (on_disk up legal K s d q).
Definition frame (d d' : disk) : Prop := forall q', map (map up) q' <> map (map up) q -> find_file d' q' = find_file d q'.
Lemma frame_put f d : frame d (put_file up q f d).
Proof. intros q' N0. rewrite find_put. destruct (alike_place q q') eqn:E; [|reflexivity]. apply place_spec in E. now destruct N0. Qed.

Lemma set_step s d k v : here s d -> K k -> exists d', step (OSet (KText k) (VBytes v)) d = (Ok RNone, d') /\ frame d d' /\
  here (mkStore (content s) (fun k' => if str_eqb k' k then Some v else attr s k')) d'.
Proof.
  intros (f & Hf & Hs) H. destruct (stream_path cwd p q Hn (full_name k) (name_clean k H)) as (p' & Es & Ef & _).
  cbn [a_step a_set rbind key_convention]. change ($"user" ++ $"." ++ k) with (full_name k). rewrite Es.
  pose proof (proj1 Hk k H) as (_ & _ & Lg). unfold win_write. rewrite (aim_stream p' _ (name_clean k H) Lg Ef), Hf. unfold said. cbn [fst snd rbind].
  eexists. split; [reflexivity|]. split; [apply frame_put|]. eexists. split; [rewrite find_put, place_refl; reflexivity|].
  pose proof (only_itself s f k) as Own. destruct Hs as (Hd & ND & Ha & Sn). split; [exact Hd|]. split; [now apply put_nodup|]. cbn [w_streams attr content].
  assert (PI := put_in (full_name k) v (w_streams f) ND (fun n w I F => Own n w (conj Hd (conj ND (conj Ha Sn))) H I F)). split.
  - intros k' w. rewrite PI. destruct (str_eqb k' k) eqn:E.
    + apply str_eqb_eq in E. subst k'. split; [intro X; injection X as <-; split; [assumption|now left]|]. intros (_ & [(_ & ->)|(X & _)]); [reflexivity|now destruct X].
    + assert (X : k' <> k). { intros ->. assert (Z : str_eqb k k = true) by now apply str_eqb_eq. congruence. } rewrite Ha. split.
      * intros (A & B). split; [assumption|]. right. split; [|assumption]. intro Z. apply full_inj in Z. contradiction.
      * intros (A & [(Z & _)|(_ & B)]); [apply full_inj in Z; contradiction|now split].
  - intros n w I. apply PI in I. destruct I as [(-> & _)|(_ & I)]; [|now apply (Sn n w)]. split; [now apply name_clean|]. split; [assumption|]. left. now exists k.
Qed.
Lemma attr_find s f k : shows up legal K s f -> K k -> find_stream up (full_name k) (w_streams f) = attr s k.
Proof.
  intros Hs H. pose proof Hs as (Hd & ND & Ha & Sn). destruct (find_stream up (full_name k) (w_streams f)) as [v|] eqn:E.
  - apply stream_find in E. destruct E as (n & F & I). pose proof (only_itself s f k n v Hs H I F) as ->. symmetry. apply Ha. now split.
  - destruct (attr s k) as [v|] eqn:A; [|reflexivity]. apply Ha in A. destruct A as (_ & I). rewrite (stream_in _ _ _ ND I) in E. discriminate.
Qed.
Lemma get_step s d k : here s d -> K k -> step (OGet (KText k)) d = (match attr s k with Some v => Ok (RBytes v) | None => Err NoStreamErr end, d).
Proof.
  intros (f & Hf & Hs) H. destruct (stream_path cwd p q Hn (full_name k) (name_clean k H)) as (p' & Es & Ef & _).
  cbn [a_step]. unfold a_get. cbn [rbind key_convention]. change ($"user" ++ $"." ++ k) with (full_name k). rewrite Es.
  pose proof (proj1 Hk k H) as (_ & _ & Lg). cbn [rbind]. unfold win_read. rewrite (aim_stream p' _ (name_clean k H) Lg Ef). cbn [rbind fst snd]. rewrite Hf, (attr_find s f k Hs H).
  now destruct (attr s k).
Qed.
Lemma del_step s d k b : here s d -> K k -> exists d', step (ODel (KText k) b) d = (match attr s k, b with None, true => Err NoStreamErr | _, _ => Ok RNone end, d') /\ frame d d' /\
  here (mkStore (content s) (fun k' => if str_eqb k' k then None else attr s k')) d'.
Proof.
  intros (f & Hf & Hs) H. destruct (stream_path cwd p q Hn (full_name k) (name_clean k H)) as (p' & Es & Ef & _).
  cbn [a_step]. unfold a_del. cbn [rbind key_convention]. change ($"user" ++ $"." ++ k) with (full_name k). rewrite Es.
  pose proof (proj1 Hk k H) as (_ & _ & Lg). unfold win_unlink. rewrite (aim_stream p' _ (name_clean k H) Lg Ef), Hf, (attr_find s f k Hs H).
  pose proof (only_itself s f k) as Own. pose proof Hs as (Hd & ND & Ha & Sn). destruct (attr s k) as [v|] eqn:A.
  - unfold said. cbn [fst snd rbind]. eexists. split; [reflexivity|]. split; [apply frame_put|]. eexists. split; [rewrite find_put, place_refl; reflexivity|].
    assert (DI := drop_in (full_name k) (w_streams f) (fun n w I F => Own n w Hs H I F)).
    split; [exact Hd|]. split; [now apply drop_nodup|]. cbn [w_streams attr content]. split.
    + intros k' w. rewrite DI. destruct (str_eqb k' k) eqn:E.
      * apply str_eqb_eq in E. subst k'. split; [discriminate|]. intros (_ & X & _). now destruct X.
      * assert (X : k' <> k). { intros ->. assert (Z : str_eqb k k = true) by now apply str_eqb_eq. congruence. } rewrite Ha. split.
        -- intros (B & C). split; [assumption|]. split; [|assumption]. intro Z. apply full_inj in Z. contradiction.
        -- intros (B & _ & C). now split.
    + intros n w I. apply DI in I. now apply (Sn n w).
  - exists d. split; [now destruct b|]. split; [intros ? _; reflexivity|]. exists f. split; [assumption|]. split; [exact Hd|]. split; [exact ND|]. split; [|exact Sn].
    intros k' w. cbn [attr]. destruct (str_eqb k' k) eqn:E; [|apply Ha]. apply str_eqb_eq in E. subst k'. rewrite <- Ha, A. tauto.
Qed.
Lemma write_step s d l : here s d -> l <> [] -> exists d', step (OWrite l) d = (Ok RNone, d') /\ frame d d' /\ here (mkStore (concat l) (attr s)) d'.
Proof.
  intros (f & Hf & Hs) H. cbn [a_step]. unfold a_write. destruct l as [|c l]; [now destruct H|]. rewrite aim_file, Hf. pose proof Hs as (Hd & ND & Ha & Sn). rewrite Hd.
  unfold said. cbn [fst snd rbind]. eexists. split; [reflexivity|]. split; [apply frame_put|]. eexists. split; [rewrite find_put, place_refl; reflexivity|]. exact (conj eq_refl (conj ND (conj Ha Sn))).
Qed.

(** ** All of them *)
Lemma rmap_all {A B} (f : A -> res B) (g : A -> B) l : (forall x, In x l -> f x = Ok (g x)) -> rmap f l = Ok (map g l).
Proof.
  induction l as [|x l IH]; intro H; [reflexivity|]. cbn [rmap map]. rewrite (H x (or_introl eq_refl)), IH; [reflexivity|]. intros y I. apply H. now right.
Qed.
Lemma rmap_map {A B C} (f : B -> res C) (h : A -> B) l : rmap f (map h l) = rmap (fun x => f (h x)) l.
Proof. induction l as [|x l IH]; [reflexivity|]. cbn [rmap map]. now rewrite IH. Qed.
Lemma filter_all {A} (f : A -> bool) l : (forall x, In x l -> f x = true) -> filter f l = l.
Proof.
  induction l as [|x l IH]; intro H; [reflexivity|]. cbn [filter]. rewrite (H x (or_introl eq_refl)), IH; [reflexivity|]. intros y I. apply H. now right.
Qed.
Lemma sset_new k v l : ~ In k (map fst l) -> sset k v l = l ++ [(k, v)].
Proof.
  induction l as [|[a b] l IH]; intro H; [reflexivity|]. cbn [sset app]. destruct (str_eqb a k) eqn:E; [apply str_eqb_eq in E; destruct H; now left|].
  rewrite IH; [reflexivity|]. intro I. apply H. now right.
Qed.
Lemma sset_all : forall l acc, NoDup (map fst (acc ++ l)) -> fold_left (fun out kv => sset (fst kv) (snd kv) out) l acc = acc ++ l.
Proof.
  induction l as [|[k v] l IH]; intros acc H; cbn [fold_left fst snd]; [now rewrite app_nil_r|]. rewrite sset_new.
  - rewrite IH; rewrite <- app_assoc; [reflexivity|exact H].
  - rewrite map_app in H. cbn [map fst] in H. apply NoDup_remove_2 in H. intro I. apply H. apply in_app_iff. now left.
Qed.
Lemma dset_new k v l : ~ In k (map fst l) -> dset k v l = l ++ [(k, v)].
Proof.
  induction l as [|[a b] l IH]; intro H; [reflexivity|]. cbn [dset app]. destruct (bytes_eqb a k) eqn:E; [apply bytes_eqb_eq in E; destruct H; now left|].
  rewrite IH; [reflexivity|]. intro I. apply H. now right.
Qed.
Lemma dset_all : forall l acc, NoDup (map fst (acc ++ l)) -> fold_left (fun out kv => dset (fst kv) (snd kv) out) l acc = acc ++ l.
Proof.
  induction l as [|[k v] l IH]; intros acc H; cbn [fold_left fst snd]; [now rewrite app_nil_r|]. rewrite dset_new.
  - rewrite IH; rewrite <- app_assoc; [reflexivity|exact H].
  - rewrite map_app in H. cbn [map fst] in H. apply NoDup_remove_2 in H. intro I. apply H. apply in_app_iff. now left.
Qed.

Definition found (n : str) : str := $":" ++ n ++ $":$DATA".
Lemma not_within n : clean n -> within $"::$DATA" (found n) = false.
Proof.
  intros (N0 & C). unfold found. destruct n as [|c n]; [now destruct N0|]. assert (Cc : c <> 58%N) by (intros ->; apply (C 58%N); [now left|now left]).
  assert (T : forall m, ~ In 58%N m -> within $"::$DATA" (m ++ $":$DATA") = false).
  { induction m as [|x m IH]; intro H; [reflexivity|]. cbn [app within]. rewrite IH by (intro I; apply H; now right).
    assert (Hx : x <> 58%N) by (intros ->; apply H; now left). unfold startswith, str_of. cbn. destruct x as [|x]; [reflexivity|].
    destruct (Pos.eqb_spec 58 x) as [<-|_]; [now destruct Hx|reflexivity]. }
  change ($":" ++ (c :: n) ++ $":$DATA") with (58%N :: (c :: n) ++ $":$DATA"). cbn [within]. rewrite (T (c :: n)).
  - unfold startswith, str_of. cbn. destruct c as [|c]; [reflexivity|]. destruct (Pos.eqb_spec 58 c) as [<-|_]; [now destruct Cc|reflexivity].
  - intro I. apply (C 58%N I). now left.
Qed.
Lemma rcut_data : forall m, ~ In 58%N m -> rcut (m ++ $":$DATA") = Some (m, $"DATA").
Proof.
  induction m as [|x m IH]; intro H; [reflexivity|]. cbn [app rcut]. rewrite IH; [reflexivity|]. intro I. apply H. now right.
Qed.
Lemma strip_found n : clean n -> strip_colon (found n) = n ++ $":$DATA".
Proof.
  intros (N0 & C). unfold strip_colon, found. change ($":" ++ n ++ $":$DATA") with (58%N :: n ++ $":$DATA"). cbn [lcolon]. change (58 =? chr ":")%N with true. cbn iota.
  assert (L : forall m, m <> [] -> ~ In 58%N m -> forall t, lcolon (m ++ t) = m ++ t).
  { intros [|x m] Nm Im t; [now destruct Nm|]. cbn [app lcolon]. change (chr ":") with 58%N. destruct (N.eqb_spec x 58) as [->|_]; [destruct Im; now left|reflexivity]. }
  rewrite L by (assumption || (intro I; apply (C 58%N I); now left)).
  rewrite rev_app_distr. change (rev $":$DATA") with ([65;84;65;68;36;58]%N). cbn [app lcolon]. change (chr ":") with 58%N. cbn [N.eqb Pos.eqb].
  change (65 :: 84 :: 65 :: 68 :: 36 :: 58 :: rev n)%N with (rev $":$DATA" ++ rev n). now rewrite <- rev_app_distr, rev_involutive.
Qed.

Lemma user_only n : startswith n $"user" = false -> forall k, n <> full_name k.
Proof. intros H k ->. unfold full_name, startswith in H. now cbn in H. Qed.
Lemma names_nodup (l : list (str * bytes)) : NoDup (names l) -> NoDup (map fst l).
Proof. apply NoDup_map_inv. Qed.

Lemma all_step s d : here s d -> exists l, step OAll d = (Ok (RAll l), d) /\ NoDup (map fst l) /\
  forall b v, In (b, v) l <-> exists k, utf8_enc k = Some b /\ attr s k = Some v.
Proof.
  intros (f & Hf & Hs). pose proof Hs as (Hd & ND & Ha & Sn).
  set (p0 := if wp_abs p then p else mkWP true (full cwd p)).
  assert (Hn0 : named cwd p0 q). { unfold p0. destruct (wp_abs p); [exact Hn|exact (resolved cwd p q Hn)]. }
  set (L := order (w_streams f)). assert (PL : Permutation L (w_streams f)) by apply Horder.
  assert (InL : forall n v, In (n, v) L <-> In (n, v) (w_streams f)). { intros n v. split; apply Permutation_in; [exact PL|now apply Permutation_sym]. }
  assert (NDL : NoDup (names L)). { refine (Permutation_NoDup _ ND). now apply Permutation_map, Permutation_map, Permutation_sym. }
  set (sp := fun n => match a_stream p0 n with Ok p' => p' | Err _ => p0 end).
  assert (Sp : forall n v, In (n, v) L -> a_stream p0 n = Ok (sp n) /\ full cwd (sp n) = removelast q ++ [last q [] ++ $":" ++ n] /\ last (wp_parts (sp n)) [] = last q [] ++ $":" ++ n).
  { intros n v I. apply InL in I. destruct (Sn n v I) as (Cn & _). destruct (stream_path cwd p0 q Hn0 n Cn) as (p' & E & F & G). unfold sp. rewrite E. now repeat split. }
  assert (Raw : a_all_raw up legal order cwd p d = Ok L).
  { unfold a_all_raw. fold p0. unfold a_streams, win_streams. rewrite (full_id cwd p0 q Hn0), Hf, Hd. cbn [app filter]. change (within $"::$DATA" $"::$DATA") with true. cbn [negb].
    fold L. change (map (fun e => $":" ++ fst e ++ $":$DATA") L) with (map (fun e => found (fst e)) L). rewrite filter_all.
    - rewrite rmap_map, (rmap_all _ (fun e : str * bytes => sp (fst e))).
      + cbn [rbind]. rewrite rmap_map, (rmap_all _ (fun e : str * bytes => e)).
        * cbn [rbind]. rewrite map_id. rewrite (sset_all L []); [reflexivity|]. exact (names_nodup _ NDL).
        * intros [n v] I. cbn [fst]. destruct (Sp n v I) as (_ & Fp & Lp). rewrite Lp. destruct q_shape as (D & l & x & _ & _ & Lx & _ & (Cx & _)). rewrite Lx.
          change (x ++ $":" ++ n) with (x ++ chr ":" :: n). rewrite cut_some by exact (no_sep _ _ Cx colon_sep).
          pose proof I as I2. apply InL in I2. destruct (Sn n v I2) as (Cn & Lg & _). unfold win_read. rewrite (aim_stream (sp n) n Cn Lg Fp). cbn [rbind fst snd].
          rewrite Hf, (stream_in n (w_streams f) v ND I2). reflexivity.
      + intros [n v] I. cbn [fst]. pose proof I as I2. apply InL in I2. destruct (Sn n v I2) as (Cn & _). rewrite (strip_found n Cn), rcut_data by exact (no_sep _ _ Cn colon_sep).
        now destruct (Sp n v I).
    - intros y I. apply in_map_iff in I. destruct I as ([n v] & <- & I). apply InL in I. destruct (Sn n v I) as (Cn & _). cbn [fst]. now rewrite not_within. }
  set (U := filter (fun kv => startswith (fst kv) $"user") L).
  assert (InU : forall n v, In (n, v) U -> exists k, K k /\ n = full_name k /\ attr s k = Some v).
  { intros n v I. apply filter_In in I. cbn [fst] in I. destruct I as (I & W). apply InL in I. destruct (Sn n v I) as (_ & _ & [(k & Hkk & ->)|(W' & _)]); [|congruence].
    exists k. repeat split; [assumption|]. apply Ha. now split. }
  set (en := fun kv : str * bytes => (match utf8_enc (skipn 5 (fst kv)) with Some b => b | None => [] end, snd kv)).
  assert (En : forall k, K k -> exists b, utf8_enc k = Some b /\ utf8_dec b = Some k).
  { intros k Hkk. destruct (proj1 Hk k Hkk) as (_ & En & _). destruct (MetaXattrProofs.enc_ok k En) as (b & _ & Db & Eb). exists b. split; [assumption|]. unfold MetaXattr.dec in Db. now destruct (utf8_dec b); [injection Db as ->|]. }
  assert (NDe : NoDup (map fst (map en U))).
  { rewrite map_map. cbn [fst en].
    assert (NU : NoDup (map fst U)). { apply names_nodup. unfold U. clear - NDL. induction L as [|[a b] L IH]; [constructor|]. cbn [map fst filter] in *. inversion_clear NDL as [|? ? N1 N2].
        destruct (startswith a $"user"); [|now apply IH]. cbn [map fst]. constructor; [|now apply IH]. intro I. apply N1. apply in_map_iff in I. destruct I as (n & E & I).
        apply in_map_iff in I. destruct I as (e & <- & I). apply filter_In in I. rewrite <- E. now apply in_map, in_map. }
    revert NU InU. clear - En. clearbody U. induction U as [|[a b] U IH]; intros NU InU; [constructor|]. cbn [map fst] in *. inversion_clear NU as [|? ? N1 N2]. constructor.
    - intro I. apply in_map_iff in I. destruct I as ([a' b'] & E & I). cbn [fst] in E. destruct (InU a b (or_introl eq_refl)) as (k & Hkk & -> & _). destruct (InU a' b' (or_intror I)) as (k' & Hkk' & -> & _).
        change (skipn 5 (full_name k)) with k in E. change (skipn 5 (full_name k')) with k' in E. destruct (En k Hkk) as (c & Ec & Dc). destruct (En k' Hkk') as (c' & Ec' & Dc').
        rewrite Ec, Ec' in E. subst c'. assert (k' = k) as -> by congruence. apply N1. now apply (in_map fst) in I.
    - apply IH; [assumption|]. intros n v I. apply InU. now right. }
  assert (All : a_all up legal order cwd p $"user" d = Ok (map en U)).
  { unfold a_all. rewrite Raw. cbn [rbind]. fold U. rewrite (rmap_all _ en).
    - cbn [rbind]. now rewrite (dset_all (map en U) []).
    - intros [n v] I. destruct (InU n v I) as (k & Hkk & -> & _). unfold en. cbn [fst snd]. change (skipn (length $"user" + 1) (full_name k)) with k. change (skipn 5 (full_name k)) with k.
      destruct (En k Hkk) as (b & -> & _). reflexivity. }
  exists (map en U). cbn [a_step]. rewrite All. split; [reflexivity|]. split; [exact NDe|].
  intros b v. rewrite in_map_iff. split.
  - intros ([n w] & E & I). destruct (InU n w I) as (k & Hkk & -> & A). unfold en in E. cbn [fst snd] in E. change (skipn 5 (full_name k)) with k in E. destruct (En k Hkk) as (c & Ec & _).
      rewrite Ec in E. injection E as <- <-. now exists k.
  - intros (k & E & A). apply Ha in A. destruct A as (Hkk & I). exists (full_name k, v). unfold en. cbn [fst snd]. change (skipn 5 (full_name k)) with k. rewrite E. split; [reflexivity|].
      apply filter_In. split; [now apply InL|reflexivity].
Qed.
End Volume.

(** ** Any calls *)
Section Runs.
Variables (up : N -> N) (legal : str -> bool) (order : list (str * bytes) -> list (str * bytes)).
Hypothesis Horder : forall l, Permutation (order l) l.
Variables (cwd : list str) (p : wpath) (q : list str).
Hypothesis Hn : named cwd p q.
Variable K : str -> Prop.
Hypothesis Hk : usable up legal K.

Lemma here_ext s s' d : content s' = content s -> (forall k, attr s' k = attr s k) -> on_disk up legal K s d q -> on_disk up legal K s' d q.
Proof.
  intros Ec Ea (f & Hf & Hd & ND & Ha & Sn). exists f. split; [assumption|]. split; [now rewrite Ec|]. split; [assumption|]. split; [|assumption]. intros k v. rewrite Ea. apply Ha.
Qed.
Lemma win_step s d o : on_disk up legal K s d q -> calls K o -> exists r d' s', a_step up legal order cwd p o d = (r, d') /\ frame up q d d' /\ fits s o r s' /\ on_disk up legal K s' d' q.
Proof.
  intros H C. destruct o as [[k|b] v|[k|b]|[k|b] f| |l]; try contradiction; cbn [calls] in C.
  - destruct v as [v|].
    + destruct (set_step up legal order cwd p q Hn K Hk s d k v H C) as (d' & E & F & H'). eexists _, d', _. split; [exact E|]. split; [exact F|]. split; [|exact H'].
      cbn [fits attr content]. split; [reflexivity|]. split; [reflexivity|]. split; [now rewrite str_eqb_refl|]. intros k' Nk. now apply str_eqb_neq in Nk as ->.
    + eexists _, d, s. split; [reflexivity|]. split; [intros ? _; reflexivity|]. split; [now split|exact H].
  - eexists _, d, s. split; [exact (get_step up legal order cwd p q Hn K Hk s d k H C)|]. split; [intros ? _; reflexivity|]. split; [now split|exact H].
  - destruct (del_step up legal order cwd p q Hn K Hk s d k f H C) as (d' & E & F & H'). eexists _, d', _. split; [exact E|]. split; [exact F|]. split; [|exact H'].
    cbn [fits attr content]. split; [reflexivity|]. split; [reflexivity|]. split; [now rewrite str_eqb_refl|]. intros k' Nk. now apply str_eqb_neq in Nk as ->.
  - destruct (all_step up legal order Horder cwd p q Hn K Hk s d H) as (l & E & ND & I). eexists _, d, s. split; [exact E|]. split; [intros ? _; reflexivity|]. split; [|exact H].
    split; [reflexivity|]. now exists l.
  - destruct l as [|c l].
    + eexists _, d, s. split; [reflexivity|]. split; [intros ? _; reflexivity|]. split; [now split|exact H].
    + destruct (write_step up legal order cwd p q Hn K s d (c :: l) H ltac:(discriminate)) as (d' & E & F & H'). eexists _, d', _. split; [exact E|]. split; [exact F|]. split; [|exact H']. now repeat split.
Qed.
Lemma win_run : forall ops s d, on_disk up legal K s d q -> Forall (calls K) ops -> exists rs d' s', a_run up legal order cwd p ops d = (rs, d') /\
  frame up q d d' /\ history s ops rs s' /\ on_disk up legal K s' d' q.
Proof.
  induction ops as [|o ops IH]; intros s d H C.
  - exists [], d, s. split; [reflexivity|]. split; [intros ? _; reflexivity|]. split; [constructor|exact H].
  - inversion_clear C as [|? ? C1 C2]. destruct (win_step s d o H C1) as (r & d1 & s1 & E1 & F1 & Fi & H1). destruct (IH s1 d1 H1 C2) as (rs & d2 & s2 & E2 & F2 & Hi & H2).
    exists (r :: rs), d2, s2. cbn [a_run]. rewrite E1, E2. split; [reflexivity|]. split; [|split; [econstructor; eassumption|exact H2]].
    intros q' Nq. rewrite (F2 q' Nq). now apply F1.
Qed.
End Runs.
