From Coq Require Import String Strings.Byte NArith ZArith Bool List Lia.
From Verif Require Import Model.Py Model.PurePath Model.Fs Model.PathOps Model.Cache Model.Access Model.Sysid
  Spec.FsSpec Spec.LoopSpec Spec.CopySpec Spec.AccessSpec Spec.SysidSpec
  Proofs.PyLemmas Proofs.PathLemmas Proofs.FsLemmas Proofs.RunLemmas Proofs.RmtreeProofs Proofs.MoveLemmas Proofs.CopyProofs Proofs.Hoare Proofs.AccessProofs.
From Verif Require Proofs.RmdirtreeProofs.
Import ListNotations.

(** ** base64 *)
Fixpoint unpadded (b : bytes) : str :=
  match b with
  | x :: y :: z :: r =>
      let x := Byte.to_N x in let y := Byte.to_N y in let z := Byte.to_N z in
      b64_char (x / 4) :: b64_char (x mod 4 * 16 + y / 16) :: b64_char (y mod 16 * 4 + z / 64) :: b64_char (z mod 64) :: unpadded r
  | [x; y] =>
      let x := Byte.to_N x in let y := Byte.to_N y in
      [b64_char (x / 4); b64_char (x mod 4 * 16 + y / 16); b64_char (y mod 16 * 4)]
  | [x] => let x := Byte.to_N x in [b64_char (x / 4); b64_char (x mod 4 * 16)]
  | [] => []
  end%N.
Lemma byte_bound x : (Byte.to_N x < 256)%N.
Proof. pose proof (Byte.to_N_bounded x). lia. Qed.

Lemma by_three (P : bytes -> Prop) : P [] -> (forall x, P [x]) -> (forall x y, P [x; y]) -> (forall x y z r, P r -> P (x :: y :: z :: r)) -> forall b, P b.
Proof.
  intros H0 H1 H2 H3 b. remember (length b) as n eqn:L. revert b L. induction n as [n IH] using lt_wf_ind. intros b L.
  destruct b as [|x [|y [|z r]]]; auto. apply H3. apply (IH (length r)); [cbn in L; lia|reflexivity].
Qed.
Lemma padded b : exists k, urlsafe_b64encode b = unpadded b ++ repeat (chr "=") k /\ (length b mod 3 = 1 -> k = 2)%nat.
Proof.
  induction b as [|x|x y|x y z r (k & E & K)] using by_three.
  - exists 0%nat. split; [reflexivity|discriminate].
  - exists 2%nat. split; reflexivity.
  - exists 1%nat. split; [reflexivity|discriminate].
  - exists k. cbn [urlsafe_b64encode unpadded]. rewrite E. split; [reflexivity|]. intro M. apply K.
    cbn [length] in M. change (S (S (S (length r)))) with (3 + length r)%nat in M. replace (3 + length r)%nat with (length r + 1 * 3)%nat in M by lia.
    now rewrite Nat.mod_add in M by discriminate.
Qed.
Lemma sysid_unpadded b : (length b mod 3 = 1)%nat -> sysid_of b = unpadded b.
Proof.
  intro M. destruct (padded b) as (k & E & K). unfold sysid_of. cbv zeta. rewrite E, (K M), app_length. cbn [repeat length].
  rewrite Nat.add_sub, firstn_app, Nat.sub_diag, firstn_all. cbn [firstn]. apply app_nil_r.
Qed.

Lemma char_inj m n : (m < 64)%N -> (n < 64)%N -> b64_char m = b64_char n -> m = n.
Proof.
  unfold b64_char. intros A B.
  destruct (N.ltb_spec m 26), (N.ltb_spec n 26), (N.ltb_spec m 52), (N.ltb_spec n 52), (N.ltb_spec m 62), (N.ltb_spec n 62), (N.eqb_spec m 62), (N.eqb_spec n 62); lia.
Qed.
Lemma char_id n : (n < 64)%N -> id_char (b64_char n).
Proof.
  unfold b64_char, id_char. intro A.
  destruct (N.ltb_spec n 26), (N.ltb_spec n 52), (N.ltb_spec n 62), (N.eqb_spec n 62); lia.
Qed.
Ltac small := repeat match goal with |- context [Byte.to_N ?x] => let n := fresh "n" in let B := fresh "B" in
                pose proof (byte_bound x) as B; set (n := Byte.to_N x) in *; clearbody n end;
              zify; Z.to_euclidean_division_equations; lia.
Lemma s1 x : (Byte.to_N x / 4 < 64)%N. Proof. small. Qed.
Lemma s2 x y : (Byte.to_N x mod 4 * 16 + Byte.to_N y / 16 < 64)%N. Proof. small. Qed.
Lemma s2' x : (Byte.to_N x mod 4 * 16 < 64)%N. Proof. small. Qed.
Lemma s3 y z : (Byte.to_N y mod 16 * 4 + Byte.to_N z / 64 < 64)%N. Proof. small. Qed.
Lemma s3' y : (Byte.to_N y mod 16 * 4 < 64)%N. Proof. small. Qed.
Lemma s4 z : (Byte.to_N z mod 64 < 64)%N. Proof. small. Qed.
Lemma to_N_inj a b : Byte.to_N a = Byte.to_N b -> a = b.
Proof. intro E. pose proof (Byte.of_to_N a) as A. pose proof (Byte.of_to_N b) as B. rewrite E in A. congruence. Qed.

Lemma unpadded_chars b c : In c (unpadded b) -> id_char c.
Proof.
  induction b as [|x|x y|x y z r IH] using by_three; cbn [unpadded]; intro H.
  - destruct H.
  - destruct H as [<-|[<-|[]]]; apply char_id; [apply s1|apply s2'].
  - destruct H as [<-|[<-|[<-|[]]]]; apply char_id; [apply s1|apply s2|apply s3'].
  - destruct H as [<-|[<-|[<-|[<-|H]]]]; [apply char_id, s1|apply char_id, s2|apply char_id, s3|apply char_id, s4|now apply IH].
Qed.
Lemma unpadded_inj (a : bytes) : forall b : bytes, length a = length b -> unpadded a = unpadded b -> a = b.
Proof.
  induction a as [|x|x y|x y z r IH] using by_three; intros [|x' [|y' [|z' r']]] L H; try discriminate L; cbn [unpadded] in H.
  - reflexivity.
  - injection H as H1 H2. apply char_inj in H1; [|apply s1|apply s1]. apply char_inj in H2; [|apply s2'|apply s2'].
    f_equal. apply to_N_inj. revert H1 H2. small.
  - injection H as H1 H2 H3. apply char_inj in H1; [|apply s1|apply s1]. apply char_inj in H2; [|apply s2|apply s2]. apply char_inj in H3; [|apply s3'|apply s3'].
    f_equal; [|f_equal]; apply to_N_inj; revert H1 H2 H3; small.
  - injection H as H1 H2 H3 H4 H. apply char_inj in H1; [|apply s1|apply s1]. apply char_inj in H2; [|apply s2|apply s2].
    apply char_inj in H3; [|apply s3|apply s3]. apply char_inj in H4; [|apply s4|apply s4].
    injection L as L. rewrite (IH _ L H). f_equal; [|f_equal; [|f_equal]]; apply to_N_inj; revert H1 H2 H3 H4; clear; small.
Qed.
Lemma unpadded_length b : (length (unpadded b) = (4 * length b + 2) / 3)%nat.
Proof.
  induction b as [|x|x y|x y z r IH] using by_three; try reflexivity. cbn [unpadded length]. rewrite IH.
  replace (4 * S (S (S (length r))) + 2)%nat with (4 * length r + 2 + 4 * 3)%nat by lia. rewrite Nat.div_add by discriminate. lia.
Qed.

Lemma digit_char n : (n < 64)%N -> digit64 (b64_char n) = n.
Proof.
  intro L. assert (A : forallb (fun k => N.eqb (digit64 (b64_char (N.of_nat k))) (N.of_nat k)) (seq 0 64) = true) by (vm_compute; reflexivity).
  rewrite forallb_forall in A. specialize (A (N.to_nat n)). rewrite N2Nat.id in A. apply N.eqb_eq, A, in_seq. lia.
Qed.
Definition pad_of (b : bytes) : N := match (length b mod 3)%nat with 1%nat => 16 | 2%nat => 4 | _ => 1 end.
Lemma unpadded_value b : forall acc, value64 acc (unpadded b) = (value256 acc b * pad_of b)%N.
Proof.
  induction b as [|x|x y|x y z r IH] using by_three; intro acc; cbn [unpadded value64 value256 fold_left].
  - unfold pad_of. cbn. lia.
  - change (pad_of [x]) with 16%N. cbn [map fold_left]. unfold value64, value256. cbn [map fold_left]. rewrite !digit_char by (apply s1 || apply s2'). small.
  - change (pad_of [x; y]) with 4%N. unfold value64, value256. cbn [map fold_left]. rewrite !digit_char by (apply s1 || apply s2 || apply s3'). small.
  - replace (pad_of (x :: y :: z :: r)) with (pad_of r).
    2:{ unfold pad_of. cbn [length]. replace (S (S (S (length r)))) with (length r + 1 * 3)%nat by lia. now rewrite Nat.mod_add by discriminate. }
    unfold value64, value256 in *. cbn [map fold_left]. rewrite !digit_char by (apply s1 || apply s2 || apply s3 || apply s4). rewrite IH. f_equal. f_equal. small.
Qed.
Lemma sysid_value raw : length raw = 16%nat -> value64 0 (sysid_of raw) = (value256 0 raw * 16)%N.
Proof. intro L. rewrite sysid_unpadded by now rewrite L. rewrite unpadded_value. unfold pad_of. now rewrite L. Qed.

Lemma sysid_spec raw : length raw = 16%nat ->
  length (sysid_of raw) = 22%nat /\ (forall c, In c (sysid_of raw) -> id_char c) /\ fs_safe_id (sysid_of raw) = sysid_of raw.
Proof.
  intro L. rewrite sysid_unpadded by now rewrite L. split; [now rewrite unpadded_length, L|]. split; [apply unpadded_chars|].
  destruct (fs_safe_spec (unpadded raw)) as (_ & _ & K & _). apply K. clear K. intros c I U. apply unpadded_chars in I. unfold id_char, unsafe in *. cbn [In] in U. lia.
Qed.
Lemma sysid_inj a b : length a = 16%nat -> length b = 16%nat -> sysid_of a = sysid_of b -> a = b.
Proof. intros A B. rewrite !sysid_unpadded by (now rewrite ?A, ?B). apply unpadded_inj. congruence. Qed.
Lemma app_split {A} (a b c d : list A) : length a = length b -> a ++ c = b ++ d -> a = b /\ c = d.
Proof. revert b. induction a as [|x a IH]; intros [|y b] L E; try discriminate; [now split|]. injection E as -> E. injection L as L. destruct (IH b L E) as (-> & ->). now split. Qed.
Lemma local_id_inj a b s t : length a = 16%nat -> length b = 16%nat ->
  local_id (sysid_of a) (pp_parse s) = local_id (sysid_of b) (pp_parse t) -> a = b /\ pp_parse s = pp_parse t.
Proof.
  intros A B E. unfold local_id in E. destruct (sysid_spec a A) as (La & _), (sysid_spec b B) as (Lb & _).
  assert (E1 : sysid_of a = sysid_of b /\ $":" ++ pp_str (pp_parse s) = $":" ++ pp_str (pp_parse t)) by (apply app_split; [congruence|exact E]).
  destruct E1 as (E1 & E2). split; [now apply sysid_inj|]. apply app_inv_head in E2.
  rewrite <- (pp_parse_str (pp_parse s)) by apply norm_parse. rewrite E2. apply pp_parse_str, norm_parse.
Qed.

(** ** A file is written at a place where there is one or can be one *)
Section Slot.
Variables (fs : node) (T : place) (d : bytes) (ys : xattrs).
Hypothesis HT : slot fs T.
Let fs' := put fs T (File d ys).
Lemma put_kind q n : get fs q = Some n -> exists n', get fs' q = Some n' /\
  match n with Dir _ _ => exists xs es, n' = Dir xs es | File _ _ => exists d xs, n' = File d xs | Link t => n' = Link t end.
Proof.
  intro G. destruct (place_dec q T) as [->|N].
  - exists (File d ys). split; [now apply slot_get|]. destruct HT as (_ & [(d0 & xs & E)|E]); rewrite E in G; [|discriminate]. injection G as <-. eauto.
  - pose proof (put_look fs T (File d ys) q HT I N) as L. unfold look in L. rewrite G in L. fold fs' in L.
    destruct n as [d0 xs|xs es|t]; destruct (get fs' q) as [[]|]; try discriminate; eexists; (split; [reflexivity|]); eauto. congruence.
Qed.
Lemma put_none q : get fs q = None -> get fs' q = None \/ (q = T /\ get fs' q = Some (File d ys)).
Proof.
  intro G. destruct (place_dec q T) as [->|N]; [right; split; [reflexivity|now apply slot_get]|left].
  pose proof (put_look fs T (File d ys) q HT I N) as L. unfold look in L. rewrite G in L. fold fs' in L. destruct (get fs' q) as [[]|]; congruence.
Qed.
Definition moved (r r' : found) : Prop :=
  match r with
  | Found q n => exists n', r' = Found q n'
  | Missing D x => r' = Missing D x \/ (D ++ [x] = T /\ r' = Found T (File d ys))
  | Fail _ => exists e, r' = Fail e
  end.
Lemma walk_file follow : forall b cur comps, moved (walk_from fs follow b cur comps) (walk_from fs' follow b cur comps) \/ get fs cur = None.
Proof.
  induction b as [|b IHb]; intros cur comps; revert cur; induction comps as [|c rest IH]; intros cur; rewrite (walk_eq fs), (walk_eq fs');
    (destruct (get fs cur) as [m|] eqn:G; [left|now right]); destruct (put_kind _ _ G) as (m' & G' & Km); rewrite G'.
  1,3: cbn [moved]; eauto.
  all: destruct m as [d0 xs|xs es|t]; [destruct Km as (d2 & x2 & ->); cbn [moved]; eauto| |subst m'; cbn [moved]; eauto].
  all: destruct Km as (xs' & es' & ->).
  all: assert (Gdot : get fs (removelast cur) <> None).
  1,3: destruct cur as [|y cur] using rev_ind; [cbn [removelast]; congruence|]; rewrite removelast_last; apply get_above in G as (zs & zes & G); congruence.
  all: destruct (str_eqb c $"."); [destruct (IH cur) as [H|H]; [exact H|congruence]|].
  all: destruct (str_eqb c $".."); [destruct (IH (removelast cur)) as [H|H]; [exact H|contradiction]|].
  all: destruct (entry c es) as [n1|] eqn:E.
  1,3: assert (K1 : get fs (cur ++ [c]) = Some n1) by (now rewrite get_snoc, G).
  1,2: destruct (put_kind _ _ K1) as (n2 & K2 & Kn); rewrite get_snoc, G' in K2; rewrite K2.
  1,2: assert (K3 : get fs (cur ++ [c]) <> None) by congruence.
  1,2: destruct n1 as [d1 x1|x1 e1|t1]; [destruct Kn as (d2 & x2 & ->); destruct (IH (cur ++ [c])) as [H|H]; [exact H|contradiction]
                                          |destruct Kn as (x2 & e2 & ->); destruct (IH (cur ++ [c])) as [H|H]; [exact H|contradiction]|subst n2].
  - destruct (match rest with [] => negb follow | _ => false end); cbn [moved]; eauto.
  - destruct (match rest with [] => negb follow | _ => false end); [cbn [moved]; eauto|]. destruct t1 as [|t0 t1]; [cbn [moved]; eauto|].
    match goal with |- moved (walk_from _ _ _ ?cur ?comps) _ => destruct (IHb cur comps) as [H|H]; [exact H|] end.
    destruct (startswith _ _); [discriminate H|congruence].
  - assert (K1 : get fs (cur ++ [c]) = None) by (now rewrite get_snoc, G).
    destruct (put_none _ K1) as [K2|(K2 & K3)].
    + rewrite get_snoc, G' in K2. rewrite K2. destruct rest; cbn [moved]; eauto.
    + pose proof K3 as K4. rewrite get_snoc, G' in K3. rewrite K3, walk_eq, K4. destruct rest; cbn [moved]; eauto. right. split; [assumption|congruence].
  - assert (K1 : get fs (cur ++ [c]) = None) by (now rewrite get_snoc, G).
    destruct (put_none _ K1) as [K2|(K2 & K3)].
    + rewrite get_snoc, G' in K2. rewrite K2. destruct rest; cbn [moved]; eauto.
    + pose proof K3 as K4. rewrite get_snoc, G' in K3. rewrite K3, walk_eq, K4. destruct rest; cbn [moved]; eauto. right. split; [assumption|congruence].
Qed.
Lemma walk_abs cwd cwd' follow p : pp_abs p = true -> moved (walk fs cwd follow p) (walk fs' cwd' follow p).
Proof. intro A. unfold walk. rewrite A. destruct (walk_file follow max_links [] (pp_parts p)) as [H|H]; [exact H|discriminate H]. Qed.
End Slot.

(** A path that is followed does not end at a link. *)
Lemma not_link root b : forall cur comps q t, (forall t, get root cur <> Some (Link t)) -> walk_from root true b cur comps <> Found q (Link t).
Proof.
  assert (Up : forall cur, (forall t, get root cur <> Some (Link t)) -> forall xs es, get root cur = Some (Dir xs es) -> forall t, get root (removelast cur) <> Some (Link t)).
  { intros cur _ xs es G t. destruct cur as [|y cur] using rev_ind; [cbn [removelast]; cbn [get] in *; congruence|]. rewrite removelast_last. apply get_above in G as (zs & zes & G). congruence. }
  induction b as [|b IHb]; intros cur comps; revert cur; induction comps as [|c rest IH]; intros cur q t N H; rewrite walk_eq in H;
    destruct (get root cur) as [m|] eqn:G; try discriminate; try (injection H as _ ->; now apply (N t));
    destruct m as [d xs|xs es|t0]; try discriminate;
    destruct (str_eqb c $"."); try (eapply IH; [|exact H]; intros; congruence); destruct (str_eqb c $".."); try (eapply IH; [|exact H]; eapply Up; [|exact G]; intros; congruence);
    destruct (entry c es) as [[d' xs'|xs' es'|t']|] eqn:E; try (destruct rest; discriminate);
    try (eapply IH; [|exact H]; intros; rewrite get_snoc, G, E; discriminate).
  - replace (match rest with [] => negb true | _ :: _ => false end) with false in H by now destruct rest. destruct t' as [|a t']; [discriminate|].
    eapply IHb; [|exact H]. intro. destruct (startswith _ _); [|congruence]. destruct (place_dec cur []) as [->|]; [congruence|].
    destruct cur as [|y cur]; [congruence|]. cbn [get] in G |- *. destruct root; congruence.
Qed.

(** The name a path misses is a good one. *)
Definition piece (c : str) : Prop := c <> [] /\ ~ In (chr "/") c.
Lemma kcomps_piece t : Forall piece (kcomps t).
Proof.
  unfold kcomps. apply Forall_app. split.
  - apply Forall_forall. intros c I. apply filter_In in I as (I & K). apply split_parts in I. split; [|assumption]. intros ->. discriminate K.
  - destruct (match rev t with c :: _ => _ | [] => false end); [|constructor]. constructor; [|constructor]. split; [discriminate|]. cbn. intuition discriminate.
Qed.
Lemma missing_name root follow b : forall cur comps D x, Forall piece comps -> walk_from root follow b cur comps = Missing D x -> good_name x.
Proof.
  induction b as [|b IHb]; intros cur comps; revert cur; induction comps as [|c rest IH]; intros cur D x P H; rewrite walk_eq in H;
    destruct (get root cur) as [m|] eqn:G; try discriminate; inversion P as [|? ? P1 P2]; subst;
    destruct m as [d xs|xs es|t0]; try discriminate;
    destruct (str_eqb c $".") eqn:E1; try (now apply IH in H); destruct (str_eqb c $"..") eqn:E2; try (now apply IH in H);
    destruct (entry c es) as [[d' xs'|xs' es'|t']|] eqn:E; try (now apply IH in H);
    try (destruct rest; [|discriminate]; injection H as <- <-; apply str_eqb_neq in E1; apply str_eqb_neq in E2; destruct P1 as (P1 & P3); now repeat split).
  - destruct (match rest with [] => negb follow | _ => false end); discriminate.
  - destruct (match rest with [] => negb follow | _ => false end); [discriminate|]. destruct t' as [|a t']; [discriminate|].
    apply IHb in H; [assumption|]. apply Forall_app. split; [apply kcomps_piece|assumption].
Qed.
Lemma var_piece : Forall piece (pp_parts var_id).
Proof. repeat constructor; try discriminate; vm_compute; intuition discriminate. Qed.
Lemma good_made fs cwd T u ys : good_fs fs -> writes fs cwd var_id T -> good_fs (put fs T (File u ys)).
Proof.
  intros G Wr. pose proof (writes_slot _ _ _ _ G Wr) as ((D & x & -> & Dd) & _).
  apply good_put_new; [assumption|assumption| |constructor].
  destruct Wr as [(d & xs & W)|(D' & x' & W & E)].
  - unfold walk in W. apply walk_found_get in W. apply (good_names _ _ _ (proj1 G)) in W. apply Forall_app in W as (_ & W). now inversion W.
  - apply app_inj_tail in E as (-> & ->). unfold walk in W. now apply missing_name in W; [|apply var_piece].
Qed.

(** ** Asking *)
Section Run.
Variables (readable : ppath -> bool) (dirsize : nat) (digest : bytes -> bytes).
Notation usable := (usable readable dirsize).
Notation gives := (gives readable dirsize).

Lemma quiet_access p : quiet (accessf readable p).
Proof. apply quiet_catch; [apply quiet_bind; [apply quiet_stat|intro; apply quiet_ret]|]. intros []; try apply quiet_raise. apply quiet_ret. Qed.
Lemma quiet_usable p : quiet (usable p).
Proof.
  apply quiet_bind; [apply quiet_exists|]. intros [|]; [|apply quiet_ret]. apply quiet_bind; [apply quiet_access|]. intros [|]; [|apply quiet_ret].
  apply quiet_bind; [|intro; apply quiet_ret]. apply quiet_bind; [apply quiet_stat|intro; apply quiet_ret].
Qed.

Lemma usable_run p w : pp_abs p = true -> (forall t, w_fs w <> Link t) -> no_fault w -> exists b w', usable p w = (Ok b, w') /\ same w w' /\ (b = true <-> gives (w_fs w) (w_cwd w) p).
Proof.
  intros Ab Nl N. unfold Sysid.usable, bind at 1. destruct (test_run true p (fun _ => true) w N) as (w1 & S1 & E1).
  unfold p_exists. rewrite E1.
  destruct (walk (w_fs w) (w_cwd w) true p) as [q n|D x|e] eqn:W.
  2:{ exists false, w1. split; [reflexivity|]. split; [assumption|]. split; [discriminate|]. intros (_ & q & n & W' & _). congruence. }
  2:{ unfold walk in W. rewrite (RmdirtreeProofs.walk_fail _ _ _ _ _ _ W). exists false, w1. split; [reflexivity|]. split; [assumption|]. split; [discriminate|]. intros (_ & q & n & W' & _).
      unfold walk in W'. congruence. }
  cbn [negb]. assert (N1 := no_fault_same _ _ S1 N).
  unfold accessf, bind at 1, catch, bind at 1. unfold sys_stat at 1.
  destruct (ask_run (fun fs cwd => do r <- lookup true p fs cwd; Ok (snd r)) w1 N1) as (w2 & E2 & S2). rewrite E2.
  pose proof S1 as (F1 & C1 & _). unfold lookup. rewrite F1, C1, W. cbn [rbind snd].
  unfold ret at 1. destruct (readable p) eqn:R; cbn [negb].
  2:{ exists false, w2. split; [reflexivity|]. split; [exact (same_trans _ _ _ S1 S2)|]. split; [discriminate|]. intros (R' & _). congruence. }
  assert (N2 := no_fault_same _ _ S2 N1). unfold st_size, bind at 1, bind at 1, sys_stat.
  destruct (ask_run (fun fs cwd => do r <- lookup true p fs cwd; Ok (snd r)) w2 N2) as (w3 & E3 & S3). rewrite E3.
  pose proof S2 as (F2 & C2 & _). unfold lookup. rewrite F2, C2, F1, C1, W. cbn [rbind snd].
  eexists _, w3. split; [reflexivity|]. split; [exact (same_trans _ _ _ (same_trans _ _ _ S1 S2) S3)|].
  rewrite Nat.ltb_lt. split.
  - intro L. split; [assumption|]. exists q, n. split; [assumption|]. destruct n as [d xs|xs es|t]; [intros ->; cbn in L; lia|assumption|].
    revert W. unfold walk. rewrite Ab. apply not_link. intros t0 G. apply (Nl t0). cbn [get] in G. congruence.
  - intros (_ & q' & n' & W' & K). rewrite W in W'. injection W' as <- <-. destruct n as [d xs|xs es|t]; [destruct d; [congruence|cbn; lia]|assumption|contradiction].
Qed.

(** ** Making one *)
Definition being_made (fs : node) (T : place) (uuid : str) (s : node) : Prop :=
  exists d, (d = [] \/ d = map byte_of uuid) /\ s = put fs T (File d (file_xattrs fs T)).
Lemma make_any uuid w r w' : good_fs (w_fs w) -> make_id uuid w = (r, w') ->
  (same w w' /\ exists e, r = Err e) \/
  exists T l, writes (w_fs w) (w_cwd w) var_id T /\ w_cwd w' = w_cwd w /\ w_fault w' = w_fault w /\
    w_hist w' = l ++ w_hist w /\ Forall (being_made (w_fs w) T uuid) (w_fs w' :: l) /\
    (r = Ok var_id -> w_fs w' = put (w_fs w) T (File (map byte_of uuid) (file_xattrs (w_fs w) T))).
Proof.
  intros G H. unfold make_id in H. apply bind_inv in H as [(q & w1 & H1 & H)|(e & H1 & ->)].
  2:{ left. apply sys_inv in H1 as [(e' & _ & S & _)|(a & fs & D & _)]; [|discriminate]. split; [assumption|]. now exists e. }
  assert (exists T, writes (w_fs w) (w_cwd w) var_id T) as (T & Wr).
  { apply sys_inv in H1 as [(e & D & _)|(a & fs & _ & E & _)]; [discriminate|].
    destruct (walk (w_fs w) (w_cwd w) true var_id) as [q0 [d xs|xs es|t]|D x|e] eqn:W; try discriminate E.
    - exists q0. left. eauto.
    - exists (D ++ [x]). right. eauto. }
  pose proof (writes_slot _ _ _ _ G Wr) as HT.
  apply (create_step _ _ _ _ w Wr eq_refl eq_refl) in H1 as [(e & D & _)|(Q & Ch)]; [discriminate|]. injection Q as ->.
  right. exists T. pose proof Ch as (C1 & C2 & C3 & C4).
  assert (B0 : being_made (w_fs w) T uuid (w_fs w1)) by (rewrite C1; exists []; auto).
  assert (Gt : get (w_fs w1) T = Some (File [] (file_xattrs (w_fs w) T))) by (rewrite C1; now apply slot_get).
  apply bind_inv in H as [([] & w2 & H1 & H)|(e & H1 & ->)]; apply (append_step _ _ _ _ _ _ _ Gt) in H1 as [(e1 & D & S & _)|(D & Ch2)]; try discriminate D.
  - injection H as <- <-. destruct Ch2 as (D1 & D2 & D3 & D4). rewrite C1, RmdirtreeProofs.put_put in D1, D3. cbn [app] in D1, D3.
    exists [w_fs w2; w_fs w1]. split; [assumption|]. split; [congruence|]. split; [congruence|]. split; [rewrite D3, C3, C1, D1; reflexivity|].
    assert (B1 : being_made (w_fs w) T uuid (w_fs w2)) by (rewrite D1; eexists; eauto).
    split; [now repeat constructor|]. intros _. exact D1.
  - exists [w_fs w1]. destruct S as (D1 & D2 & D3 & D4). split; [assumption|]. split; [congruence|]. split; [congruence|].
    split; [rewrite D3, C3, C1; reflexivity|]. rewrite D1. split; [now repeat constructor|discriminate].
Qed.
Lemma make_run uuid w T : good_fs (w_fs w) -> no_fault w -> writes (w_fs w) (w_cwd w) var_id T ->
  exists w', make_id uuid w = (Ok var_id, w') /\ w_fs w' = put (w_fs w) T (File (map byte_of uuid) (file_xattrs (w_fs w) T)) /\ w_cwd w' = w_cwd w /\ no_fault w'.
Proof.
  intros G N Wr. pose proof (writes_slot _ _ _ _ G Wr) as HT. destruct (sys_create var_id w) as [r1 w1] eqn:E1.
  pose proof (create_step _ _ _ _ w Wr eq_refl eq_refl _ _ E1) as [(e & _ & _ & K)|(-> & Ch)]; [rewrite N in K; discriminate|].
  pose proof Ch as (C1 & C2 & _). assert (N1 := no_fault_changed _ _ _ Ch N).
  assert (Gt : get (w_fs w1) T = Some (File [] (file_xattrs (w_fs w) T))) by (rewrite C1; now apply slot_get).
  destruct (sys_append T (map byte_of uuid) w1) as [r2 w2] eqn:E2.
  pose proof (append_step _ _ _ _ _ _ _ Gt E2) as [(e & _ & _ & K)|(-> & Ch2)]; [rewrite N1 in K; discriminate|].
  pose proof Ch2 as (D1 & D2 & _). exists w2. split; [unfold make_id, bind; rewrite E1, E2; reflexivity|].
  rewrite C1, RmdirtreeProofs.put_put in D1. split; [exact D1|]. split; [congruence|]. exact (no_fault_changed _ _ _ Ch2 N1).
Qed.
Lemma make_stuck uuid w : no_fault w -> (forall T, ~ writes (w_fs w) (w_cwd w) var_id T) -> exists e w', make_id uuid w = (Err (OSErr e), w') /\ same w w'.
Proof.
  intros N Nw. destruct (sys_create var_id w) as [r w'] eqn:E. pose proof E as E'.
  apply sys_inv in E' as [(e & -> & S & [K|K])|(a & fs & -> & K & _)].
  - destruct (walk (w_fs w) (w_cwd w) true var_id) as [q [d xs|xs es|t]|D x|e'] eqn:W; try discriminate K; injection K as <-;
      (eexists; exists w'; split; [unfold make_id, bind; rewrite E; reflexivity|assumption]).
  - rewrite N in K. discriminate.
  - exfalso. destruct (walk (w_fs w) (w_cwd w) true var_id) as [q [d xs|xs es|t]|D x|e'] eqn:W; try discriminate K.
    + apply (Nw q). left. eauto.
    + apply (Nw (D ++ [x])). right. eauto.
Qed.

(** ** Finding the file *)
Definition quiet_asked (asked : ppath -> M bool) : Prop := forall p, quiet (asked p).
Lemma path_any asked ig uuid w r w' : quiet_asked asked -> good_fs (w_fs w) -> sysidpath asked ig uuid w = (r, w') ->
  same w w' \/
  exists T l, writes (w_fs w) (w_cwd w) var_id T /\ w_cwd w' = w_cwd w /\ w_fault w' = w_fault w /\
    w_hist w' = l ++ w_hist w /\ Forall (being_made (w_fs w) T uuid) (w_fs w' :: l) /\
    (r = Ok var_id -> w_fs w' = put (w_fs w) T (File (map byte_of uuid) (file_xattrs (w_fs w) T))).
Proof.
  intros Qa G H.
  assert (Mk : forall w1, same w w1 -> make_id uuid w1 = (r, w') -> same w w' \/ exists T l, writes (w_fs w) (w_cwd w) var_id T /\ w_cwd w' = w_cwd w /\ w_fault w' = w_fault w /\
    w_hist w' = l ++ w_hist w /\ Forall (being_made (w_fs w) T uuid) (w_fs w' :: l) /\
    (r = Ok var_id -> w_fs w' = put (w_fs w) T (File (map byte_of uuid) (file_xattrs (w_fs w) T)))).
  { intros w1 S H1. pose proof S as (S1 & S2 & S3 & S4). apply make_any in H1; [|now rewrite S1]. destruct H1 as [(S' & _)|(T & l & A)]; [left; exact (same_trans _ _ _ S S')|].
    right. exists T, l. rewrite S1, S2, S3, S4 in A. exact A. }
  unfold sysidpath in H. destruct ig; [exact (Mk w (same_refl w) H)|].
  apply bind_inv in H as [(a & w1 & H1 & H)|(e & H1 & ->)]; apply (Qa etc_id) in H1; [|now left].
  destruct a; [injection H as <- <-; now left|].
  apply bind_inv in H as [(b & w2 & H2 & H)|(e & H2 & ->)]; apply (Qa var_id) in H2; [|left; exact (same_trans _ _ _ H1 H2)].
  destruct b; [injection H as <- <-; left; exact (same_trans _ _ _ H1 H2)|]. exact (Mk w2 (same_trans _ _ _ H1 H2) H).
Qed.
Lemma quiet_all_usable : quiet_asked usable. Proof. intro p. apply quiet_usable. Qed.

Lemma path_run uuid w : good_fs (w_fs w) -> no_fault w ->
  exists r w', sysidpath usable false uuid w = (r, w') /\
  ((gives (w_fs w) (w_cwd w) etc_id /\ r = Ok etc_id /\ same w w') \/
   (~ gives (w_fs w) (w_cwd w) etc_id /\ gives (w_fs w) (w_cwd w) var_id /\ r = Ok var_id /\ same w w') \/
   (~ gives (w_fs w) (w_cwd w) etc_id /\ ~ gives (w_fs w) (w_cwd w) var_id /\
    ((exists T, writes (w_fs w) (w_cwd w) var_id T /\ r = Ok var_id /\ w_cwd w' = w_cwd w /\ no_fault w' /\
        w_fs w' = put (w_fs w) T (File (map byte_of uuid) (file_xattrs (w_fs w) T))) \/
     ((forall T, ~ writes (w_fs w) (w_cwd w) var_id T) /\ same w w' /\ exists e, r = Err (OSErr e))))).
Proof.
  intros G N. assert (Nl : forall t, w_fs w <> Link t) by (destruct G as (_ & xs & es & ->); discriminate).
  unfold sysidpath, bind.
  destruct (usable_run etc_id w eq_refl Nl N) as (a & w1 & E1 & S1 & B1). rewrite E1. pose proof S1 as (F1 & C1 & _).
  destruct a; [exists (Ok etc_id), w1; split; [reflexivity|]; left; split; [now apply B1|now split]|].
  assert (G1 : ~ gives (w_fs w) (w_cwd w) etc_id) by (intro K; apply B1 in K; discriminate).
  assert (N1 := no_fault_same _ _ S1 N).
  destruct (usable_run var_id w1 eq_refl ltac:(now rewrite F1) N1) as (b & w2 & E2 & S2 & B2). rewrite E2. rewrite F1, C1 in B2.
  assert (S := same_trans _ _ _ S1 S2). assert (N2 := no_fault_same _ _ S2 N1). pose proof S as (F & C & _).
  destruct b; [exists (Ok var_id), w2; split; [reflexivity|]; right; left; split; [assumption|]; split; [now apply B2|now split]|].
  assert (G2 : ~ gives (w_fs w) (w_cwd w) var_id) by (intro K; apply B2 in K; discriminate).
  destruct (make_id uuid w2) as [r w'] eqn:E. exists r, w'. split; [reflexivity|]. right. right. split; [assumption|]. split; [assumption|].
  assert (Dec : (exists T, writes (w_fs w) (w_cwd w) var_id T) \/ (forall T, ~ writes (w_fs w) (w_cwd w) var_id T)).
  { unfold writes. destruct (walk (w_fs w) (w_cwd w) true var_id) as [q [d xs|xs es|t]|D x|e] eqn:W.
    - left. exists q. left. eauto.
    - right. intros T [(? & ? & K)|(? & ? & K & _)]; discriminate.
    - right. intros T [(? & ? & K)|(? & ? & K & _)]; discriminate.
    - left. exists (D ++ [x]). right. eauto.
    - right. intros T [(? & ? & K)|(? & ? & K & _)]; discriminate. }
  destruct Dec as [(T & Wr)|Nw].
  - left. exists T. split; [assumption|]. rewrite <- F, <- C in Wr. destruct (make_run uuid w2 T) as (w3 & E3 & F3 & C3 & N3); [now rewrite F|assumption|assumption|].
    rewrite E in E3. injection E3 as -> ->. rewrite F in F3. split; [reflexivity|]. split; [congruence|]. now split.
  - right. split; [assumption|]. destruct (make_stuck uuid w2 N2) as (e & w3 & E3 & S3); [now rewrite F, C|]. rewrite E in E3. injection E3 as -> ->.
    split; [exact (same_trans _ _ _ S S3)|]. now exists e.
Qed.

(** ** Reading it *)
Definition read_id (p : ppath) : M bytes :=
  let! f <- p_is_file p ;
  if f then let! d <- read_all p ; ret (firstn 16 (digest d)) else raise TypeError.
Lemma quiet_read_id p : quiet (read_id p).
Proof. apply quiet_bind; [apply quiet_is_file|]. intros [|]; [|apply quiet_raise]. apply quiet_bind; [apply quiet_ask|intro; apply quiet_ret]. Qed.
Lemma read_id_run p w q n : no_fault w -> walk (w_fs w) (w_cwd w) true p = Found q n ->
  exists w', read_id p w = (match n with File d _ => Ok (firstn 16 (digest d)) | _ => Err TypeError end, w') /\ same w w'.
Proof.
  intros N W. unfold read_id, bind. destruct (test_run true p (fun n => match n with File _ _ => true | _ => false end) w N) as (w1 & S1 & E1).
  unfold p_is_file. rewrite E1, W. destruct n as [d xs|xs es|t]; [|exists w1; now split|exists w1; now split].
  pose proof S1 as (F1 & C1 & _). assert (N1 := no_fault_same _ _ S1 N). unfold read_all.
  match goal with |- context [ask ?f w1] => destruct (ask_run f w1 N1) as (w2 & E2 & S2); rewrite E2 end.
  unfold lookup. rewrite F1, C1, W. cbn [rbind snd]. exists w2. split; [reflexivity|exact (same_trans _ _ _ S1 S2)].
Qed.

Lemma walk_var_after fs cwd cwd' T u ys : good_fs fs -> writes fs cwd var_id T -> walk (put fs T (File u ys)) cwd' true var_id = Found T (File u ys).
Proof.
  intros G Wr. pose proof (writes_slot _ _ _ _ G Wr) as HT. pose proof (walk_abs fs T u ys HT cwd cwd' true var_id eq_refl) as Mv.
  pose proof (slot_get fs T (File u ys) HT) as Gt.
  destruct Wr as [(d & xs & W)|(D & x & W & ->)]; rewrite W in Mv; cbn [moved] in Mv.
  - destruct Mv as (n' & Mv). rewrite Mv. unfold walk in Mv. apply walk_found_get in Mv. congruence.
  - destruct Mv as [Mv|(_ & Mv)]; [|exact Mv]. unfold walk in Mv. apply walk_missing_inv in Mv as (xs & es & Gd & E). rewrite get_snoc, Gd, E in Gt. discriminate.
Qed.
Lemma gives_after fs cwd cwd' T u ys p : good_fs fs -> writes fs cwd var_id T -> pp_abs p = true -> gives (put fs T (File u ys)) cwd' p ->
  walk (put fs T (File u ys)) cwd' true p = Found T (File u ys) \/ gives fs cwd p.
Proof.
  intros G Wr Ab (R & q & n & W & K). pose proof (writes_slot _ _ _ _ G Wr) as HT. pose proof (walk_abs fs T u ys HT cwd cwd' true p Ab) as Mv. rewrite W in Mv.
  assert (Gq : get (put fs T (File u ys)) q = Some n) by (unfold walk in W; now apply walk_found_get in W).
  destruct (place_dec q T) as [->|Nq]; [left; rewrite (slot_get fs T (File u ys) HT) in Gq; congruence|right]. split; [assumption|].
  destruct (walk fs cwd true p) as [q0 n0|D x|e] eqn:W0; cbn [moved] in Mv.
  - destruct Mv as (n' & Mv). injection Mv as <- <-. exists q, n0. split; [reflexivity|]. unfold walk in W0. apply walk_found_get in W0.
    pose proof (put_look fs T (File u ys) q HT I Nq) as L. unfold look in L. rewrite W0, Gq in L.
    destruct n, n0; try discriminate L; try contradiction; try assumption. congruence.
  - destruct Mv as [Mv|(_ & Mv)]; [discriminate|]. congruence.
  - destruct Mv as (e' & Mv). discriminate.
Qed.
Lemma gives_cwd fs cwd cwd' p : pp_abs p = true -> gives fs cwd p -> gives fs cwd' p.
Proof. intros Ab (R & q & n & W & K). split; [assumption|]. exists q, n. split; [|assumption]. unfold walk in *. now rewrite Ab in *. Qed.

Notation bind_sysid := (bind_sysid readable dirsize digest).
Lemma bind_eq uuid : bind_sysid None uuid = (let! raw <- (let! p <- sysidpath usable false uuid ; read_id p) ; ret (sysid_of raw)).
Proof. reflexivity. Qed.

(** What a fault free run gives. *)
Lemma bind_run uuid w : good_fs (w_fs w) -> no_fault w ->
  exists r w', bind_sysid None uuid w = (r, w') /\
  ((exists p q n, (p = etc_id \/ (p = var_id /\ ~ gives (w_fs w) (w_cwd w) etc_id)) /\ gives (w_fs w) (w_cwd w) p /\ walk (w_fs w) (w_cwd w) true p = Found q n /\ same w w' /\
      r = match n with File d _ => Ok (sysid_of (firstn 16 (digest d))) | _ => Err TypeError end) \/
   (~ gives (w_fs w) (w_cwd w) etc_id /\ ~ gives (w_fs w) (w_cwd w) var_id /\
    ((exists T, writes (w_fs w) (w_cwd w) var_id T /\ r = Ok (sysid_of (firstn 16 (digest (map byte_of uuid)))) /\ w_cwd w' = w_cwd w /\
        w_fs w' = put (w_fs w) T (File (map byte_of uuid) (file_xattrs (w_fs w) T))) \/
     ((forall T, ~ writes (w_fs w) (w_cwd w) var_id T) /\ same w w' /\ exists e, r = Err (OSErr e))))).
Proof.
  intros G N. rewrite bind_eq. unfold bind. destruct (path_run uuid w G N) as (r & w1 & E & C). rewrite E.
  assert (Rd : forall p, gives (w_fs w) (w_cwd w) p -> (p = etc_id \/ (p = var_id /\ ~ gives (w_fs w) (w_cwd w) etc_id)) -> r = Ok p -> same w w1 ->
    exists r0 w', (match match r with Ok a => read_id a w1 | Err e => (Err e, w1) end with (Ok a, w'0) => ret (sysid_of a) w'0 | (Err e, w'0) => (Err e, w'0) end) = (r0, w') /\
    exists p q n, (p = etc_id \/ (p = var_id /\ ~ gives (w_fs w) (w_cwd w) etc_id)) /\ gives (w_fs w) (w_cwd w) p /\ walk (w_fs w) (w_cwd w) true p = Found q n /\ same w w' /\
      r0 = match n with File d _ => Ok (sysid_of (firstn 16 (digest d))) | _ => Err TypeError end).
  { intros p Gp Hp -> S1. pose proof Gp as (R & q & n & W & K). pose proof S1 as (F1 & C1 & _).
    destruct (read_id_run p w1 q n) as (w2 & E2 & S2); [exact (no_fault_same _ _ S1 N)|now rewrite F1, C1|]. rewrite E2.
    assert (S := same_trans _ _ _ S1 S2).
    destruct n as [d xs|xs es|t]; (eexists _, w2; split; [reflexivity|]; exists p, q; eexists; split; [exact Hp|]; split; [exact Gp|]; split; [exact W|]; split; [exact S|]; reflexivity). }
  destruct C as [(C1 & C2 & C3)|[(C1 & C2 & C3 & C4)|(C1 & C2 & [(T & Wr & C3 & C4 & N1 & C5)|(Nw & S & e & C3)])]].
  - destruct (Rd _ C1 (or_introl eq_refl) C2 C3) as (r0 & w' & E0 & K). exists r0, w'. split; [exact E0|]. now left.
  - destruct (Rd _ C2 (or_intror (conj eq_refl C1)) C3 C4) as (r0 & w' & E0 & K). exists r0, w'. split; [exact E0|]. now left.
  - subst r. destruct (read_id_run var_id w1 T (File (map byte_of uuid) (file_xattrs (w_fs w) T)) N1) as (w2 & E2 & S2).
    { rewrite C5. exact (walk_var_after _ _ _ _ _ _ G Wr). }
    rewrite E2. eexists _, w2. split; [reflexivity|]. right. split; [assumption|]. split; [assumption|]. left. exists T.
    destruct S2 as (F2 & D2 & _). split; [assumption|]. split; [reflexivity|]. split; [congruence|]. congruence.
  - subst r. eexists _, w1. split; [reflexivity|]. right. split; [assumption|]. split; [assumption|]. right. split; [assumption|]. split; [assumption|]. now exists e.
Qed.

(** Asked again, by whatever program. *)
Lemma bind_again uuid fs cwd i w1 : good_fs fs -> readable var_id = true -> uuid <> [] ->
  bind_sysid None uuid (start fs cwd (fun _ => None)) = (Ok i, w1) ->
  forall cwd' uuid', exists w2, bind_sysid None uuid' (start (w_fs w1) cwd' (fun _ => None)) = (Ok i, w2) /\ same (start (w_fs w1) cwd' (fun _ => None)) w2.
Proof.
  intros G Rv Nu H cwd' uuid'.
  destruct (bind_run uuid (start fs cwd (fun _ => None)) G (fun _ => eq_refl)) as (r & w' & E & C). rewrite H in E. injection E as <- <-.
  cbn [w_fs w_cwd start] in C.
  destruct C as [(p & q & n & Hp & Gp & W & S & R)|(G1 & G2 & [(T & Wr & R & _ & F)|(_ & _ & e & R)])]; [| |discriminate].
  - pose proof S as (F & _). cbn [w_fs start] in F. rewrite F.
    destruct (bind_run uuid' (start fs cwd' (fun _ => None)) G (fun _ => eq_refl)) as (r2 & w2 & E2 & C2). exists w2. cbn [w_fs w_cwd start] in C2.
    assert (Ap : pp_abs p = true) by (destruct Hp as [->|(-> & _)]; reflexivity).
    destruct C2 as [(p2 & q2 & n2 & Hp2 & Gp2 & W2 & S2 & R2)|(K1 & K2 & _)].
    + assert (Ep : p2 = p).
      { destruct Hp as [->|(-> & Ng)], Hp2 as [->|(-> & Ng2)]; try reflexivity; exfalso.
        - apply Ng2. now apply (gives_cwd _ cwd).
        - apply Ng. now apply (gives_cwd _ cwd'). }
      subst p2. assert (Ew : walk fs cwd' true p = walk fs cwd true p) by (unfold walk; now rewrite Ap). rewrite Ew, W in W2. injection W2 as <- <-.
      rewrite <- R in R2. subst r2. now split.
    + exfalso. destruct Hp as [->|(-> & _)]; [apply K1|apply K2]; now apply (gives_cwd _ cwd).
  - rewrite F. set (fs1 := put fs T _) in *. assert (G' : good_fs fs1) by now apply (good_made _ cwd).
    assert (Wv : forall c, walk fs1 c true var_id = Found T (File (map byte_of uuid) (file_xattrs fs T))) by (intro c; now apply (walk_var_after _ cwd)).
    assert (Gv : gives fs1 cwd' var_id).
    { split; [assumption|]. eexists _, _. split; [apply Wv|]. destruct uuid; [congruence|discriminate]. }
    destruct (bind_run uuid' (start fs1 cwd' (fun _ => None)) G' (fun _ => eq_refl)) as (r2 & w2 & E2 & C2). exists w2. cbn [w_fs w_cwd start] in C2.
    destruct C2 as [(p2 & q2 & n2 & Hp2 & Gp2 & W2 & S2 & R2)|(K1 & K2 & _)]; [|contradiction].
    assert (W3 : walk fs1 cwd' true p2 = Found T (File (map byte_of uuid) (file_xattrs fs T))).
    { destruct Hp2 as [->|(-> & _)]; [|apply Wv]. destruct (gives_after _ cwd cwd' _ _ _ etc_id G Wr eq_refl Gp2) as [K|K]; [exact K|contradiction]. }
    rewrite W3 in W2. injection W2 as <- <-. rewrite R2 in E2. injection R as ->. now split.
Qed.

(** Whatever fails, only the place of the file that is made can change. *)
Lemma look_made fs T u ys q : slot fs T -> q <> T -> look (put fs T (File u ys)) q = look fs q.
Proof. intros HT N. now apply put_look. Qed.
Lemma path_states asked ig uuid fs cwd fault r w' : quiet_asked asked -> good_fs fs -> sysidpath asked ig uuid (start fs cwd fault) = (r, w') ->
  only_made fs cwd (map byte_of uuid) (states w').
Proof.
  intros Q G H. apply path_any in H; [|assumption|assumption]. cbn [w_fs w_cwd w_hist start] in H.
  destruct H as [(F & _ & Hi & _)|(T & l & Wr & _ & _ & Hi & Fo & _)].
  - left. unfold states. rewrite F, Hi. cbn. intros s [<-|[<-|[]]]; reflexivity.
  - right. exists T. split; [assumption|]. pose proof (writes_slot _ _ _ _ G Wr) as HT.
    assert (K : forall s, being_made fs T uuid s -> only_at T fs s /\ (look s T = look fs T \/ exists d, (d = [] \/ d = map byte_of uuid) /\ look s T = Some (AFile d (file_xattrs fs T)))).
    { intros s (d & Hd & ->). split; [intros q Nq; now apply look_made|]. right. exists d. split; [assumption|]. unfold look. now rewrite slot_get. }
    unfold states. rewrite Hi. intros s I. rewrite Forall_forall in Fo.
    destruct I as [<-|I]; [apply K, Fo; now left|]. apply in_app_or in I as [I|[<-|[]]]; [apply K, Fo; now right|]. split; [intros q _; reflexivity|now left].
Qed.
Lemma quiet_after {A B} (m : M A) (f : A -> M B) w r w' : (forall a, quiet (f a)) -> bind m f w = (r, w') -> exists r1 w1, m w = (r1, w1) /\ same w1 w'.
Proof.
  intros Q H. apply bind_inv in H as [(a & w1 & H1 & H)|(e & H1 & ->)].
  - exists (Ok a), w1. split; [assumption|]. now apply Q in H.
  - exists (Err e), w'. split; [assumption|apply same_refl].
Qed.
Lemma bind_states sid uuid fs cwd fault r w' : good_fs fs -> bind_sysid sid uuid (start fs cwd fault) = (r, w') ->
  only_made fs cwd (map byte_of uuid) (states w') /\ (forall s, sid = Some s -> r = Err ValueError /\ states w' = [fs; fs]).
Proof.
  intros G H. destruct sid as [s0|].
  - injection H as <- <-. split; [|split; reflexivity]. left. cbn. intros s [<-|[<-|[]]]; reflexivity.
  - split; [|discriminate]. rewrite bind_eq in H.
    apply quiet_after in H as (r1 & w1 & H & (F1 & _ & H1 & _)); [|intro; apply quiet_ret].
    apply quiet_after in H as (r2 & w2 & H & (F2 & _ & H2 & _)); [|intro; apply quiet_read_id].
    apply path_states in H; [|exact quiet_all_usable|assumption]. unfold states in *. now rewrite F1, F2, H1, H2.
Qed.
Lemma remote_states there tu sid uuid fs cwd fault r w' : good_fs fs -> bind_sysid_remote there tu sid uuid (start fs cwd fault) = (r, w') ->
  (sid <> None \/ tu etc_id = true \/ tu var_id = true) -> forall s, In s (states w') -> s = fs.
Proof.
  intros G H K. assert (Sm : same (start fs cwd fault) w').
  { destruct sid as [s0|]; [injection H as <- <-; apply same_refl|]. destruct K as [K|K]; [congruence|].
    unfold bind_sysid_remote, sysidpath in H. unfold bind, ret in H.
    destruct (tu etc_id) eqn:E1; [destruct (there etc_id); injection H as <- <-; apply same_refl|].
    destruct (tu var_id) eqn:E2; [destruct (there var_id); injection H as <- <-; apply same_refl|]. destruct K; discriminate. }
  destruct Sm as (F & _ & Hi & _). unfold states. rewrite F, Hi. cbn. intros s [<-|[<-|[]]]; reflexivity.
Qed.

Lemma writes_fun fs cwd p T T' : writes fs cwd p T -> writes fs cwd p T' -> T = T'.
Proof. intros [(d & xs & W)|(D & x & W & ->)] [(d' & xs' & W')|(D' & x' & W' & ->)]; congruence. Qed.
Lemma path_which uuid fs cwd r w' : good_fs fs -> sysidpath usable false uuid (start fs cwd (fun _ => None)) = (r, w') ->
  (gives fs cwd system_file -> r = Ok system_file /\ w_fs w' = fs) /\
  (~ gives fs cwd system_file -> gives fs cwd own_file -> r = Ok own_file /\ w_fs w' = fs) /\
  (~ gives fs cwd system_file -> ~ gives fs cwd own_file ->
   (forall T, writes fs cwd own_file T -> r = Ok own_file /\ look (w_fs w') T = Some (AFile (map byte_of uuid) (file_xattrs fs T)) /\ only_at T fs (w_fs w')) /\
   ((forall T, ~ writes fs cwd own_file T) -> (exists e, r = Err (OSErr e)) /\ w_fs w' = fs)).
Proof.
  intros G H. destruct (path_run uuid (start fs cwd (fun _ => None)) G (fun _ => eq_refl)) as (r' & w1 & E & C). rewrite H in E. injection E as <- <-.
  cbn [w_fs w_cwd start] in C.
  destruct C as [(C1 & C2 & C3 & _)|[(C1 & C2 & C3 & C4 & _)|(C1 & C2 & C)]]; cbn [w_fs start] in *.
  - split; [now split|]. split; intro K; now destruct K.
  - split; [intro K; now destruct C1|]. split; [now split|]. intros _ K. now destruct K.
  - split; [intro K; now destruct C1|]. split; [intros _ K; now destruct C2|]. intros _ _. destruct C as [(T & Wr & C3 & C4 & N1 & C5)|(Nw & (S & _) & C3)].
    + split; [|intro K; now destruct (K T)]. intros T' Wr'. rewrite <- (writes_fun _ _ _ _ _ Wr Wr'). pose proof (writes_slot _ _ _ _ G Wr) as HT.
      split; [assumption|]. rewrite C5. split; [unfold look; now rewrite slot_get|]. intros q Nq. now apply look_made.
    + split; [intros T Wr; now destruct (Nw T)|]. intros _. now split.
Qed.
Lemma bind_value uuid fs cwd r w' : good_fs fs -> bind_sysid None uuid (start fs cwd (fun _ => None)) = (r, w') ->
  let of d := sysid_of (firstn 16 (digest d)) in
  (gives fs cwd system_file -> id_read of fs cwd system_file r) /\
  (~ gives fs cwd system_file -> gives fs cwd own_file -> id_read of fs cwd own_file r) /\
  (~ gives fs cwd system_file -> ~ gives fs cwd own_file -> (exists T, writes fs cwd own_file T) -> r = Ok (of (map byte_of uuid))).
Proof.
  intros G H. destruct (bind_run uuid (start fs cwd (fun _ => None)) G (fun _ => eq_refl)) as (r' & w1 & E & C). rewrite H in E. injection E as <- <-.
  cbn [w_fs w_cwd start] in C. cbv zeta.
  destruct C as [(p & q & n & Hp & Gp & W & S & R)|(G1 & G2 & C)].
  - assert (K : id_read (fun d => sysid_of (firstn 16 (digest d))) fs cwd p r) by (unfold id_read; rewrite W; now destruct n).
    destruct Hp as [->|(-> & Ng)].
    + split; [intros _; exact K|]. split; intro Z; now destruct Z.
    + split; [intro Z; now destruct Ng|]. split; [intros _ _; exact K|]. intros _ Z. now destruct Z.
  - split; [intro Z; now destruct G1|]. split; [intros _ Z; now destruct G2|]. intros _ _ (T & Wr).
    destruct C as [(T' & Wr' & R & _)|(Nw & _)]; [assumption|now destruct (Nw T)].
Qed.
Lemma path_fresh asked uuid fs cwd T : good_fs fs -> writes fs cwd own_file T ->
  exists w', sysidpath asked true uuid (start fs cwd (fun _ => None)) = (Ok own_file, w') /\
    look (w_fs w') T = Some (AFile (map byte_of uuid) (file_xattrs fs T)) /\ only_at T fs (w_fs w').
Proof.
  intros G Wr. destruct (make_run uuid (start fs cwd (fun _ => None)) T G (fun _ => eq_refl) Wr) as (w' & E & F & _). exists w'.
  pose proof (writes_slot _ _ _ _ G Wr) as HT. cbn [w_fs start] in F.
  split; [exact E|]. rewrite F. split; [unfold look; now rewrite slot_get|]. intros q Nq. now apply look_made.
Qed.
End Run.

(** ** Cases *)
Definition pad16 (d : bytes) : bytes := firstn 16 (d ++ repeat x00 16).
Definition machine (etc vartmp : list (str * node)) : node :=
  Dir [] [($"etc", Dir [] etc); ($"var", Dir [] [($"tmp", Dir [] vartmp)])].
Definition text (s : str) : bytes := map byte_of s.
Definition bare : node := machine [] [].
Definition with_own : node := machine [] [($"machine-id", File (text $"0a1b") [])].
Definition with_system : node := machine [($"machine-id", File (text $"ffee") [])] [($"machine-id", File (text $"0a1b") [])].
Definition with_folder : node := machine [($"machine-id", Dir [] [])] [].
Ltac good_tac := split; [repeat (constructor; [repeat constructor; cbn; intuition discriminate
  |intros y K; cbn in K; repeat (destruct K as [<-|K]; [repeat split; try discriminate; cbn; intuition discriminate|]); destruct K
  |intros y c K; cbn in K; repeat (destruct K as [K|K]; [injection K as <- <-|]); try contradiction K]); try constructor
  |eexists _, _; reflexivity].
Lemma good_bare : good_fs bare. Proof. unfold bare, machine. good_tac. Qed.
Lemma good_own : good_fs with_own. Proof. unfold with_own, machine. good_tac. Qed.
Lemma good_system : good_fs with_system. Proof. unfold with_system, machine. good_tac. Qed.
Lemma good_folder : good_fs with_folder. Proof. unfold with_folder, machine. good_tac. Qed.

Definition ok_of (r : res str) : str := match r with Ok i => i | Err _ => [] end.
Definition run_of {A} (m : M A) (fs : node) : res A * world := m (start fs [] (fun _ => None)).
Lemma unreadable_refuted : ~ (forall readable dirsize digest uuid uuid' fs cwd i w1 r w2, good_fs fs -> uuid <> [] ->
  bind_sysid readable dirsize digest None uuid (start fs cwd (fun _ => None)) = (Ok i, w1) ->
  bind_sysid readable dirsize digest None uuid' (start (w_fs w1) cwd (fun _ => None)) = (r, w2) -> r = Ok i).
Proof.
  intro H. pose (r1 := run_of (bind_sysid (fun _ => false) 1 pad16 None $"0a1b") bare).
  pose (r2 := run_of (bind_sysid (fun _ => false) 1 pad16 None $"2c3d") (w_fs (snd r1))).
  specialize (H (fun _ => false) 1%nat pad16 $"0a1b" $"2c3d" bare [] (ok_of (fst r1)) (snd r1) (fst r2) (snd r2) good_bare).
  assert (K : fst r2 = Ok (ok_of (fst r1))) by (apply H; [discriminate|vm_compute; reflexivity|vm_compute; reflexivity]).
  vm_compute in K. discriminate K.
Qed.
Lemma appears_refuted : ~ (forall readable dirsize digest uuid fs fs' cwd i w1 r w2, good_fs fs -> good_fs fs' -> (forall p, readable p = true) ->
  only_at [$"etc"; $"machine-id"] fs fs' ->
  bind_sysid readable dirsize digest None uuid (start fs cwd (fun _ => None)) = (Ok i, w1) ->
  bind_sysid readable dirsize digest None uuid (start fs' cwd (fun _ => None)) = (r, w2) -> r = Ok i).
Proof.
  intro H. pose (r1 := run_of (bind_sysid (fun _ => true) 1 pad16 None $"2c3d") with_own).
  pose (r2 := run_of (bind_sysid (fun _ => true) 1 pad16 None $"2c3d") with_system).
  specialize (H (fun _ => true) 1%nat pad16 $"2c3d" with_own with_system [] (ok_of (fst r1)) (snd r1) (fst r2) (snd r2) good_own good_system (fun _ => eq_refl)).
  assert (O : only_at [$"etc"; $"machine-id"] with_own with_system).
  { change with_system with (put with_own [$"etc"; $"machine-id"] (File (text $"ffee") [])). intros q N. apply put_look; [|exact I|exact N].
    split; [exists [$"etc"], $"machine-id"; split; [reflexivity|]; eexists; reflexivity|right; reflexivity]. }
  assert (K : fst r2 = Ok (ok_of (fst r1))) by (apply H; [exact O|vm_compute; reflexivity|vm_compute; reflexivity]).
  vm_compute in K. discriminate K.
Qed.
Lemma directory_refuted : ~ (forall readable dirsize digest uuid fs cwd r w', good_fs fs -> (forall p, readable p = true) -> (exists T, writes fs cwd own_file T) ->
  bind_sysid readable dirsize digest None uuid (start fs cwd (fun _ => None)) = (r, w') -> exists i, r = Ok i).
Proof.
  intro H. pose (r1 := run_of (bind_sysid (fun _ => true) 1 pad16 None $"2c3d") with_folder).
  assert (K : exists i, fst r1 = Ok i).
  { apply (H (fun _ => true) 1%nat pad16 $"2c3d" with_folder [] (fst r1) (snd r1) good_folder (fun _ => eq_refl)).
    - exists [$"var"; $"tmp"; $"machine-id"]. right. exists [$"var"; $"tmp"], $"machine-id". split; vm_compute; reflexivity.
    - vm_compute. reflexivity. }
  destruct K as (i & K). vm_compute in K. discriminate K.
Qed.
Definition two_files : node := Dir [] [($"a", Dir [] [($"f", File [] [])]); ($"b", Dir [] [($"f", File [] [])])].
Lemma relative_refuted : ~ (forall s fs cwd cwd' p p' q q', good_fs fs -> local_id s p = local_id s p' -> leads fs cwd p q -> leads fs cwd' p' q' -> q = q').
Proof.
  intro H. assert (G : good_fs two_files) by (unfold two_files; good_tac).
  specialize (H $"x" two_files [$"a"] [$"b"] (pp_parse $"f") (pp_parse $"f") [$"a"; $"f"] [$"b"; $"f"] G eq_refl).
  assert (K : [$"a"; $"f"] = [$"b"; $"f"]) by (apply H; eexists; vm_compute; reflexivity). discriminate K.
Qed.
Lemma remote_refuted : ~ (forall readable dirsize digest there tu uuid u2 u3 fs cwd i w1 r2 w2 r3 w3, good_fs fs -> (forall p, readable p = true) ->
  bind_sysid readable dirsize digest None uuid (start fs cwd (fun _ => None)) = (Ok i, w1) ->
  bind_sysid_remote there tu None u2 (start (w_fs w1) cwd (fun _ => None)) = (r2, w2) ->
  bind_sysid readable dirsize digest None u3 (start (w_fs w2) cwd (fun _ => None)) = (r3, w3) -> r3 = Ok i).
Proof.
  intro H. pose (r1 := run_of (bind_sysid (fun _ => true) 1 pad16 None $"0a1b") with_own).
  pose (r2 := run_of (bind_sysid_remote (fun _ => None) (fun _ => false) None $"2c3d") (w_fs (snd r1))).
  pose (r3 := run_of (bind_sysid (fun _ => true) 1 pad16 None $"4e5f") (w_fs (snd r2))).
  specialize (H (fun _ => true) 1%nat pad16 (fun _ => None) (fun _ => false) $"0a1b" $"2c3d" $"4e5f" with_own [] (ok_of (fst r1)) (snd r1) (fst r2) (snd r2) (fst r3) (snd r3) good_own (fun _ => eq_refl)).
  assert (K : fst r3 = Ok (ok_of (fst r1))) by (apply H; vm_compute; reflexivity).
  vm_compute in K. discriminate K.
Qed.
