(** * Proofs about attributes on posix, and the comparison with Windows *)
From Coq Require Import String Strings.Byte NArith ZArith Bool List Lia Permutation.
From Verif Require Import Model.Py Model.PurePath Model.Fs Model.PathOps Model.Sparse Model.Copy Model.Cache Model.Ads
  Spec.FsSpec Spec.LoopSpec Spec.CopySpec Spec.MetaSpec Spec.XattrSpec Spec.AdsSpec.
From Verif Require Import Proofs.PyLemmas Proofs.FsLemmas Proofs.RunLemmas Proofs.RmtreeProofs Proofs.MoveLemmas Proofs.SparseProofs Proofs.AttrLemmas Proofs.FetchLive Proofs.AdsProofs.
Import ListNotations.

Lemma px_key b : xkey (key_text b) = px_full b. Proof. reflexivity. Qed.
Lemma px_inj b b' : px_full b = px_full b' -> b = b'.
Proof.
  unfold px_full. intro H. apply app_inv_head in H. change (key_text b = key_text b') in H. assert (E : text_key (key_text b) = text_key (key_text b')) by now rewrite H.
  rewrite !text_key_text in E. now injection E.
Qed.
Lemma utf8_inj k k' b : utf8_enc k = Some b -> utf8_enc k' = Some b -> k = k'.
Proof. intros H H'. apply utf8_roundtrip in H. apply utf8_roundtrip in H'. congruence. Qed.
Lemma xset_nodup k v xs : NoDup (map fst xs) -> NoDup (map fst (xset k v xs)).
Proof.
  induction xs as [|[a b] xs IH]; intro ND; [repeat constructor; intros []|]. cbn [map fst] in ND. inversion_clear ND as [|? ? N1 N2]. cbn [xset].
  destruct (str_eqb a k) eqn:E; cbn [map fst]; constructor; auto.
  - apply str_eqb_eq in E. now subst.
  - intro I. apply in_map_iff in I. destruct I as ([a' b'] & Ea & I). cbn [fst] in Ea. subst a'. apply N1. apply In_xset in I; [|intros ->; now rewrite str_eqb_refl in E]. now apply (in_map fst) in I.
Qed.
Lemma xset_in k v xs k' v' : NoDup (map fst xs) -> (In (k', v') (xset k v xs) <-> (k' = k /\ v' = v) \/ (k' <> k /\ In (k', v') xs)).
Proof.
  intro ND. destruct (str_eqb k' k) eqn:E.
  - apply str_eqb_eq in E. subst k'. split.
    + intro I. left. split; [reflexivity|]. assert (X := xget_xset k v xs k). rewrite str_eqb_refl in X. apply xget_In in X.
      pose proof (xset_nodup k v xs ND) as ND'. clear - I X ND'. induction (xset k v xs) as [|[a b] l IH]; [destruct I|]. cbn [map fst] in ND'. inversion_clear ND' as [|? ? N1 N2].
      destruct I as [I|I], X as [X|X].
      * congruence.
      * injection I as -> _. destruct N1. now apply (in_map fst) in X.
      * injection X as -> _. destruct N1. now apply (in_map fst) in I.
      * now apply IH.
    + intros [(_ & ->)|(X & _)]; [|now destruct X]. apply xget_In. now rewrite xget_xset, str_eqb_refl.
  - apply str_eqb_neq in E. rewrite In_xset by congruence. tauto.
Qed.
Lemma xdel_nodup k xs : NoDup (map fst xs) -> NoDup (map fst (xdel k xs)).
Proof.
  unfold xdel. induction xs as [|[a b] xs IH]; intro ND; [constructor|]. cbn [map fst] in ND. inversion_clear ND as [|? ? N1 N2]. cbn [filter fst].
  destruct (str_eqb a k); cbn [negb]; [now apply IH|]. cbn [map fst]. constructor; [|now apply IH]. intro I. apply N1. apply in_map_iff in I. destruct I as (e & <- & I). apply filter_In in I. now apply in_map.
Qed.
Lemma xget_in k xs v : NoDup (map fst xs) -> In (k, v) xs -> xget k xs = Some v.
Proof.
  intros ND I. destruct (xget k xs) as [v'|] eqn:E; [|destruct (xget_none _ _ E v I)]. apply xget_In in E. f_equal.
  clear - ND I E. induction xs as [|[a b] l IH]; [destruct I|]. cbn [map fst] in ND. inversion_clear ND as [|? ? N1 N2]. destruct I as [I|I], E as [X|X].
  - congruence.
  - injection I as -> _. destruct N1. now apply (in_map fst) in X.
  - injection X as -> _. destruct N1. now apply (in_map fst) in I.
  - now apply IH.
Qed.
Lemma user_in xs b v : In (b, v) (user_attrs xs) <-> In (px_full b, v) xs.
Proof.
  unfold user_attrs. rewrite in_flat_map. split.
  - intros ([n w] & I & J). cbn [fst snd] in J. destruct (startswith n $"user.") eqn:W; [|destruct J]. apply startswith_spec in W. destruct W as (t & ->).
    change (skipn 5 ($"user." ++ t)) with t in J. destruct (text_key t) as [l|] eqn:T; [|destruct J]. destruct J as [J|[]]. injection J as -> ->. apply text_key_inv in T. subst t. exact I.
  - intro I. exists (px_full b, v). split; [assumption|]. cbn [fst snd]. unfold px_full. rewrite startswith_app. change (skipn 5 ($"user." ++ map Byte.to_N b)) with (key_text b).
    rewrite text_key_text. now left.
Qed.
Lemma user_nodup xs : NoDup (map fst xs) -> NoDup (map fst (user_attrs xs)).
Proof.
  induction xs as [|[n v] xs IH]; intro ND; [constructor|]. cbn [map fst] in ND. inversion_clear ND as [|? ? N1 N2]. unfold user_attrs. cbn [flat_map fst snd].
  fold (user_attrs xs). destruct (startswith n $"user.") eqn:W; [|now apply IH]. destruct (text_key (skipn 5 n)) as [b|] eqn:T; [|now apply IH]. cbn [app map fst]. constructor; [|now apply IH].
  intro I. apply in_map_iff in I. destruct I as ([b' w] & E & I). cbn [fst] in E. subst b'. apply user_in in I. apply N1. apply startswith_spec in W. destruct W as (t & ->).
  change (skipn 5 ($"user." ++ t)) with t in T. apply text_key_inv in T. subst t. now apply (in_map fst) in I.
Qed.

Section File.
Variables (D : place) (x : str) (F : node) (cwd : place).
Notation P := (D ++ [x]). Notation p := (path_of (D ++ [x])).
Notation has := (FetchLive.has D x F cwd).

Definition means (s : store) (xs : Fs.xattrs) : Prop :=
  NoDup (map fst xs) /\
  (forall k v, attr s k = Some v <-> exists b, utf8_enc k = Some b /\ In (px_full b, v) xs) /\
  (forall n v, In (n, v) xs -> startswith n $"user." = true -> exists k b, utf8_enc k = Some b /\ n = px_full b).
Definition holds (s : store) (w : world) : Prop := exists xs, has (content s) xs w /\ means s xs.

Lemma means_get s xs k b : means s xs -> utf8_enc k = Some b -> xget (px_full b) xs = attr s k.
Proof.
  intros (ND & Ha & _) E. destruct (attr s k) as [v|] eqn:A.
  - apply Ha in A. destruct A as (b' & E' & I). assert (b' = b) as -> by congruence. now apply xget_in.
  - destruct (xget (px_full b) xs) as [v|] eqn:G; [|reflexivity]. apply xget_In in G. assert (X : attr s k = Some v) by (apply Ha; now exists b). congruence.
Qed.
Lemma px_nonempty k b : k <> [] -> utf8_enc k = Some b -> key_text b <> [].
Proof. intros Nk E Z. apply map_eq_nil in Z. subst b. apply utf8_roundtrip in E. injection E as <-. now destruct Nk. Qed.
Lemma px_named k b {A} (m : str -> M A) (e : exn) w : k <> [] -> utf8_enc k = Some b ->
  bind (lift (px_name (KText k))) (fun n => match n with [] => raise e | _ => m n end) w = m (key_text b) w.
Proof.
  intros Nk E. unfold bind, lift. cbn [px_name]. rewrite E. pose proof (px_nonempty k b Nk E) as Nb. destruct (key_text b); [now destruct Nb|reflexivity].
Qed.

Lemma list_drain l : forall d xs w, has d xs w -> exists w', drain P (list_feed l) w = (Ok tt, w') /\ has (d ++ concat l) xs w'.
Proof.
  induction l as [|c l IH]; intros d xs w H; cbn [list_feed drain].
  - exists w. split; [reflexivity|]. cbn [concat]. now rewrite app_nil_r.
  - cbn [pull]. unfold ret. destruct (append_run D x F cwd d xs w c H) as (w1 & E1 & H1). rewrite E1. destruct (IH _ _ _ H1) as (w' & E & H'). exists w'. split; [exact E|]. cbn [concat]. now rewrite app_assoc.
Qed.
Lemma px_write l d xs w : l <> [] -> has d xs w -> exists w', write_chunks p (list_feed l) w = (Ok tt, w') /\ has (concat l) xs w'.
Proof.
  intros Nl H. destruct l as [|c l]; [now destruct Nl|]. unfold write_chunks, bind. cbn [list_feed pull ret].
  destruct (create_run D x F cwd d xs w H) as (w1 & E1 & H1). unfold bind in *. rewrite E1. destruct (append_run D x F cwd [] xs w1 c H1) as (w2 & E2 & H2). rewrite E2.
  destruct (list_drain l _ _ _ H2) as (w' & E & H'). exists w'. split; [exact E|exact H'].
Qed.

Lemma px_step_run s w o K : holds s w -> calls K o -> lenient o -> (forall k, K k -> k <> [] /\ encodable k) ->
  exists r w' s', px_step p o w = (r, w') /\ fits s o r s' /\ holds s' w'.
Proof.
  intros (xs & H & M) C Le HK. pose proof M as (ND & Ha & Hu). pose proof H as (N & G & L & Cw & O). apply look_file in L.
  assert (En : forall k, K k -> k <> [] /\ exists b, utf8_enc k = Some b). { intros k Hkk. destruct (HK k Hkk) as (Nk & E). split; [assumption|]. destruct (MetaXattrProofs.enc_ok k E) as (b & _ & _ & Eb). now exists b. }
  destruct o as [[k|b] v|[k|b]|[k|b] f| |l]; try contradiction; cbn [calls] in C.
  - destruct v as [v|].
    2: { eexists _, w, s. split; [reflexivity|]. split; [now split|]. now exists xs. }
    destruct (En k C) as (Nk & b & Eb). cbn [px_step]. rewrite (px_named k b _ _ w Nk Eb).
    destruct (setxattr_of w P (File (content s) xs) xs (key_text b) v N G L eq_refl) as (w1 & E1 & C1). cbn [with_xattrs] in C1. rewrite px_key in C1.
    eexists _, w1, (mkStore (content s) (fun k' => if str_eqb k' k then Some v else attr s k')). unfold bind. rewrite E1. split; [reflexivity|]. split.
    + cbn [fits attr content]. split; [reflexivity|]. split; [reflexivity|]. split; [now rewrite str_eqb_refl|]. intros k' Nk'. now apply str_eqb_neq in Nk' as ->.
    + exists (xset (px_full b) v xs). split; [exact (has_put D x F cwd _ _ _ _ _ _ H C1)|]. split; [now apply xset_nodup|]. cbn [attr]. split.
      * intros k' v'. destruct (str_eqb k' k) eqn:E.
        -- apply str_eqb_eq in E. subst k'. split.
           ++ intro X. injection X as <-. exists b. split; [assumption|]. apply xset_in; [assumption|]. now left.
           ++ intros (b' & Eb' & I). assert (b' = b) as -> by congruence. apply xset_in in I; [|assumption]. destruct I as [(_ & ->)|(X & _)]; [reflexivity|now destruct X].
        -- apply str_eqb_neq in E. rewrite Ha. split; intros (b' & Eb' & I); exists b'; (split; [assumption|]).
           ++ apply xset_in; [assumption|]. right. split; [|assumption]. intro X. apply px_inj in X. subst b'. now apply E, (utf8_inj k' k b).
           ++ apply xset_in in I; [|assumption]. destruct I as [(X & _)|(_ & I)]; [|assumption]. apply px_inj in X. subst b'. destruct E. now apply (utf8_inj k' k b).
      * intros n v' I W. apply xset_in in I; [|assumption]. destruct I as [(-> & _)|(_ & I)]; [now exists k, b|now apply (Hu n v')].
  - destruct (En k C) as (Nk & b & Eb). cbn [px_step]. rewrite (px_named k b _ _ w Nk Eb).
    destruct (getxattr_run p (key_text b) w N) as (w1 & E1 & S1). unfold bind. rewrite E1. unfold getx. rewrite px_key, (walk_of _ _ _ _ _ G L) by discriminate.
    cbn [node_xattrs]. rewrite (means_get s xs k b M Eb). exists (match attr s k with Some v => Ok (RBytes v) | None => Err NoStreamErr end), w1, s. split; [now destruct (attr s k)|]. split; [now split|].
    exists xs. split; [exact (has_same D x F cwd _ _ _ _ H S1)|exact M].
  - destruct (En k C) as (Nk & b & Eb). cbn [lenient] in Le. subst f. cbn [px_step]. rewrite (px_named k b _ _ w Nk Eb).
    unfold bind. destruct (xget (px_full b) xs) as [v0|] eqn:V.
    + unfold p_delxattr, catch, sys_removexattr.
      destruct (sys_ok (fun fs cwd => do r <- lookup true p fs cwd ;
      match node_xattrs (snd r) with
      | Some xs => match xget (xkey (key_text b)) xs with Some _ => Ok (tt, put fs (fst r) (with_xattrs (snd r) (xdel (xkey (key_text b)) xs))) | None => fail ENODATA end
      | None => fail EPERM end) w tt (put (w_fs w) P (File (content s) (xdel (px_full b) xs))) N) as (w1 & E1 & C1).
      { unfold lookup. rewrite (walk_of _ _ _ _ _ G L) by discriminate. cbn [rbind fst snd node_xattrs]. rewrite px_key. now rewrite V. }
      rewrite E1. eexists _, w1, (mkStore (content s) (fun k' => if str_eqb k' k then None else attr s k')). split; [reflexivity|]. split.
      * cbn [fits attr content]. split; [now destruct (attr s k)|]. split; [reflexivity|]. split; [now rewrite str_eqb_refl|]. intros k' Nk'. now apply str_eqb_neq in Nk' as ->.
      * exists (xdel (px_full b) xs). split; [exact (has_put D x F cwd _ _ _ _ _ _ H C1)|]. split; [now apply xdel_nodup|]. cbn [attr]. split.
        -- intros k' v'. destruct (str_eqb k' k) eqn:E.
           ++ apply str_eqb_eq in E. subst k'. split; [discriminate|]. intros (b' & Eb' & I). assert (b' = b) as -> by congruence. now apply In_xdel in I.
           ++ apply str_eqb_neq in E. rewrite Ha. split; intros (b' & Eb' & I); exists b'; (split; [assumption|]).
              ** apply In_xdel. split; [assumption|]. intro X. apply px_inj in X. subst b'. now apply E, (utf8_inj k' k b).
              ** now apply In_xdel in I.
        -- intros n v' I W. apply In_xdel in I. now apply (Hu n v').
    + destruct (sys_err (fun fs cwd => do r <- lookup true p fs cwd ;
      match node_xattrs (snd r) with
      | Some xs => match xget (xkey (key_text b)) xs with Some _ => Ok (tt, put fs (fst r) (with_xattrs (snd r) (xdel (xkey (key_text b)) xs))) | None => fail ENODATA end
      | None => fail EPERM end) w (OSErr ENODATA) N) as (w1 & E1 & S1).
      { unfold lookup. rewrite (walk_of _ _ _ _ _ G L) by discriminate. cbn [rbind fst snd node_xattrs]. rewrite px_key. now rewrite V. }
      unfold p_delxattr, catch, sys_removexattr. rewrite E1. eexists _, w1, s. split; [reflexivity|]. rewrite (means_get s xs k b M Eb) in V. split.
      * cbn [fits]. rewrite V. repeat split; auto.
      * exists xs. split; [exact (has_same D x F cwd _ _ _ _ H S1)|exact M].
  - cbn [px_step]. unfold bind, p_xattrs. edestruct (ask_run (fun fs cwd => do r <- lookup true p fs cwd ; match node_xattrs (snd r) with Some xs => Ok (user_attrs xs) | None => fail EPERM end) w N) as (w1 & E1 & S1).
    rewrite E1. unfold lookup. rewrite (walk_of _ _ _ _ _ G L) by discriminate. cbn [rbind fst snd node_xattrs]. eexists _, w1, s. split; [reflexivity|]. split.
    + split; [reflexivity|]. exists (user_attrs xs). split; [reflexivity|]. split; [now apply user_nodup|]. intros b v. rewrite user_in. split.
      * intro I. destruct (Hu (px_full b) v I) as (k & b' & Eb & X); [unfold px_full; apply startswith_app|]. apply px_inj in X. subst b'. exists k. split; [assumption|]. apply Ha. now exists b.
      * intros (k & Eb & A). apply Ha in A. destruct A as (b' & Eb' & I). assert (b' = b) as -> by congruence. exact I.
    + exists xs. split; [exact (has_same D x F cwd _ _ _ _ H S1)|exact M].
  - destruct l as [|c l].
    + eexists _, w, s. split; [reflexivity|]. split; [now split|]. now exists xs.
    + cbn [px_step]. unfold bind. destruct (px_write (c :: l) _ _ _ ltac:(discriminate) H) as (w1 & E1 & H1). rewrite E1.
      eexists _, w1, (mkStore (concat (c :: l)) (attr s)). split; [reflexivity|]. split; [now repeat split|]. now exists xs.
Qed.
Lemma px_run_ok (K : str -> Prop) : (forall k, K k -> k <> [] /\ encodable k) -> forall ops s w, holds s w -> Forall (calls K) ops -> Forall lenient ops ->
  exists rs w' s', px_run p ops w = (rs, w') /\ history s ops rs s' /\ holds s' w'.
Proof.
  intro HK. induction ops as [|o ops IH]; intros s w H C Le.
  - exists [], w, s. split; [reflexivity|]. split; [constructor|exact H].
  - inversion_clear C as [|? ? C1 C2]. inversion_clear Le as [|? ? L1 L2]. destruct (px_step_run s w o K H C1 L1 HK) as (r & w1 & s1 & E1 & Fi & H1).
    destruct (IH s1 w1 H1 C2 L2) as (rs & w2 & s2 & E2 & Hi & H2). exists (r :: rs), w2, s2. cbn [px_run]. rewrite E1, E2. split; [reflexivity|]. split; [econstructor; eassumption|exact H2].
Qed.
End File.

Lemma posix_dictionary (K : str -> Prop) fs cwd fault Q s ops rs w' : (forall k, K k -> k <> [] /\ encodable k) -> good_fs fs -> (forall t, fault t = None) ->
  on_posix s fs Q -> Forall (calls K) ops -> Forall lenient ops -> px_run (path_of Q) ops (start fs cwd fault) = (rs, w') ->
  exists s', history s ops rs s' /\ on_posix s' (w_fs w') Q /\ forall q, q <> Q -> look (w_fs w') q = look fs q.
Proof.
  intros HK G N (xs & L & M) C Le R. assert (Z : Q = [] \/ exists D x, Q = D ++ [x]). { destruct Q as [|y Q]; [now left|right]. destruct (exists_last (l := y :: Q)) as (D & x & E); [discriminate|]. now exists D, x. }
  destruct Z as [->|(D & x & ->)].
  { exfalso. destruct G as (_ & a & es & ->). cbn in L. discriminate. }
  assert (H : holds D x fs cwd s (start fs cwd fault)). { exists xs. split; [|exact M]. split; [exact N|]. split; [exact G|]. split; [exact L|]. now split. }
  destruct (px_run_ok D x fs cwd K HK ops s _ H C Le) as (rs' & w1 & s' & E & Hi & (xs' & (_ & _ & L' & _ & O') & M')). rewrite R in E. injection E as -> ->.
  exists s'. split; [exact Hi|]. split; [|exact O']. exists xs'. now split.
Qed.

Lemma fits_same s s0 o r r0 s1 s2 : content s0 = content s -> (forall k, attr s0 k = attr s k) -> fits s o r s1 -> fits s0 o r0 s2 ->
  same_answer r r0 /\ content s2 = content s1 /\ forall k, attr s2 k = attr s1 k.
Proof.
  intros Ec Ea. destruct o as [[k|b] [v|]|[k|b]|[k|b] f| |[|c l]]; cbn [fits]; intros H H0;
    try (destruct H as (-> & ->), H0 as (-> & ->); split; [now left|now split]).
  - destruct H as (-> & C1 & A1 & O1), H0 as (-> & C2 & A2 & O2). split; [now left|]. split; [congruence|]. intro k'. destruct (str_eqb k' k) eqn:E.
    + apply str_eqb_eq in E. subst. congruence.
    + apply str_eqb_neq in E. rewrite (O1 k' E), (O2 k' E). apply Ea.
  - destruct H as (-> & ->), H0 as (-> & ->). rewrite Ea. split; [now left|now split].
  - destruct H as (-> & C1 & A1 & O1), H0 as (-> & C2 & A2 & O2). rewrite Ea. split; [now left|]. split; [congruence|]. intro k'. destruct (str_eqb k' k) eqn:E.
    + apply str_eqb_eq in E. subst. congruence.
    + apply str_eqb_neq in E. rewrite (O1 k' E), (O2 k' E). apply Ea.
  - destruct H as (-> & l & -> & N1 & I1), H0 as (-> & m & -> & N2 & I2). split; [|now split]. right. exists l, m. repeat (split; [first [reflexivity|assumption]|]).
    intros [b v]. rewrite I1, I2. split; intros (k & E & A); exists k; (split; [assumption|]); congruence.
  - destruct H as (-> & C1 & A1), H0 as (-> & C2 & A2). split; [now left|]. split; [congruence|]. intro k. rewrite A1, A2. apply Ea.
Qed.
Lemma history_same : forall ops s s0 rs rs0 s1 s2, content s0 = content s -> (forall k, attr s0 k = attr s k) -> history s ops rs s1 -> history s0 ops rs0 s2 ->
  Forall2 same_answer rs rs0 /\ content s2 = content s1 /\ forall k, attr s2 k = attr s1 k.
Proof.
  induction ops as [|o ops IH]; intros s s0 rs rs0 s1 s2 Ec Ea H H0; inversion H; subst; inversion H0; subst.
  - split; [constructor|now split].
  - match goal with A : fits s o _ _, B : fits s0 o _ _ |- _ => destruct (fits_same _ _ _ _ _ _ _ Ec Ea A B) as (Sa & C1 & A1) end.
    match goal with A : history ?t ops _ s1, B : history ?t0 ops _ s2 |- _ => destruct (IH _ _ _ _ _ _ C1 A1 A B) as (S2 & C2 & A2) end.
    split; [now constructor|now split].
Qed.

Lemma windows_dictionary up legal order cwd p q K s d ops rs d' : (forall l, Permutation (order l) l) -> named cwd p q -> usable up legal K ->
  on_disk up legal K s d q -> Forall (calls K) ops -> a_run up legal order cwd p ops d = (rs, d') ->
  exists s', history s ops rs s' /\ on_disk up legal K s' d' q /\ forall q', map (map up) q' <> map (map up) q -> find_file up d' q' = find_file up d q'.
Proof.
  intros Ho Hn Hk H C R. destruct (win_run up legal order Ho cwd p q Hn K Hk ops s d H C) as (rs' & d1 & s' & E & F & Hi & H'). rewrite R in E. injection E as -> ->.
  exists s'. now repeat split.
Qed.
Lemma platforms up legal order cwd p q K s d ops rs d' fs pcwd fault Q rs' w' : (forall l, Permutation (order l) l) -> named cwd p q -> usable up legal K ->
  on_disk up legal K s d q -> good_fs fs -> (forall t, fault t = None) -> on_posix s fs Q -> Forall (calls K) ops -> Forall lenient ops ->
  a_run up legal order cwd p ops d = (rs, d') -> px_run (path_of Q) ops (start fs pcwd fault) = (rs', w') -> Forall2 same_answer rs rs'.
Proof.
  intros Ho Hn Hk H G N Hp C Le R R'. destruct (windows_dictionary _ _ _ _ _ _ _ _ _ _ _ _ Ho Hn Hk H C R) as (s1 & H1 & _).
  assert (HK : forall k, K k -> k <> [] /\ encodable k). { intros k Hkk. destruct (proj1 Hk k Hkk) as ((A & _) & B & _). now split. }
  destruct (posix_dictionary K _ _ _ _ _ _ _ _ HK G N Hp C Le R') as (s2 & H2 & _). now destruct (history_same ops s s rs rs' s1 s2 eq_refl (fun _ => eq_refl) H1 H2).
Qed.

(** ** Where they differ *)
Lemma set_missing up legal order cwd p q K k v d : named cwd p q -> usable up legal K -> K k -> find_file up d q = None -> is_folder up d (removelast q) = true ->
  exists d', a_step up legal order cwd p (OSet (KText k) (VBytes v)) d = (Ok RNone, d') /\ find_file up d' q = Some (mkW (Some []) [(full_name k, v)]).
Proof.
  intros Hn Hk H Hf Hd. destruct (stream_path cwd p q Hn (full_name k) (name_clean up legal K Hk k H)) as (p' & Es & Ef & _).
  cbn [a_step a_set rbind key_convention]. change ($"user" ++ $"." ++ k) with (full_name k). rewrite Es.
  pose proof (proj1 Hk k H) as (_ & _ & Lg). unfold win_write. rewrite (aim_stream up legal cwd p q Hn p' _ (name_clean up legal K Hk k H) Lg Ef), Hf, Hd. unfold said. cbn [fst snd rbind].
  eexists. split; [reflexivity|]. now rewrite find_put, place_refl.
Qed.
Lemma all_missing up legal order cwd p q d : named cwd p q -> find_file up d q = None -> a_step up legal order cwd p OAll d = (Ok (RAll []), d).
Proof.
  intros Hn Hf. cbn [a_step]. unfold a_all, a_all_raw, a_streams, win_streams. set (p0 := if wp_abs p then p else mkWP true (full cwd p)).
  assert (E : full cwd p0 = q). { unfold p0. destruct (wp_abs p); [now apply full_id|]. exact (full_id cwd _ q (resolved cwd p q Hn)). } now rewrite E, Hf.
Qed.
Lemma posix_missing fs cwd fault p k v : (forall t, fault t = None) -> k <> [] -> encodable k -> (exists d x, walk fs cwd true p = Missing d x) ->
  fst (px_step p (OSet (KText k) (VBytes v)) (start fs cwd fault)) = Err (OSErr ENOENT) /\ fst (px_step p OAll (start fs cwd fault)) = Err (OSErr ENOENT).
Proof.
  intros N Nk E (d & x & W). destruct (MetaXattrProofs.enc_ok k E) as (b & _ & _ & Eb). split.
  - cbn [px_step]. rewrite (px_named k b _ _ _ Nk Eb). unfold bind, p_setxattr, sys_setxattr.
    destruct (sys_err (fun fs cwd => do r <- lookup true p fs cwd ; match node_xattrs (snd r) with Some xs => Ok (tt, put fs (fst r) (with_xattrs (snd r) (xset (xkey (key_text b)) v xs))) | None => fail EPERM end)
      (start fs cwd fault) (OSErr ENOENT) N) as (w1 & E1 & _); [unfold lookup; cbn [w_fs w_cwd start]; now rewrite W|]. now rewrite E1.
  - cbn [px_step]. unfold bind, p_xattrs. edestruct (ask_run (fun fs cwd => do r <- lookup true p fs cwd ; match node_xattrs (snd r) with Some xs => Ok (user_attrs xs) | None => fail EPERM end) (start fs cwd fault) N) as (w1 & E1 & _).
    rewrite E1. unfold lookup. cbn [w_fs w_cwd start]. now rewrite W.
Qed.
Lemma bytes_key up legal order cwd p b f d : fst (a_step up legal order cwd p (OGet (KBytes b)) d) = Err TypeError /\ fst (a_step up legal order cwd p (ODel (KBytes b) f) d) = Err TypeError.
Proof. now split. Qed.
Lemma one_letter up legal order cwd c k v d : fst (a_step up legal order cwd (mkWP false [[c]]) (OSet (KText k) (VBytes v)) d) = Err ValueError /\
  fst (a_step up legal order cwd (mkWP false [[c]]) (OGet (KText k)) d) = Err ValueError.
Proof. now split. Qed.
Lemma streamname_fails l x abs : In (chr ":") x -> a_streamname (mkWP abs (l ++ [x])) = Err TypeError.
Proof.
  intro I. unfold a_streamname. cbn [wp_parts]. rewrite rev_app_distr. cbn [rev app]. assert (H : Py.has (chr ":") x = true). { unfold Py.has. apply existsb_exists. exists (chr ":"). split; [assumption|reflexivity]. } now rewrite H.
Qed.
