(** Proofs about the symbolic link format. *)
From Coq Require Import String NArith ZArith Bool List Lia.
From Verif Require Import Model.Py Model.PurePath Model.Meta Model.MetaEncode Model.MetaSymlink.
From Verif Require Import Spec.MetaSpec Proofs.PyLemmas Proofs.PathLemmas.
Import ListNotations.

(** ** Characters *)
Ltac nums :=
  unfold c_slash, c_pathsep, c_fieldsep, c_fieldsep_esc, c_subfieldsep, lacks in *;
  change (chr "/") with 47%N in *; change (chr ".") with 46%N in *;
  change (chr "|") with 124%N in *; change (chr "!") with 33%N in *;
  change (chr "#") with 35%N in *; change (chr ";") with 59%N in *;
  change (chr "-") with 45%N in *.

Lemma pad_digits n v c : In c (pad n v) -> is_digit c = true.
Proof.
  unfold pad. rewrite <- in_rev. revert v. induction n as [|n IH]; intros v H; [destruct H|].
  destruct H as [<-|H]; [|now apply IH in H].
  apply is_digit_digit. apply N.mod_lt. discriminate.
Qed.

Definition iso_char (c : N) : bool :=
  (is_digit c || N.eqb c 45 || N.eqb c 84 || N.eqb c 58 || N.eqb c 44 || N.eqb c 43
   || N.eqb c 90)%bool.

Lemma iso_char_digit c : is_digit c = true -> iso_char c = true.
Proof. intro H. unfold iso_char. now rewrite H. Qed.

Lemma dt_isoformat_chars d c : In c (dt_isoformat d) -> iso_char c = true \/ c = 46%N.
Proof.
  unfold dt_isoformat. intro H.
  assert (P : forall n v, In c (pad n v) -> iso_char c = true \/ c = 46%N).
  { intros n v K. left. eapply iso_char_digit, pad_digits, K. }
  assert (L : forall s, forallb (fun c => (iso_char c || N.eqb c 46)%bool) s = true -> In c s ->
              iso_char c = true \/ c = 46%N).
  { intros s K I. rewrite forallb_forall in K. apply K, orb_true_iff in I.
    destruct I as [I|I]; [now left|]. right. now apply N.eqb_eq. }
  repeat (apply in_app_or in H as [H|H]; [try (eapply P; eassumption);
          try (eapply L; [|eassumption]; reflexivity)|]).
  - destruct (dt_us d =? 0)%N; [destruct H|]. apply in_app_or in H as [H|H];
    [eapply L; [|eassumption]; reflexivity|eapply P; eassumption].
  - destruct (dt_tz d) as [z|]; [|destruct H].
    repeat (apply in_app_or in H as [H|H]; [try (eapply P; eassumption);
          try (eapply L; [|eassumption]; try destruct (z <? 0)%Z; reflexivity)|]).
    destruct (_ =? 0)%N; [destruct H|]. apply in_app_or in H as [H|H];
    [eapply L; [|eassumption]; reflexivity|eapply P; eassumption].
Qed.

Lemma skipn_In {A} n (l : list A) x : In x (skipn n l) -> In x l.
Proof.
  revert l. induction n as [|n IH]; intros l H; [assumption|].
  destruct l; [destruct H|]. right. now apply IH.
Qed.

Lemma replace_In old new s c : In c (replace old new s) -> In c new \/ In c s.
Proof.
  unfold replace. generalize (length s). intro n. revert s.
  induction n as [|n IH]; intros s H; [now right|].
  destruct s as [|x s]; [destruct H|]. cbn [replace_fuel] in H.
  destruct (startswith (x :: s) old).
  - apply in_app_or in H as [H|H]; [now left|]. apply IH in H as [H|H]; [now left|].
    right. eapply skipn_In, H.
  - destruct H as [<-|H]; [right; now left|]. apply IH in H as [H|H]; [now left|].
    right. now right.
Qed.

Lemma isoformat_chars d c : In c (isoformat d) -> iso_char c = true.
Proof.
  unfold isoformat. intro H. apply replace_In in H as [H|H].
  - destruct H as [<-|[]]. reflexivity.
  - apply replace1_In in H as [->|[H N]]; [reflexivity|].
    apply dt_isoformat_chars in H as [H|H]; [assumption|]. now subst.
Qed.

Lemma not_iso_char c d : iso_char c = false -> ~ In c (isoformat d).
Proof. intros H K. apply isoformat_chars in K. congruence. Qed.

(** ** Encoded values are clean *)
Definition clean (s : str) : Prop := ~ In 46%N s /\ ~ In 47%N s.

Lemma clean_dec z : clean (dec_Z z).
Proof. split; apply not_digit_not_in_dec; try reflexivity; discriminate. Qed.

Lemma clean_hex b : clean (hex b).
Proof. split; apply not_hex_not_in_hex; reflexivity. Qed.

Lemma clean_iso d : clean (isoformat d).
Proof. split; apply not_iso_char; reflexivity. Qed.

Lemma clean_app a b : clean a -> clean b -> clean (a ++ b).
Proof. intros [] []. split; intro K; apply in_app_or in K as [K|K]; contradiction. Qed.

Lemma clean_etag b n : clean (hex b ++ $"-" ++ dec_Z n).
Proof.
  apply clean_app; [apply clean_hex|]. apply clean_app; [|apply clean_dec].
  split; intros [H|[]]; discriminate.
Qed.

(** The string branch of [encode]. *)
Definition enc_str (is_name : bool) (s : str) : res str :=
  do s <- (if has 47 s then
             if has 124 s then Err ValueError
             else if is_name then Err ValueError else Ok (replace1 47 124 s)
           else Ok s) ;
  if has 46 s then
    if has 33 s then Err ValueError else Ok (replace1 46 33 s)
  else Ok s.

Lemma enc_str_clean n s t : enc_str n s = Ok t -> clean t.
Proof.
  unfold enc_str. intro H.
  assert (G : forall u, ~ In 47%N u ->
    (if has 46 u then if has 33 u then Err ValueError else Ok (replace1 46 33 u) else Ok u) = Ok t ->
    clean t).
  { intros u Hu K. destruct (has 46 u) eqn:E1.
    - destruct (has 33 u) eqn:E2; [discriminate|]. inversion K; subst. split.
      + apply replace1_no. discriminate.
      + intro I. apply replace1_In in I as [I|[I _]]; [discriminate|contradiction].
    - inversion K; subst. split; [now apply has_false|assumption]. }
  destruct (has 47 s) eqn:E.
  - destruct (has 124 s); [discriminate|]. destruct n; [discriminate|]. simpl in H.
    eapply G; [|exact H]. apply replace1_no. discriminate.
  - simpl in H. eapply G; [|exact H]. now apply has_false.
Qed.

Lemma encode_str_case ef s : ef <> EF Ferrors -> ef <> EF Fchecksum -> ef <> EF Ffile_id ->
  encode ef (PStr s) = enc_str (match ef with EF Fname => true | _ => false end) s.
Proof.
  intros H1 H2 H3. unfold encode, enc_str. nums.
  destruct ef as [[]|]; try congruence; cbn [is_none];
    (destruct (has 47 s); [destruct (has 124 s)|]); reflexivity.
Qed.

Lemma encode_clean ef v s : ef <> EF Ferrors -> encode ef v = Ok s -> clean s.
Proof.
  intros He H. unfold encode in H.
  assert (G : forall w f, match w with PNone => False | PStr _ => False | _ => True end ->
     f <> Fchecksum -> f <> Ferrors ->
     (do w' <- str_encode f w; match w' with PStr s => Ok s | _ => Err TypeError end) = Ok s ->
     clean s).
  { intros w f Hw Hf Hg K. destruct f; try congruence; destruct w; simpl in K; try discriminate;
      try contradiction; try (destruct b; discriminate); try (destruct l; discriminate);
      inversion K; subst; first [apply clean_dec | apply clean_iso | apply clean_etag]. }
  assert (GS : forall t n, enc_str n t = Ok s -> clean s) by (intros; eapply enc_str_clean; eassumption).
  assert (HE : clean empty) by (split; intros [K|[]]; discriminate).
  destruct ef as [f|].
  2:{ destruct v; cbn [is_none] in H; try discriminate; [inversion H; subst; assumption|].
      apply (GS s0 false). unfold enc_str. nums. 
      destruct (has 47 s0); [destruct (has 124 s0)|]; exact H. }
  set (v' := match f with Ffile_id => if truthy v then v else PNone | _ => v end).
  assert (Ev : forall X, match EF f with EF Ffile_id => if truthy v then v else PNone | _ => v end = X -> v' = X)
    by (intros X; subst v'; destruct f; auto).
  destruct f; try congruence;
  (match type of H with context [is_none ?x] => destruct x eqn:Ex end; cbn [is_none] in H;
     try discriminate;
     try (inversion H; subst; assumption);
     try (inversion H; subst; apply clean_hex);
     try (eapply (G (PInt _)); [exact I| | |exact H]; discriminate);
     try (eapply (G (PSize _)); [exact I| | |exact H]; discriminate);
     try (eapply (G (PBytes _)); [exact I| | |exact H]; discriminate);
     try (eapply (G (PDt _)); [exact I| | |exact H]; discriminate);
     try (eapply (G (PStrs _)); [exact I| | |exact H]; discriminate);
     try (eapply (G (PEtag _ _)); [exact I| | |exact H]; discriminate);
     match type of H with context [has c_slash ?t] =>
       first [ apply (GS t true); unfold enc_str; nums; destruct (has 47 t); [destruct (has 124 t)|]; exact H
             | apply (GS t false); unfold enc_str; nums; destruct (has 47 t); [destruct (has 124 t)|]; exact H ]
     end).
Qed.

(** ** One field there and back *)
Definition mval (f : field) (v : pyval) : pyval :=
  match f, v with Fsize, PInt z => PSize z | _, _ => v end.
Definition stored (f : field) (v : pyval) : pyval :=
  match f, v with (Fcreated | Fupdated), PDt d => PStr (isoformat d) | _, _ => v end.

(** What a single field needs, without the conditions that concern the layout. *)
Definition weak_safe (f : field) (v : pyval) : Prop :=
  match f, v with
  | (Fid | Fparent_id | Fold_id | Fmode), PStr s => s <> $"#" /\ lacks "|" s /\ lacks "!" s
  | Ferrors, PStrs l => l <> [$"#"] /\ forall e, In e l -> e <> [] /\ lacks ";" e
  | _, _ => link_safe_field f v
  end.

Lemma safe_weak f v : link_safe_field f v -> weak_safe f v.
Proof.
  destruct f; simpl; try tauto; destruct v; try tauto.
  intros [H1 H2]. split; [assumption|]. intros e He. apply H2 in He. tauto.
Qed.

Lemma not_empty_dec z : str_eqb (dec_Z z) empty = false.
Proof.
  apply str_eqb_neq. intro E. assert (In 35%N (dec_Z z)) by (rewrite E; now left).
  revert H. apply not_digit_not_in_dec; [reflexivity|discriminate].
Qed.

Lemma not_empty_hex b : str_eqb (hex b) empty = false.
Proof.
  apply str_eqb_neq. intro E. assert (In 35%N (hex b)) by (rewrite E; now left).
  revert H. apply not_hex_not_in_hex; reflexivity.
Qed.

Lemma not_empty_iso d : str_eqb (isoformat d) empty = false.
Proof.
  apply str_eqb_neq. intro E. assert (In 35%N (isoformat d)) by (rewrite E; now left).
  revert H. now apply not_iso_char.
Qed.

Lemma not_empty_etag b n : str_eqb (hex b ++ $"-" ++ dec_Z n) empty = false.
Proof.
  apply str_eqb_neq. intro E.
  assert (In 45%N empty) by (rewrite <- E; apply in_or_app; right; now left).
  destruct H as [H|[]]. discriminate.
Qed.

Lemma rsplit_etag_pos b n : (0 <= n)%Z ->
  rsplit1 45 (hex b ++ $"-" ++ dec_Z n) = Some (hex b, dec_Z n).
Proof.
  intro H. change ($"-" ++ dec_Z n) with (45%N :: dec_Z n). apply rsplit1_app.
  intro I. destruct n; try lia; simpl in I;
    [destruct I as [I|[]]; discriminate|apply dec_N_digits in I; discriminate].
Qed.

Lemma rsplit_etag_neg b p :
  rsplit1 45 (hex b ++ $"-" ++ dec_Z (Zneg p)) = Some (hex b ++ [45%N], dec_N (Npos p)).
Proof.
  change (hex b ++ $"-" ++ dec_Z (Z.neg p)) with (hex b ++ 45%N :: 45%N :: dec_N (Npos p)).
  replace (hex b ++ 45%N :: 45%N :: dec_N (Npos p))
    with ((hex b ++ [45%N]) ++ 45%N :: dec_N (Npos p)) by now rewrite <- app_assoc.
  apply rsplit1_app. intro I. apply dec_N_digits in I. discriminate.
Qed.

Lemma fromhex_hex_app b r : fromhex (hex b ++ r) = option_map (app b) (fromhex r).
Proof.
  induction b as [|x b IH]; [simpl; now destruct (fromhex r)|].
  rewrite hex_cons. cbn [app]. rewrite fromhex_byte, IH. destruct (fromhex r); reflexivity.
Qed.

(** decoding of the id-like strings *)
Definition dec_str (t : str) : str := replace1 33 46 (replace1 124 47 t).

Lemma enc_str_ok s : ~ In 124%N s -> ~ In 33%N s -> enc_str false s = Ok (replace1 46 33 (replace1 47 124 s)).
Proof.
  intros H1 H2. unfold enc_str.
  apply has_false in H1, H2. rewrite H1.
  destruct (has 47 s) eqn:E1; simpl.
  - assert (E3 : has 33 (replace1 47 124 s) = false).
    { apply has_false. intro I. apply replace1_In in I as [I|[I _]]; [discriminate|].
      apply has_In in I. congruence. }
    rewrite E3. destruct (has 46 (replace1 47 124 s)) eqn:E2; [reflexivity|].
    f_equal. symmetry. apply replace1_id. now apply has_false.
  - rewrite (replace1_id 47 124 s) by now apply has_false. rewrite H2.
    destruct (has 46 s) eqn:E2; [reflexivity|].
    f_equal. symmetry. apply replace1_id. now apply has_false.
Qed.

Lemma dec_enc s : ~ In 124%N s -> ~ In 33%N s -> dec_str (replace1 46 33 (replace1 47 124 s)) = s.
Proof.
  intros H1 H2. unfold dec_str, replace1. rewrite !map_map.
  rewrite <- (map_id s) at 2. apply map_ext_in. intros c Hc.
  destruct (N.eqb_spec c 47); [subst; reflexivity|].
  destruct (N.eqb_spec c 46); [subst; reflexivity|].
  destruct (N.eqb_spec c 124); [subst; contradiction|].
  destruct (N.eqb_spec c 33); [subst; contradiction|]. reflexivity.
Qed.

(** An accepted string, and one that decodes to itself. *)
Lemma enc_str_inv n s t : enc_str n s = Ok t ->
  t = replace1 46 33 (replace1 47 124 s) /\
  (In 47%N s -> ~ In 124%N s /\ n = false) /\ (In 46%N s -> ~ In 33%N s).
Proof.
  unfold enc_str. intro H.
  destruct (has 47 s) eqn:E1.
  - destruct (has 124 s) eqn:E2; [discriminate|]. destruct n; [discriminate|]. simpl in H.
    assert (K : forall c, c <> 47%N -> c <> 124%N -> (In c (replace1 47 124 s) <-> In c s)).
    { intros c N1 N2. split; intro I; [apply replace1_In in I as [I|[I _]]; [contradiction|assumption]|].
      now apply replace1_keep. }
    destruct (has 46 (replace1 47 124 s)) eqn:E3.
    + destruct (has 33 (replace1 47 124 s)) eqn:E4; [discriminate|]. inversion H; subst.
      split; [reflexivity|]. split; [intro; split; [now apply has_false|reflexivity]|].
      intros _ I. apply has_false in E4. apply E4, K; easy.
    + inversion H; subst. split; [symmetry; apply replace1_id; now apply has_false|].
      split; [intro; split; [now apply has_false|reflexivity]|].
      intros I. exfalso. apply has_false in E3. apply E3, K; easy.
  - simpl in H. assert (R : replace1 47 124 s = s) by (apply replace1_id; now apply has_false).
    rewrite R. destruct (has 46 s) eqn:E3.
    + destruct (has 33 s) eqn:E4; [discriminate|]. inversion H; subst.
      split; [reflexivity|]. apply has_false in E1, E4. tauto.
    + inversion H; subst. split; [symmetry; apply replace1_id; now apply has_false|].
      apply has_false in E1, E3. tauto.
Qed.

Lemma dec_str_no s c : c = 124%N \/ c = 33%N -> ~ In c (dec_str s).
Proof.
  intros Hc I. unfold dec_str in I. apply replace1_In in I as [I|[I N]].
  - destruct Hc; subst; discriminate.
  - destruct Hc as [->| ->]; [|congruence]. apply replace1_In in I as [I|[I N']]; [discriminate|congruence].
Qed.

Lemma decode_idlike f t : f = Fid \/ f = Fparent_id \/ f = Fold_id \/ f = Fmode ->
  decode f t 6 = Ok (if str_eqb t empty then PNone else PStr (dec_str t)).
Proof.
  intro H. unfold decode. destruct (str_eqb t empty); [destruct H as [->|[->|[->| ->]]]; reflexivity|].
  unfold dec_str.
  destruct H as [->|[->|[->| ->]]]; nums;
    (destruct (has 124 t) eqn:E1; [reflexivity|rewrite (replace1_id 124 47 t) by (now apply has_false); reflexivity]).
Qed.

Lemma enc_hash s : ~ In 46%N s -> replace1 46 33 (replace1 47 124 s) = $"#" <-> s = $"#".
Proof.
  intros _. split; intro H; [|now subst].
  destruct s as [|c [|d s]]; try discriminate. unfold replace1 in H. simpl in H.
  destruct (N.eqb_spec c 47); [subst; discriminate|].
  destruct (N.eqb_spec c 46); [subst; discriminate|]. assumption.
Qed.

Lemma enc_hash' s : str_eqb (replace1 46 33 (replace1 47 124 s)) empty = str_eqb s $"#".
Proof.
  destruct (str_eqb s $"#") eqn:E.
  - apply str_eqb_eq in E. subst. reflexivity.
  - apply str_eqb_neq in E. apply str_eqb_neq. intro H. apply E.
    destruct s as [|c [|d s]]; try discriminate. unfold replace1 in H. simpl in H.
    destruct (N.eqb_spec c 47); [subst; discriminate|].
    destruct (N.eqb_spec c 46); [subst; discriminate|]. assumption.
Qed.

Lemma weak_fwd f v : typed_field f v -> weak_safe f v ->
  exists s, encode (EF f) (mval f v) = Ok s /\ decode f s 6 = Ok (stored f v).
Proof.
  assert (N : forall f, decode f empty 6 = Ok PNone) by (intros []; reflexivity).
  assert (IDL : forall f s, f = Fid \/ f = Fparent_id \/ f = Fold_id \/ f = Fmode ->
     s <> $"#" -> lacks "|" s -> lacks "!" s ->
     exists t, encode (EF f) (PStr s) = Ok t /\ decode f t 6 = Ok (PStr s)).
  { clear. intros f s Hf H1 H2 H3. nums. exists (replace1 46 33 (replace1 47 124 s)). split.
    - rewrite encode_str_case by (destruct Hf as [->|[->|[->| ->]]]; discriminate).
      replace (match EF f with EF Fname => true | _ => false end) with false
        by (destruct Hf as [->|[->|[->| ->]]]; reflexivity).
      now apply enc_str_ok.
    - rewrite decode_idlike by assumption. rewrite enc_hash'.
      apply str_eqb_neq in H1. rewrite H1. now rewrite dec_enc. }
  assert (PL : forall s, lacks "." s -> lacks "/" s -> enc_str false s = Ok s).
  { clear. intros s H1 H2. nums. apply has_false in H1, H2. unfold enc_str. rewrite H2. simpl. now rewrite H1. }
  assert (DEC : forall z, str_eqb (dec_Z z) empty = false) by apply not_empty_dec.
  intros T S. destruct f; simpl in T.
  all: try (destruct T as [->|T]; [exists empty; split; [reflexivity|apply N]|]).
  - destruct T as [s ->]. simpl in S. destruct S as (S1 & S2 & S3 & S4). nums.
    exists (replace1 46 33 s). split.
    + unfold mval. rewrite encode_str_case by discriminate. apply has_false in S2, S3, S4.
      unfold enc_str. rewrite S4. simpl. rewrite S3. destruct (has 46 s) eqn:E; [reflexivity|].
      f_equal. symmetry. apply replace1_id. now apply has_false.
    + assert (R : replace1 47 124 s = s) by now apply replace1_id.
      pose proof (enc_hash' s) as EH. rewrite R in EH. unfold decode. rewrite EH.
      apply str_eqb_neq in S1. rewrite S1. nums.
      assert (E : has 124 (replace1 46 33 s) = false).
      { apply has_false. intro I. apply replace1_In in I as [I|[I _]]; [discriminate|contradiction]. }
      rewrite E. simpl. now rewrite replace1_inv.
  - destruct T as [z [-> _]]. exists (dec_Z z). split; [reflexivity|].
    unfold decode. rewrite DEC. now rewrite py_int_dec.
  - destruct T as [d ->]. exists (isoformat d). split; [reflexivity|].
    unfold decode. now rewrite not_empty_iso.
  - destruct T as [d ->]. exists (isoformat d). split; [reflexivity|].
    unfold decode. now rewrite not_empty_iso.
  - destruct T as [b ->]. exists (hex b). split; [reflexivity|].
    unfold decode. rewrite not_empty_hex. now rewrite fromhex_hex.
  - destruct T as [s ->]. simpl in S. destruct S as (S1 & S2 & S3).
    exists s. split.
    + unfold mval. rewrite encode_str_case by discriminate. now apply PL.
    + unfold decode. apply str_eqb_neq in S1. unfold empty. now rewrite S1.
  - destruct T as [b [n ->]]. simpl in S. exists (hex b ++ $"-" ++ dec_Z n). split; [reflexivity|].
    unfold decode. rewrite not_empty_etag. change (chr "-") with 45%N.
    rewrite rsplit_etag_pos by assumption. now rewrite py_int_dec, fromhex_hex.
  - destruct T as [z ->]. exists (dec_Z z). split; [reflexivity|].
    unfold decode. rewrite DEC. now rewrite py_int_dec.
  - destruct T as [z ->]. exists (dec_Z z). split; [reflexivity|].
    unfold decode. rewrite DEC. now rewrite py_int_dec.
  - destruct T as [s ->]. simpl in S. apply IDL; tauto.
  - destruct T as [s ->]. simpl in S. apply IDL; tauto.
  - destruct T as [z ->]. simpl in S. exists (dec_Z z). split.
    + unfold encode, mval, truthy. destruct (Z.eqb_spec z 0); [contradiction|reflexivity].
    + unfold decode. rewrite DEC. now rewrite py_int_dec.
  - destruct T as [s ->]. simpl in S. apply IDL; tauto.
  - destruct T as [z ->]. exists (dec_Z z). split; [reflexivity|].
    unfold decode. rewrite DEC. now rewrite py_int_dec.
  - destruct T as [[z ->]|[s ->]].
    + exists (dec_Z z). split; [reflexivity|]. unfold decode. rewrite DEC. now rewrite py_int_dec.
    + simpl in S. destruct S as (S1 & S2 & S3 & S4). exists s. split.
      * unfold mval. rewrite encode_str_case by discriminate. now apply PL.
      * unfold decode. apply str_eqb_neq in S1. unfold empty. rewrite S1. now rewrite S4.
  - destruct T as [s ->]. simpl in S. apply IDL; tauto.
  - destruct T as [l ->]. simpl in S. destruct S as [S1 S2].
    exists (join $";" l). split; [reflexivity|].
    assert (F : filter (fun x => negb (str_eqb x [])) l = l).
    { clear S1. induction l as [|x l IH]; [reflexivity|]. simpl.
      destruct (S2 x) as [K _]; [now left|]. apply str_eqb_neq in K. rewrite K. simpl.
      f_equal. apply IH. intros e He. apply S2. now right. }
    unfold decode. nums. change ($";") with [59%N].
    destruct l as [|x l]; [reflexivity|].
    assert (SJ : split 59 (join [59%N] (x :: l)) = x :: l).
    { apply split_join; [discriminate|]. intros y Hy. apply S2 in Hy. tauto. }
    destruct (str_eqb (join [59%N] (x :: l)) empty) eqn:E.
    + exfalso. apply str_eqb_eq in E. apply S1. rewrite <- SJ, E. reflexivity.
    + now rewrite SJ, F.
Qed.

Lemma weak_bwd f v s : typed_field f v -> encode (EF f) (mval f v) = Ok s ->
  decode f s 6 = Ok (stored f v) -> weak_safe f v.
Proof.
  assert (IDL : forall f s t, f = Fid \/ f = Fparent_id \/ f = Fold_id \/ f = Fmode ->
     encode (EF f) (PStr s) = Ok t -> decode f t 6 = Ok (PStr s) ->
     s <> $"#" /\ lacks "|" s /\ lacks "!" s).
  { clear. intros f s t Hf H1 H2. nums.
    rewrite encode_str_case in H1 by (destruct Hf as [->|[->|[->| ->]]]; discriminate).
    apply enc_str_inv in H1 as (-> & _). rewrite decode_idlike in H2 by assumption.
    rewrite enc_hash' in H2. destruct (str_eqb s $"#") eqn:E; [discriminate|].
    injection H2 as K. split; [now apply str_eqb_neq|].
    rewrite <- K. split; apply dec_str_no; tauto. }
  intros T H1 H2. destruct f; simpl in T; simpl.
  all: try (destruct T as [->|T]; [exact I|]).
  - destruct T as [t ->]. simpl mval in H1. simpl stored in H2.
    rewrite encode_str_case in H1 by discriminate. nums.
    pose proof (enc_str_inv _ _ _ H1) as (-> & A & B). unfold decode in H2. rewrite enc_hash' in H2.
    destruct (str_eqb t $"#") eqn:E; [discriminate|]. nums.
    destruct (has 124 (replace1 46 33 (replace1 47 124 t))) eqn:E1; [discriminate|].
    simpl in H2. split; [now apply str_eqb_neq|].
    assert (NS : ~ In 47%N t) by (intro I; apply A in I; destruct I; discriminate).
    apply has_false in E1.
    split; [|split; [|assumption]].
    + intro I. apply E1. apply replace1_keep; [|discriminate]. apply replace1_keep; [assumption|discriminate].
    + injection H2 as K. rewrite <- K. apply replace1_no. discriminate.
  - destruct T as [z [-> _]]. exact I.
  - destruct v; exact I.
  - destruct v; exact I.
  - destruct v; exact I.
  - destruct T as [t ->]. simpl mval in H1. simpl stored in H2.
    rewrite encode_str_case in H1 by discriminate. pose proof (enc_str_clean _ _ _ H1) as [C1 C2].
    unfold decode in H2. destruct (str_eqb s empty) eqn:E; [discriminate|]. inversion H2; subst.
    split; [now apply str_eqb_neq|]. nums. tauto.
  - destruct T as [b [n ->]]. destruct n as [|p|p]; try lia. exfalso.
    change (Ok (hex b ++ $"-" ++ dec_Z (Z.neg p)) = Ok s) in H1.
    assert (Hs : s = hex b ++ $"-" ++ dec_Z (Z.neg p)) by congruence.
    rewrite Hs in H2. unfold decode in H2.
    rewrite not_empty_etag in H2. change (chr "-") with 45%N in H2.
    rewrite rsplit_etag_neg in H2. rewrite fromhex_hex_app in H2.
    destruct (py_int _); discriminate.
  - destruct v; exact I.
  - destruct v; exact I.
  - destruct T as [t ->]. eapply IDL; [|exact H1|exact H2]. tauto.
  - destruct T as [t ->]. eapply IDL; [|exact H1|exact H2]. tauto.
  - destruct T as [z ->]. intros ->. simpl in H1. inversion H1; subst. discriminate.
  - destruct T as [t ->]. eapply IDL; [|exact H1|exact H2]. tauto.
  - destruct v; exact I.
  - destruct T as [[z ->]|[t ->]]; [exact I|]. simpl mval in H1. simpl stored in H2.
    rewrite encode_str_case in H1 by discriminate. pose proof (enc_str_clean _ _ _ H1) as [C1 C2].
    unfold decode in H2. destruct (str_eqb s empty) eqn:E; [discriminate|].
    destruct (py_int s) eqn:P; [discriminate|]. inversion H2; subst.
    split; [now apply str_eqb_neq|]. nums. tauto.
  - destruct T as [t ->]. eapply IDL; [|exact H1|exact H2]. tauto.
  - destruct T as [l ->]. simpl in H1. inversion H1; subst. unfold decode in H2. simpl stored in H2.
    destruct (str_eqb (join $";" l) empty) eqn:E; [discriminate|].
    injection H2 as K. split.
    + intros ->. discriminate.
    + intros e He. rewrite <- K in He. apply filter_In in He as [He1 He2]. split.
      * intros ->. discriminate.
      * eapply split_parts. exact He1.
Qed.

(** ** Building and reading a PathMeta *)
Lemma rmap_ok {A B} (f : A -> res B) (g : A -> B) l :
  (forall x, In x l -> f x = Ok (g x)) -> rmap f l = Ok (map g l).
Proof.
  induction l as [|x l IH]; intro H; [reflexivity|]. cbn [rmap map].
  rewrite H by now left. cbn [rbind]. rewrite IH by (intros; apply H; now right). reflexivity.
Qed.

Lemma rmap_inv {A B} (f : A -> res B) l ys :
  rmap f l = Ok ys -> Forall2 (fun x y => f x = Ok y) l ys.
Proof.
  revert ys. induction l as [|x l IH]; intros ys H; cbn [rmap] in H.
  - inversion H. constructor.
  - destruct (f x) eqn:E; [|discriminate]. cbn [rbind] in H.
    destruct (rmap f l) eqn:E2; [|discriminate]. inversion H; subst. constructor; auto.
Qed.

Lemma meta_init_ext a b : (forall f, a f = b f) -> meta_init a = meta_init b.
Proof. intro H. unfold meta_init, meta_init_x. now rewrite !H. Qed.

Lemma init_typed a : typed a ->
  exists m, meta_init a = Ok m /\ (forall dp f, getf dp m f = Ok (mval f (a f))) /\
    m_kwargs m = [].
Proof.
  intro T. unfold meta_init, meta_init_x.
  pose proof (T Ffile_id) as T1. pose proof (T Fid) as T2. pose proof (T Fsize) as T3.
  pose proof (T Ferrors) as T4. pose proof (T Fcreated) as T5. pose proof (T Fupdated) as T6.
  simpl in T1, T2, T3, T4, T5, T6. destruct T4 as [l Tl].
  assert (E1 : (negb (truthy (a Ffile_id)) && negb (is_none (a Ffile_id))
      && negb (py_eq (a Ffile_id) (PInt 0)))%bool = false).
  { destruct T1 as [->|[z ->]]; [reflexivity|]. simpl. now destruct (z =? 0)%Z. }
  rewrite E1.
  assert (E2 : match a Fid with PNone | PStr _ => false | _ => true end = false)
    by (destruct T2 as [->|[s ->]]; reflexivity).
  rewrite E2.
  assert (E3 : match a Fsize with PNone => Ok PNone | v => filesize v end = Ok (mval Fsize (a Fsize)))
    by (destruct T3 as [->|[z [-> _]]]; reflexivity).
  rewrite E3. cbn [rbind].
  assert (E4 : errors_tuple (a Ferrors) = Ok l) by (rewrite Tl; unfold errors_tuple; destruct l; reflexivity).
  rewrite E4. cbn [rbind]. eexists. split; [reflexivity|]. split; [|reflexivity].
  intros dp f. destruct f; try reflexivity; unfold getf, get_created, get_updated; cbn.
  - destruct T5 as [->|[d ->]]; reflexivity.
  - destruct T6 as [->|[d ->]]; reflexivity.
  - now rewrite Tl.
Qed.

Lemma init_stored a b : typed a -> (forall f, b f = stored f (a f)) ->
  exists m, meta_init b = Ok m /\ carries m a.
Proof.
  intros T Hb. unfold meta_init, meta_init_x. rewrite !Hb.
  pose proof (T Ffile_id) as T1. pose proof (T Fid) as T2. pose proof (T Fsize) as T3.
  pose proof (T Ferrors) as T4. pose proof (T Fcreated) as T5. pose proof (T Fupdated) as T6.
  simpl in T1, T2, T3, T4, T5, T6. destruct T4 as [l Tl]. cbn [stored].
  assert (E1 : (negb (truthy (a Ffile_id)) && negb (is_none (a Ffile_id))
      && negb (py_eq (a Ffile_id) (PInt 0)))%bool = false).
  { destruct T1 as [->|[z ->]]; [reflexivity|]. simpl. now destruct (z =? 0)%Z. }
  rewrite E1.
  assert (E2 : match a Fid with PNone | PStr _ => false | _ => true end = false)
    by (destruct T2 as [->|[s ->]]; reflexivity).
  rewrite E2.
  assert (E3 : match a Fsize with PNone => Ok PNone | v => filesize v end = Ok (mval Fsize (a Fsize)))
    by (destruct T3 as [->|[z [-> _]]]; reflexivity).
  rewrite E3. cbn [rbind].
  assert (E4 : errors_tuple (a Ferrors) = Ok l) by (rewrite Tl; unfold errors_tuple; destruct l; reflexivity).
  rewrite E4. cbn [rbind]. eexists. split; [reflexivity|].
  split; [|split; [|split; [|reflexivity]]].
  - intros dp f Hf. destruct f; try discriminate; try reflexivity; cbn.
    + destruct T3 as [->|[z [-> _]]]; reflexivity.
    + now rewrite Tl.
  - cbn [m_created m_created_ok]. destruct T5 as [->|[d ->]]; split; reflexivity.
  - cbn [m_updated m_updated_ok]. destruct T6 as [->|[d ->]]; split; reflexivity.
Qed.

(** What the result of any construction says about its arguments. *)
Lemma init_get a m : meta_init a = Ok m ->
  (forall dp f, is_stamp f = false -> f <> Fsize -> f <> Ferrors -> getf dp m f = Ok (a f)) /\
  match a Fsize with PNone => m_size m = PNone | v => filesize v = Ok (m_size m) end /\
  errors_tuple (a Ferrors) = Ok (m_errors m) /\
  m_created m = (if stamp_ok (a Fcreated) then PNone else a Fcreated) /\
  m_created_ok m = (if stamp_ok (a Fcreated) then Some (a Fcreated) else None) /\
  m_updated m = (if stamp_ok (a Fupdated) then PNone else a Fupdated) /\
  m_updated_ok m = (if stamp_ok (a Fupdated) then Some (a Fupdated) else None).
Proof.
  unfold meta_init, meta_init_x. intro H.
  destruct (_ && _)%bool; [discriminate|].
  destruct (match a Fid with PNone | PStr _ => false | _ => true end); [discriminate|].
  destruct (match a Fsize with PNone => Ok PNone | v => filesize v end) eqn:E1; [|discriminate].
  cbn [rbind] in H. destruct (errors_tuple (a Ferrors)) eqn:E2; [|discriminate].
  cbn [rbind] in H. inversion H; subst; clear H. cbn.
  repeat split.
  - intros dp f H1 H2 H3. destruct f; try discriminate; try congruence; reflexivity.
  - destruct (a Fsize); first [congruence | exact E1].
Qed.

Lemma set_arg_same f v a : set_arg f v a f = v.
Proof. unfold set_arg. now destruct f. Qed.
Lemma field_eqb_eq f g : field_eqb f g = true <-> f = g.
Proof. split; [destruct f, g; simpl; congruence|intros ->; now destruct g]. Qed.
Lemma set_arg_other f g v a : f <> g -> set_arg f v a g = a g.
Proof.
  intro H. unfold set_arg. destruct (field_eqb f g) eqn:E; [|reflexivity].
  apply field_eqb_eq in E. contradiction.
Qed.

Lemma decode_all_inv l v : forall a a', NoDup (map fst l) -> decode_all l v a = Ok a' ->
  (forall f s, In (f, s) l -> decode f s v = Ok (a' f)) /\
  (forall f, ~ In f (map fst l) -> a' f = a f).
Proof.
  induction l as [|[f s] l IH]; intros a a' N H; cbn [decode_all] in H.
  - inversion H; subst. split; [intros ? ? []|auto].
  - destruct (decode f s v) as [w|] eqn:E; [|discriminate]. cbn [rbind] in H.
    inversion N as [|? ? N1 N2]; subst. destruct (IH _ _ N2 H) as [I1 I2]. split.
    + intros g t [K|K].
      * inversion K; subst. rewrite E. rewrite I2 by assumption. now rewrite set_arg_same.
      * now apply I1.
    + intros g Hg. cbn in Hg. rewrite I2 by tauto. apply set_arg_other. tauto.
Qed.

Lemma decode_all_ok l v (val : field -> pyval) : forall a, NoDup (map fst l) ->
  (forall f s, In (f, s) l -> decode f s v = Ok (val f)) ->
  exists a', decode_all l v a = Ok a' /\ (forall f, In f (map fst l) -> a' f = val f) /\
    (forall f, ~ In f (map fst l) -> a' f = a f).
Proof.
  induction l as [|[f s] l IH]; intros a N H; cbn [decode_all].
  - exists a. split; [reflexivity|]. split; [intros ? []|auto].
  - rewrite (H f s) by now left. cbn [rbind]. inversion N as [|? ? N1 N2]; subst.
    destruct (IH (set_arg f (val f) a)) as (a' & A1 & A2 & A3); [assumption|intros; apply H; now right|].
    exists a'. split; [assumption|]. cbn. split.
    + intros g [<-|Hg]; [|now apply A2]. destruct (in_dec (fun x y : field => ltac:(decide equality)) f (map fst l)).
      * now apply A2.
      * rewrite A3 by assumption. apply set_arg_same.
    + intros g Hg. rewrite A3 by tauto. apply set_arg_other. tauto.
Qed.

(** ** Sizes in human form *)
Lemma to_double_lt n : (n < 2 ^ 1023)%N -> (to_double n < 2 ^ 1024)%N.
Proof.
  intro H. unfold to_double. destruct (N.ltb_spec n (2 ^ 53)).
  - eapply N.lt_trans; [exact H|]. apply N.pow_lt_mono_r; reflexivity.
  - assert (L : (2 ^ (N.log2 n - 52) <= n)%N).
    { transitivity (2 ^ N.log2 n)%N; [apply N.pow_le_mono_r; [discriminate|apply N.le_sub_l]|].
      apply N.log2_spec. destruct n; [|reflexivity]. exfalso. revert H0. cbv. intro K. now apply K. }
    set (p := (2 ^ (N.log2 n - 52))%N) in *.
    assert (P : p <> 0%N) by (apply N.pow_nonzero; discriminate).
    assert (D : (div_half_even n p <= n / p + 1)%N).
    { unfold div_half_even. destruct (_ <? _)%N; [lia|]. destruct (_ <? _)%N; [lia|].
      destruct (N.even _); lia. }
    assert (Q : (n / p * p <= n)%N) by (rewrite N.mul_comm; apply N.mul_div_le; assumption).
    assert (M : (div_half_even n p * p <= n + p)%N).
    { transitivity ((n / p + 1) * p)%N; [apply N.mul_le_mono_r; assumption|].
      rewrite N.mul_add_distr_r. lia. }
    assert (E : (2 ^ 1024 = 2 * 2 ^ 1023)%N) by (exact (N.pow_succ_r' 2 1023)).
    rewrite E. revert H M L. clear. generalize (2 ^ 1023)%N (div_half_even n p * p)%N. lia.
Qed.

Lemma hr_ok z : (z < 2 ^ 1023)%Z -> exists s, hr z = Ok s.
Proof.
  intro H. unfold hr. destruct z as [|p|p]; [eexists; reflexivity| |eexists; reflexivity].
  destruct (N.leb_spec (2 ^ 1024) (to_double (Z.to_N (Z.pos p)))) as [L|L]; [|eexists; reflexivity].
  exfalso. assert (G : (to_double (Z.to_N (Z.pos p)) < 2 ^ 1024)%N); [|revert G L; apply N.lt_nge].
  apply to_double_lt. apply N2Z.inj_lt. rewrite N2Z.inj_pow. simpl Z.of_N. exact H.
Qed.

Lemma dec_N_nonempty n : dec_N n <> [].
Proof. apply dec_N_spec. Qed.

Lemma sizeof_fmt_nonempty u : forall x k, sizeof_fmt u x k <> [].
Proof.
  induction u as [|s u IH]; intros x k H; cbn [sizeof_fmt] in H.
  - apply app_eq_nil in H as [H _]. now apply dec_N_nonempty in H.
  - destruct (_ <? _)%N; [|now apply IH in H].
    apply app_eq_nil in H as [H _]. now apply dec_N_nonempty in H.
Qed.

Lemma hr_nonempty z s : hr z = Ok s -> s <> [].
Proof.
  unfold hr. destruct z; intro H.
  - intros ->. revert H. vm_compute. discriminate.
  - destruct (_ <=? _)%N; [discriminate|]. apply Ok_inj in H. rewrite <- H. apply sizeof_fmt_nonempty.
  - inversion H. discriminate.
Qed.

Lemma enc_str_length n s t : enc_str n s = Ok t -> length t = length s.
Proof. intro H. apply enc_str_inv in H as [-> _]. now rewrite !replace1_length. Qed.

(** ** The text of a link *)
Definition data_of (fs : list str) : str := $"." ++ write_version ++ $"." ++ join [46%N] fs.

Lemma text_split ide fs : ide ++ $"/." ++ write_version ++ $"." ++ join [c_fieldsep] fs
  = ide ++ $"/" ++ data_of fs.
Proof. reflexivity. Qed.

Lemma split_data fs : split 46 (data_of fs) = [] :: write_version :: split 46 (join [46%N] fs).
Proof. reflexivity. Qed.

Lemma norm_data fs : ~ In 47%N (join [46%N] fs) -> norm_part (data_of fs).
Proof.
  intro H. split; [reflexivity|]. nums. unfold data_of. intro I.
  repeat (apply in_app_or in I as [I|I]; [repeat (destruct I as [I|I]; [discriminate|]); destruct I|]).
  contradiction.
Qed.

Lemma clean_join fs : Forall clean fs -> ~ In 47%N (join [46%N] fs).
Proof.
  intros H I. apply join_In in I as [[I|[]]|[x [I J]]]; [discriminate|].
  rewrite Forall_forall in H. apply H in I as [_ I]. contradiction.
Qed.

(** Any successful reading gives the id found in the parent components. *)
Lemma from_parts_id ps m : from_parts ps = Ok m ->
  exists v, decode Fid (pp_str (pp_parent (pp_of_list ps))) v = Ok (m_id m).
Proof.
  unfold from_parts. destruct ps as [|p0 ps]; [discriminate|].
  destruct (split c_fieldsep _) as [|? [|ver sf]]; try discriminate.
  destruct (py_int _) as [v|]; [|discriminate]. destruct (lookup_version ver) as [o|]; [|discriminate].
  destruct (decode_all _ _ _) as [a|]; [|discriminate]. cbn [rbind].
  destruct (decode Fid _ v) as [i|] eqn:E; [|discriminate]. cbn [rbind]. intro H.
  exists v. rewrite E. apply init_get in H as [H _].
  specialize (H (fun _ => Ok PNone) Fid eq_refl). cbn [getf] in H.
  rewrite set_arg_same in H. symmetry. apply H; discriminate.
Qed.

Lemma decode_id_length s v w : decode Fid s v = Ok w -> s <> $"#" ->
  exists t, w = PStr t /\ length t = length s.
Proof.
  intros H N. unfold decode in H. apply str_eqb_neq in N. unfold empty in H. rewrite N in H.
  destruct (has c_pathsep s); cbn [rbind] in H; inversion H; subst;
    (eexists; split; [reflexivity|]);
    destruct (5 <=? v)%Z; now rewrite ?replace1_length.
Qed.

(** Reading a two component target written by version 6. *)
Lemma from_parts_two ide fs : norm_part ide -> norm_part (data_of fs) ->
  from_parts [ide; data_of fs] =
  do a <- decode_all (combine order (split 46 (join [46%N] fs))) 6 no_args ;
  do id <- decode Fid ide 6 ;
  meta_init (set_arg Fid id a).
Proof.
  intros H1 H2. unfold from_parts. change (last [ide; data_of fs] []) with (data_of fs).
  change c_fieldsep with 46%N. rewrite split_data.
  change (py_int (skipn 3 write_version)) with (Some 6%Z). cbn iota.
  change (lookup_version write_version) with (Some order). cbn iota.
  rewrite pp_of_list_rel by (repeat constructor; try apply H1; try apply H2).
  reflexivity.
Qed.

Lemma order_nodup : NoDup order.
Proof. repeat constructor; simpl; intuition discriminate. Qed.

Lemma map_fst_combine {A B} (l : list A) (l' : list B) : length l <= length l' ->
  map fst (combine l l') = l.
Proof.
  revert l'. induction l as [|x l IH]; intros l' H; [reflexivity|].
  destruct l'; cbn in *; [lia|]. now rewrite IH by lia.
Qed.

Lemma in_combine_map {A B} (l : list A) (g : A -> B) r x y :
  In (x, y) (combine l (map g l ++ r)) -> y = g x.
Proof.
  induction l as [|z l IH]; cbn; [intros []|]. intros [H|H]; [congruence|auto].
Qed.

Lemma encode_ehr_ok a m : typed a -> m_size m = mval Fsize (a Fsize) ->
  exists s, (do v <- get_e (fun _ => Ok PNone) m Ehr ; encode Ehr v) = Ok s.
Proof.
  intros T H. pose proof (T Fsize) as T1. unfold get_e. rewrite H.
  destruct T1 as [->|[z [-> Hz]]]; [eexists; reflexivity|].
  cbn. destruct (hr_ok z Hz) as [t Ht]. rewrite Ht. cbn [rbind].
  rewrite encode_str_case by discriminate.
  assert (NS : has 47 t = false /\ has 33 t = false).
  { clear - Ht. 
    assert (P : forall u x k, (forall s c, In s u -> In c s -> c <> 47%N /\ c <> 33%N) ->
      forall c, In c (sizeof_fmt u x k) -> c <> 47%N /\ c <> 33%N).
    { induction u as [|s u IH]; intros x k Hu c Hc; cbn [sizeof_fmt] in Hc.
      - rewrite !in_app_iff in Hc. destruct Hc as [Hc|[Hc|[Hc|Hc]]];
          try (apply dec_N_digits in Hc; split; intros ->; discriminate);
          repeat (destruct Hc as [<-|Hc]; [split; discriminate|]); destruct Hc.
      - destruct (_ <? _)%N.
        + apply in_app_or in Hc as [Hc|Hc]; [apply dec_N_digits in Hc; split; intros ->; discriminate|].
          eapply Hu; [now left|eassumption].
        + eapply IH; [|eassumption]. intros s' c' H1 H2. eapply Hu; [right; eassumption|eassumption]. }
    assert (U : forall s c, In s (map (fun s => str_of s) [""; "K"; "M"; "G"; "T"; "P"; "E"; "Z"]%string) ->
       In c s -> c <> 47%N /\ c <> 33%N).
    { intros s c H1 H2. cbn in H1.
      repeat (destruct H1 as [<-|H1]; [repeat (destruct H2 as [<-|H2]; [split; discriminate|]); destruct H2|]).
      destruct H1. }
    assert (Q : forall c, In c t -> c <> 47%N /\ c <> 33%N).
    { unfold hr in Ht. destruct z.
      - intros c Hc. replace t with $"0" in Hc by (revert Ht; vm_compute; congruence).
        destruct Hc as [<-|[]]. split; discriminate.
      - destruct (_ <=? _)%N; [discriminate|]. apply Ok_inj in Ht. rewrite <- Ht. apply P, U.
      - inversion Ht; subst. intros c H.
        repeat (destruct H as [<-|H]; [split; discriminate|]); destruct H. }
    split; apply has_false; intro I; apply Q in I; destruct I; congruence. }
  destruct NS as [N1 N2]. unfold enc_str. rewrite N1. cbn [rbind]. rewrite N2.
  destruct (has 46 t); eexists; reflexivity.
Qed.

(** ** The whole target *)
Lemma file_name_norm ln : file_name ln -> norm_part ln.
Proof.
  intros (H1 & H2 & H3). split; [|exact H3]. unfold real_part.
  apply str_eqb_neq in H1, H2. now rewrite H1, H2.
Qed.

Lemma clean_norm s : clean s -> s <> [] -> norm_part s.
Proof.
  intros [H1 H2] H3. split; [|exact H2]. unfold real_part.
  apply str_eqb_neq in H3. rewrite H3. simpl. apply negb_true_iff, str_eqb_neq.
  intros ->. apply H1. now left.
Qed.

Definition encf (a : args) (f : field) : str :=
  match encode (EF f) (mval f (a f)) with Ok s => s | Err _ => [] end.

Lemma order_all_fields f : f <> Fid -> In f order.
Proof. intro H. destruct f; try congruence; unfold order; simpl; tauto. Qed.

Lemma text_ok dp a m : typed a -> (forall f, getf dp m f = Ok (mval f (a f))) ->
  m_size m = mval Fsize (a Fsize) -> m_id m = a Fid ->
  (forall f, encode (EF f) (mval f (a f)) = Ok (encf a f)) ->
  exists hrs, clean hrs /\
  symlink_text dp m = Ok (encf a Fid ++ $"/" ++ data_of (map (encf a) order ++ [hrs])).
Proof.
  intros T G Gs Gi E. destruct (encode_ehr_ok a m T Gs) as [hrs Hh].
  exists hrs. split.
  - change (get_e (fun _ => Ok PNone) m Ehr) with (get_e dp m Ehr) in Hh.
    destruct (get_e dp m Ehr) as [v|]; [|discriminate]. eapply encode_clean; [|exact Hh]. discriminate.
  - unfold symlink_text. rewrite Gi. pose proof (E Fid) as E1. cbn [mval] in E1. rewrite E1. cbn [rbind].
    rewrite (rmap_ok _ (fun ef => match ef with EF f => encf a f | Ehr => hrs end)).
    + cbn [rbind]. rewrite text_split. unfold order_all. rewrite map_app, map_map. reflexivity.
    + intros ef _. destruct ef as [f|]; [|exact Hh]. cbn [get_e]. rewrite G. cbn [rbind]. apply E.
Qed.

Lemma parse_text ide D : norm_part ide -> norm_part D ->
  pp_parse (ide ++ $"/" ++ D) = mkPP false [ide; D].
Proof.
  intros H1 H2. rewrite parse_cat, norm_part_not_slash by assumption.
  rewrite !comps_one by assumption. reflexivity.
Qed.

Theorem link_safe_round_trip2 dp a m ln lower :
  typed a -> file_name ln -> meta_init a = Ok m -> link_safe a ->
  exists p m', as_symlink dp m (Some ln) = Ok p /\
    from_symlink ln (pp_str p) true lower = Ok m' /\ carries m' a /\
    exists q, as_symlink dp m None = Ok q /\
      forall name b, from_symlink name (pp_str q) b lower = Ok m'.
Proof.
  intros T FN I S.
  destruct (init_typed a T) as (m0 & I0 & G & _). assert (m0 = m) by congruence. subst m0.
  assert (E : forall f, encode (EF f) (mval f (a f)) = Ok (encf a f) /\
                        decode f (encf a f) 6 = Ok (stored f (a f))).
  { intro f. destruct (weak_fwd f (a f) (T f) (safe_weak _ _ (S f))) as (s & H1 & H2).
    unfold encf. rewrite H1. auto. }
  assert (C : forall f, clean (encf a f)).
  { intro f. destruct (field_eqb f Ferrors) eqn:Ef.
    - apply field_eqb_eq in Ef. subst f. pose proof (S Ferrors) as K. pose proof (T Ferrors) as K'.
      destruct K' as [l K']. unfold encf. rewrite K' in *. cbn. simpl in K. destruct K as [_ K].
      nums. split; intro J; apply join_In in J as [[J|[]]|[x [J1 J2]]]; try discriminate;
        apply K in J1; tauto.
    - eapply encode_clean; [|apply E]. intro K. inversion K. subst. discriminate. }
  destruct (text_ok dp a m T (G dp)) as (hrs & Hc & Ht).
  - pose proof (G dp Fsize) as K. cbn [getf] in K. now apply Ok_inj.
  - pose proof (G dp Fid) as K. cbn [getf mval] in K. now apply Ok_inj.
  - apply E.
  - set (fs := map (encf a) order ++ [hrs]) in *.
    assert (Cf : Forall clean fs).
    { apply Forall_forall. intros x Hx. apply in_app_or in Hx as [Hx|[<-|[]]]; [|assumption].
      apply in_map_iff in Hx as (f & <- & _). apply C. }
    assert (ND : norm_part (data_of fs)) by (apply norm_data, clean_join, Cf).
    assert (NI : norm_part (encf a Fid)).
    { apply clean_norm; [apply C|]. pose proof (S Fid) as K. pose proof (T Fid) as K'.
      destruct K' as [K'|[s K']]; unfold encf; rewrite K' in *; [discriminate|].
      simpl in K. cbn [mval]. destruct (E Fid) as [E1 _]. unfold encf in E1. rewrite K' in E1. cbn [mval] in E1.
      rewrite encode_str_case in * by discriminate.
      destruct (enc_str _ s) as [t|] eqn:Et; [|discriminate]. apply enc_str_length in Et.
      destruct s; [tauto|]. intros ->. discriminate. }
    assert (NL : norm_part ln) by now apply file_name_norm.
    exists (mkPP false [ln; encf a Fid; data_of fs]).
    assert (P : from_symlink ln (pp_str (mkPP false [ln; encf a Fid; data_of fs])) true lower
                = from_parts [encf a Fid; data_of fs]).
    { unfold from_symlink. rewrite pp_parse_str by (repeat constructor; try apply NL; try apply NI; try apply ND).
      cbn [parts pp_abs pp_parts]. rewrite str_eqb_refl. reflexivity. }
    rewrite P, from_parts_two by assumption.
    assert (SJ : split 46 (join [46%N] fs) = fs).
    { apply split_join; [intro K; unfold fs in K; now apply app_eq_nil in K as [_ K]|].
      intros x Hx. rewrite Forall_forall in Cf. now apply Cf in Hx as [Hx _]. }
    rewrite SJ.
    assert (MF : map fst (combine order fs) = order).
    { apply map_fst_combine. unfold fs. rewrite app_length, map_length. simpl; lia. }
    destruct (decode_all_ok (combine order fs) 6 (fun f => stored f (a f)) no_args) as (a' & A1 & A2 & A3).
    + rewrite MF. apply order_nodup.
    + intros f s Hin. apply in_combine_map in Hin as ->. apply E.
    + rewrite MF in *. rewrite A1. cbn [rbind]. destruct (E Fid) as [_ Ei]. rewrite Ei. cbn [rbind].
      destruct (init_stored a (set_arg Fid (stored Fid (a Fid)) a') T) as (m' & M1 & M2).
      * intro f. destruct (field_eqb Fid f) eqn:Ef.
        -- apply field_eqb_eq in Ef. subst f. now rewrite set_arg_same.
        -- assert (Fid <> f) by (intros <-; discriminate).
           rewrite set_arg_other by assumption. apply A2. apply order_all_fields. congruence.
      * exists m'. unfold as_symlink. rewrite Ht. cbn [rbind].
        rewrite (pp_parse_part ln) by assumption. rewrite parse_text by assumption.
        split; [reflexivity|]. split; [exact M1|]. split; [assumption|].
        eexists. split; [reflexivity|]. intros name b.
        transitivity (from_parts [encf a Fid; data_of fs]).
        { unfold from_symlink. rewrite pp_parse_str by (repeat constructor; try apply NI; try apply ND).
          reflexivity. }
        rewrite from_parts_two, SJ, A1 by assumption. cbn [rbind]. rewrite Ei. exact M1.
Qed.

Theorem link_safe_round_trip dp a m ln lower :
  typed a -> file_name ln -> meta_init a = Ok m -> link_safe a ->
  exists p m', as_symlink dp m (Some ln) = Ok p /\
    from_symlink ln (pp_str p) true lower = Ok m' /\ carries m' a.
Proof.
  intros T FN I S. destruct (link_safe_round_trip2 dp a m ln lower T FN I S) as (p & m' & H1 & H2 & H3 & _).
  eauto.
Qed.

Theorem link_safe_round_trip_none dp a m lower :
  typed a -> meta_init a = Ok m -> link_safe a ->
  exists q m', as_symlink dp m None = Ok q /\
    (forall name b, from_symlink name (pp_str q) b lower = Ok m') /\ carries m' a.
Proof.
  intros T I S.
  destruct (link_safe_round_trip2 dp a m $"x" lower T) as (p & m' & H1 & H2 & H3 & q & H4 & H5); auto.
  - repeat split; try discriminate. intros [K|[]]; discriminate.
  - eauto 6.
Qed.

Lemma carries_fields dp a m m' :
  typed a -> meta_init a = Ok m -> carries m' a ->
  (forall d, a Fcreated = PDt d \/ a Fupdated = PDt d -> dp (PStr (isoformat d)) = Ok (PDt d)) ->
  forall f, getf dp m' f = getf dp m f.
Proof.
  intros T I (C1 & C2 & C3 & _) D f.
  destruct (init_typed a T) as (m0 & I0 & G & _). assert (m0 = m) by congruence. subst m0.
  rewrite G. destruct (is_stamp f) eqn:E.
  - destruct f; try discriminate E; cbn [getf mval]; unfold get_created, get_updated.
    + pose proof (T Fcreated) as K. destruct K as [K|[d K]]; rewrite K in *; destruct C2 as [-> ->]; [reflexivity|].
      apply D. now left.
    + pose proof (T Fupdated) as K. destruct K as [K|[d K]]; rewrite K in *; destruct C3 as [-> ->]; [reflexivity|].
      apply D. now right.
  - rewrite C1 by assumption. destruct f; try reflexivity; destruct (a Fsize); reflexivity.
Qed.

(** ** Only these values survive *)
Lemma app_snoc2 {A} (l : list A) n : length l = S (S n) ->
  exists l' x y, l = l' ++ [x; y] /\ length l' = n.
Proof.
  intro H. destruct (rev l) as [|y [|x r]] eqn:E.
  - apply (f_equal (@length A)) in E. rewrite rev_length in E. simpl in E. lia.
  - apply (f_equal (@length A)) in E. rewrite rev_length in E. simpl in E. lia.
  - exists (rev r), x, y. apply (f_equal (@rev A)) in E. rewrite rev_involutive in E.
    simpl in E. rewrite <- app_assoc in E. split; [exact E|].
    rewrite E, app_length in H. simpl in H. lia.
Qed.

Lemma join_snoc2 c l x y : l <> [] ->
  join [c] (l ++ [x; y]) = join [c] l ++ c :: (x ++ c :: y).
Proof.
  induction l as [|z l IH]; intro H; [congruence|].
  destruct l as [|w l]; [reflexivity|].
  change ((z :: w :: l) ++ [x; y]) with (z :: w :: (l ++ [x; y])).
  rewrite join_cons. change (w :: l ++ [x; y]) with ((w :: l) ++ [x; y]).
  rewrite IH by discriminate. rewrite join_cons. rewrite <- !app_assoc. reflexivity.
Qed.

Lemma first_occ c (s : str) : In c s -> exists u v, s = u ++ c :: v /\ ~ In c u.
Proof.
  induction s as [|x s IH]; intros H; [destruct H|].
  destruct (N.eq_dec x c) as [->|N].
  - exists [], s. split; [reflexivity|]. intros [].
  - destruct H as [H|H]; [congruence|]. destruct (IH H) as (u & v & -> & K).
    exists (x :: u), v. split; [reflexivity|]. intros [J|J]; congruence.
Qed.

Lemma last_occ c (s : str) : In c s -> exists u v, s = u ++ c :: v /\ ~ In c v.
Proof.
  intro H. apply in_rev in H. destruct (first_occ c (rev s) H) as (u & v & E & K).
  exists (rev v), (rev u). apply (f_equal (@rev N)) in E. rewrite rev_involutive, rev_app_distr in E.
  simpl in E. rewrite <- app_assoc in E. split; [exact E|]. now rewrite <- in_rev.
Qed.

Lemma join_length_gt c x l : l <> [] -> Forall (fun s : str => s <> []) l ->
  length x < length (join [c] (x :: l)).
Proof.
  intros H _. destruct l as [|y l]; [congruence|]. rewrite join_cons, !app_length. simpl. lia.
Qed.

Lemma split_prefix c a s : ~ In c a ->
  split c (a ++ s) = match split c s with h :: t => (a ++ h) :: t | [] => [] end.
Proof.
  intro H. pose proof (split_nonempty c s) as N. induction a as [|x a IH]; cbn [app split].
  - destruct (split c s); [congruence|reflexivity].
  - destruct (N.eqb_spec x c); [subst; exfalso; apply H; now left|].
    rewrite IH by (intro; apply H; now right). destruct (split c s); [congruence|reflexivity].
Qed.

Lemma Forall2_len {A B} (R : A -> B -> Prop) l l' : Forall2 R l l' -> length l = length l'.
Proof. induction 1; simpl; congruence. Qed.

Lemma removelast_two {A} (x y : A) l : removelast (x :: y :: l) = x :: removelast (y :: l).
Proof. reflexivity. Qed.

Theorem link_round_trip_safe dp a m ln lower :
  typed a -> file_name ln -> meta_init a = Ok m ->
  (exists p m', as_symlink dp m (Some ln) = Ok p /\
    from_symlink ln (pp_str p) true lower = Ok m' /\ carries m' a) ->
  link_safe a.
Proof.
  intros T FN I (p & m' & Hp & Hf & Hc).
  destruct (init_typed a T) as (m0 & I0 & G & _). assert (m0 = m) by congruence. subst m0.
  assert (Gi : m_id m = a Fid) by (pose proof (G dp Fid) as K; cbn [getf mval] in K; now apply Ok_inj).
  unfold as_symlink, symlink_text in Hp.
  destruct (encode (EF Fid) (m_id m)) as [ide|] eqn:Ei; [|discriminate]. cbn [rbind] in Hp.
  destruct (rmap _ order_all) as [fs|] eqn:Er; [|discriminate]. cbn [rbind] in Hp.
  rewrite text_split in Hp. apply Ok_inj in Hp.
  apply rmap_inv in Er.
  assert (NL : norm_part ln) by now apply file_name_norm.
  rewrite (pp_parse_part ln NL) in Hp.
  assert (Ci : clean ide) by (eapply encode_clean; [|exact Ei]; discriminate).
  (* the fields *)
  assert (Lf : length fs = 17) by (apply Forall2_len in Er; now rewrite <- Er).
  destruct (app_snoc2 fs 15 Lf) as (fs0 & er & hrs & -> & L0).
  change order_all with (map EF (firstn 15 order) ++ [EF Ferrors; Ehr]) in Er.
  apply Forall2_app_inv_l in Er as (q1 & q2 & F1 & F2 & Eq).
  assert (LQ : length q1 = 15) by (apply Forall2_len in F1; now rewrite <- F1).
  assert (q1 = fs0 /\ q2 = [er; hrs]) as [-> ->] by (apply app_len_inj; [congruence|now symmetry]).
  clear Eq LQ.
  assert (Fe : encode (EF Ferrors) (a Ferrors) = Ok er).
  { inversion F2 as [|? ? ? ? K _]; subst. cbn [get_e] in K. now rewrite G in K. }
  assert (Fh : (do v <- get_e dp m Ehr; encode Ehr v) = Ok hrs).
  { inversion F2 as [|? ? ? ? _ K]; subst. now inversion K. }
  assert (F1' : Forall2 (fun f s => encode (EF f) (mval f (a f)) = Ok s) (firstn 15 order) fs0).
  { clear - F1 G. revert fs0 F1. induction (firstn 15 order) as [|f l IH]; intros fs0 F1; inversion F1; subst; constructor.
    - cbn [get_e] in H1. now rewrite G in H1.
    - now apply IH. }
  assert (C0 : Forall clean fs0).
  { clear - F1'. assert (N : ~ In Ferrors (firstn 15 order)) by (simpl; intuition discriminate).
    revert fs0 F1' N. induction (firstn 15 order) as [|f l IH]; intros fs0 F1' N; inversion F1'; subst; constructor.
    - eapply encode_clean; [|eassumption]. intro K. inversion K; subst. apply N. now left.
    - apply IH; [assumption|]. intro K. apply N. now right. }
  assert (Chr : clean hrs /\ hrs <> []).
  { destruct (get_e dp m Ehr) as [v|] eqn:Ev; [|discriminate]. cbn [rbind] in Fh. split.
    - eapply encode_clean; [|exact Fh]. discriminate.
    - unfold get_e in Ev. destruct (m_size m); try (inversion Ev; subst; inversion Fh; discriminate).
      destruct (hr z) as [t|] eqn:Eh; [|discriminate]. inversion Ev; subst.
      rewrite encode_str_case in Fh by discriminate. apply enc_str_length in Fh. apply hr_nonempty in Eh.
      destruct t; [congruence|]. intros ->. discriminate. }
  destruct Chr as [Chr Nhr].
  destruct (T Ferrors) as [el Tel]. rewrite Tel in Fe. cbn in Fe. apply Ok_inj in Fe.
  assert (N0 : fs0 <> []) by (intros ->; discriminate).
  set (D := data_of (fs0 ++ [er; hrs])) in *.
  assert (ED : D = ($"." ++ write_version ++ $"." ++ join [46%N] fs0 ++ $".") ++ er ++ 46%N :: hrs).
  { unfold D, data_of. rewrite join_snoc2 by assumption. rewrite <- !app_assoc. reflexivity. }
  assert (CP : ~ In 47%N ($"." ++ write_version ++ $"." ++ join [46%N] fs0 ++ $".")).
  { rewrite !in_app_iff. intros [K|[K|[K|[K|K]]]]; try (simpl in K; intuition discriminate).
    now apply clean_join in K. }
  destruct Hc as (Hc & Hcc & Hcu & _).
  (* the id is not empty *)
  destruct (str_dec ide []) as [Ez|Nz].
  { exfalso. subst ide. cbn [app] in Hp.
    assert (Ep : pp_parse ($"/" ++ D) = mkPP true (comps D)).
    { pose proof (parse_cat [] D) as K. cbn [app] in K. rewrite K. reflexivity. }
    unfold pp_join in Hp. rewrite Ep in Hp. cbn [pp_abs] in Hp. subst p.
    unfold from_symlink in Hf. rewrite pp_parse_str in Hf by apply comps_norm.
    cbn [parts pp_abs pp_parts] in Hf.
    assert (NR : str_eqb ln $"/" = false).
    { apply str_eqb_neq. intros ->. destruct FN as (_ & _ & K). apply K. now left. }
    rewrite NR in Hf. cbn [negb andb] in Hf.
    destruct (comps D) as [|d [|d2 ds]] eqn:Ec; try (destruct lower; discriminate).
    apply from_parts_id in Hf as [v Hv].
    change ($"/" :: [d]) with (parts (mkPP true [d])) in Hv.
    rewrite pp_of_list_parts in Hv
      by (unfold norm_path; cbn [pp_parts]; rewrite <- Ec; apply comps_norm).
    change (pp_str (pp_parent (mkPP true [d]))) with $"/" in Hv.
    apply decode_id_length in Hv as (t & Ht & Hl); [|discriminate].
    specialize (Hc dp Fid eq_refl). cbn [getf] in Hc. rewrite Ht in Hc. apply Ok_inj in Hc.
    rewrite Gi, <- Hc in Ei. cbn in Hc. rewrite encode_str_case in Ei by discriminate.
    apply enc_str_length in Ei. rewrite Hl in Ei. discriminate. }
  assert (NI : norm_part ide) by now apply clean_norm.
  assert (Lid : forall s, a Fid = PStr s -> length ide = length s).
  { intros s Es. rewrite Gi, Es in Ei. rewrite encode_str_case in Ei by discriminate.
    now apply enc_str_length in Ei. }
  assert (Pt : pp_parse (ide ++ $"/" ++ D) = mkPP false (ide :: comps D)).
  { rewrite parse_cat, norm_part_not_slash, comps_one by assumption. reflexivity. }
  unfold pp_join in Hp. rewrite Pt in Hp. cbn [pp_abs pp_parts app] in Hp. subst p.
  unfold from_symlink in Hf.
  rewrite pp_parse_str in Hf
    by (unfold norm_path; cbn [pp_parts]; constructor; [assumption|constructor; [assumption|apply comps_norm]]).
  cbn [parts pp_abs pp_parts] in Hf. rewrite str_eqb_refl in Hf. cbn [negb andb] in Hf.
  (* no slash in the errors *)
  destruct (in_dec N.eq_dec 47%N er) as [Hs|Hs].
  { exfalso. destruct (last_occ _ _ Hs) as (u & v & Eu & Kv).
    set (P := $"." ++ write_version ++ $"." ++ join [46%N] fs0 ++ $".") in *.
    assert (E2 : comps D = comps (P ++ u) ++ [v ++ 46%N :: hrs]).
    { rewrite ED, Eu. rewrite <- app_assoc.
      replace (P ++ u ++ (47%N :: v) ++ 46%N :: hrs) with ((P ++ u) ++ slash :: (v ++ 46%N :: hrs))
        by (rewrite <- !app_assoc; reflexivity).
      rewrite comps_app. f_equal. apply comps_one. split.
      - unfold real_part. apply negb_true_iff, orb_false_iff. split; apply str_eqb_neq; intro K.
        + now apply app_eq_nil in K as [_ K].
        + apply (f_equal (@length N)) in K. rewrite app_length in K. simpl in K.
          destruct hrs; [congruence|]. simpl in K. lia.
      - intro K. apply in_app_or in K as [K|[K|K]]; [contradiction|discriminate|]. now apply Chr in K. }
    assert (E3 : comps (P ++ u) <> []).
    { assert (SP : exists r, P ++ u = $".mdv6." ++ r) by (eexists; unfold P; rewrite <- !app_assoc; reflexivity).
      destruct SP as [r ->]. unfold comps.
      rewrite split_prefix by (simpl; intuition discriminate).
      pose proof (split_nonempty slash r). destruct (split slash r); [congruence|discriminate]. }
    destruct (comps (P ++ u)) as [|c1 cs] eqn:E4; [congruence|]. rewrite E2 in Hf.
    cbn [app] in Hf.
    destruct (cs ++ [v ++ 46%N :: hrs]) as [|c2 cs2] eqn:E5; [now apply app_eq_nil in E5 as [_ E5]|].
    apply from_parts_id in Hf as [w Hw].
    assert (NP : Forall norm_part (ide :: c1 :: c2 :: cs2)).
    { constructor; [assumption|]. rewrite <- E5. change (c1 :: cs ++ [v ++ 46%N :: hrs]) with ((c1 :: cs) ++ [v ++ 46%N :: hrs]).
      rewrite <- E2. apply comps_norm. }
    rewrite pp_of_list_rel in Hw by assumption. unfold pp_parent in Hw. cbn [pp_abs pp_parts] in Hw.
    rewrite removelast_two, removelast_two in Hw.
    change (pp_str (mkPP false (ide :: c1 :: removelast (c2 :: cs2))))
      with (join [slash] (ide :: c1 :: removelast (c2 :: cs2))) in Hw.
    assert (LL : length ide < length (join [slash] (ide :: c1 :: removelast (c2 :: cs2)))).
    { rewrite join_cons, !app_length. simpl. lia. }
    apply decode_id_length in Hw as (t & Ht & Hl).
    2:{ intro K. rewrite K in LL. simpl in LL. destruct ide; [congruence|simpl in LL; lia]. }
    specialize (Hc dp Fid eq_refl). cbn [getf] in Hc. rewrite Ht in Hc. apply Ok_inj in Hc. cbn in Hc.
    apply eq_sym, Lid in Hc. lia. }
  assert (ND : norm_part D).
  { apply norm_data. rewrite join_snoc2 by assumption. rewrite !in_app_iff. simpl. rewrite in_app_iff. simpl.
    intros [K|[K|[K|[K|K]]]]; try discriminate; try contradiction; [now apply clean_join in K|now apply Chr in K]. }
  rewrite comps_one in Hf by assumption.
  unfold D in Hf. rewrite from_parts_two in Hf by assumption. fold D in Hf.
  (* the suffixes *)
  assert (SS : split 46 (join [46%N] (fs0 ++ [er; hrs])) = fs0 ++ split 46 er ++ [hrs]).
  { rewrite join_snoc2 by assumption.
    assert (SG : forall l r, l <> [] -> Forall clean l -> split 46 (join [46%N] l ++ 46%N :: r) = l ++ split 46 r).
    { clear. induction l as [|x l IH]; intros r H K; [congruence|]. inversion K as [|? ? K1 K2]; subst.
      destruct l as [|y l].
      - simpl. apply split_app. apply K1.
      - rewrite join_cons, <- !app_assoc. cbn [app]. rewrite split_app by apply K1.
        rewrite IH by (assumption || discriminate). reflexivity. }
    rewrite SG by assumption. f_equal. rewrite split_app_gen. f_equal. apply split_none. apply Chr. }
  rewrite SS in Hf. destruct (split 46 er) as [|e0 es] eqn:Es; [now apply split_nonempty in Es|].
  change order with (firstn 15 order ++ [Ferrors]) in Hf.
  assert (CB : combine (firstn 15 order ++ [Ferrors]) (fs0 ++ (e0 :: es) ++ [hrs])
               = combine (firstn 15 order) fs0 ++ [(Ferrors, e0)]).
  { assert (LF : length (firstn 15 order) = length fs0) by now rewrite L0.
    clear - LF. revert fs0 LF. induction (firstn 15 order) as [|f l IH]; intros [|s fs0] LF; simpl in LF; try discriminate.
    - reflexivity.
    - cbn [app combine]. f_equal. apply IH. lia. }
  rewrite CB in Hf.
  destruct (decode_all _ 6 no_args) as [a'|] eqn:Ed; [|discriminate]. cbn [rbind] in Hf.
  apply decode_all_inv in Ed as [Ed _].
  2:{ rewrite map_app, map_fst_combine by (rewrite L0; simpl; lia). exact order_nodup. }
  destruct (decode Fid ide 6) as [vid|] eqn:Ed2; [|discriminate]. cbn [rbind] in Hf.
  apply init_get in Hf as (J1 & J2 & J3 & J4 & J5 & J6 & J7).
  rewrite set_arg_other in J2, J3, J4, J5, J6, J7 by discriminate.
  (* values read equal the stored ones *)
  assert (V : forall f, f <> Fid -> f <> Ferrors -> a' f = stored f (a f)).
  { intros f N1 N2. destruct (is_stamp f) eqn:St.
    - destruct f; try discriminate.
      + pose proof (T Fcreated) as T5. cbn in T5. unfold stamp_text in Hcc.
        destruct T5 as [T5|[d T5]]; rewrite T5 in *; destruct Hcc as [K1 K2]; rewrite J4 in K1; rewrite J5 in K2;
          destruct (stamp_ok (a' Fcreated)); cbn [stored]; congruence.
      + pose proof (T Fupdated) as T5. cbn in T5. unfold stamp_text in Hcu.
        destruct T5 as [T5|[d T5]]; rewrite T5 in *; destruct Hcu as [K1 K2]; rewrite J6 in K1; rewrite J7 in K2;
          destruct (stamp_ok (a' Fupdated)); cbn [stored]; congruence.
    - destruct (field_eqb f Fsize) eqn:Fs.
      + apply field_eqb_eq in Fs. subst f. specialize (Hc dp Fsize eq_refl). cbn [getf] in Hc. apply Ok_inj in Hc.
        assert (DS : a' Fsize = PNone \/ exists z, a' Fsize = PInt z).
        { assert (K : exists s, In (Fsize, s) (combine (firstn 15 order) fs0 ++ [(Ferrors, e0)])).
          { destruct fs0 as [|x0 [|x1 fs0]]; try discriminate. exists x1. right. now left. }
          destruct K as [s K]. apply Ed in K. unfold decode in K. destruct (str_eqb s empty); [left; congruence|].
          destruct (py_int s) as [z|]; [|discriminate]. right. exists z. congruence. }
        pose proof (T Fsize) as T3. cbn [stored].
        destruct T3 as [T3|[z [T3 _]]]; rewrite T3 in *; destruct DS as [DS|[z' DS]]; rewrite DS in *; cbn in J2; congruence.
      + assert (f <> Fsize) by (intros ->; discriminate).
        specialize (Hc dp f St). rewrite (J1 dp f St) in Hc by assumption.
        rewrite set_arg_other in Hc by congruence. apply Ok_inj in Hc.
        destruct f; try congruence; try discriminate; exact Hc. }
  assert (W : forall f, f <> Fid -> f <> Ferrors -> weak_safe f (a f)).
  { intros f N1 N2.
    assert (K : exists s, In (f, s) (combine (firstn 15 order) fs0) /\ encode (EF f) (mval f (a f)) = Ok s).
    { assert (Hin : In f (firstn 15 order)).
      { pose proof (order_all_fields f N1) as K. change order with (firstn 15 order ++ [Ferrors]) in K.
        apply in_app_or in K as [K|[K|[]]]; congruence. }
      clear - Hin F1'. revert Hin. induction F1' as [|g s l l' H F IH]; intros [].
      - subst. exists s. split; [now left|assumption].
      - destruct (IH H0) as (t & K1 & K2). exists t. split; [now right|assumption]. }
    destruct K as (s & K1 & K2). eapply weak_bwd; [apply T|exact K2|].
    rewrite (Ed f s) by (apply in_or_app; now left). now rewrite V. }
  (* the errors *)
  assert (Me : m_errors m' = el).
  { specialize (Hc dp Ferrors eq_refl). cbn [getf] in Hc. apply Ok_inj in Hc. rewrite Tel in Hc. congruence. }
  assert (De : decode Ferrors e0 6 = Ok (a' Ferrors)) by (apply Ed, in_or_app; right; now left).
  rewrite Me in J3.
  assert (NE : forall e, In e el -> ~ In 46%N e).
  { intros e He. unfold decode in De. destruct (str_eqb e0 empty) eqn:E0.
    - rewrite <- (Ok_inj _ _ De) in J3. cbn in J3. apply Ok_inj in J3. subst el. destruct He.
    - apply Ok_inj in De. rewrite <- De in J3. unfold errors_tuple in J3.
      assert (J3' : filter (fun x => negb (str_eqb x [])) (split c_subfieldsep e0) = el).
      { destruct (filter (fun x => negb (str_eqb x [])) (split c_subfieldsep e0)) eqn:Q; cbn in J3; congruence. }
      rewrite <- J3' in He. apply filter_In in He as [He _]. intro K.
      assert (K2 : In 46%N e0).
      { rewrite <- (join_split c_subfieldsep e0). clear - He K. induction (split c_subfieldsep e0) as [|x l IH]; [destruct He|].
        destruct l as [|y l]; [destruct He as [->|[]]; exact K|]. rewrite join_cons. apply in_or_app.
        destruct He as [->|He]; [now left|]. right. apply in_or_app. right. now apply IH. }
      revert K2. apply (split_parts 46 er). rewrite Es. now left. }
  assert (CE : ~ In 46%N er).
  { rewrite <- Fe. intro K. apply join_In in K as [[K|[]]|[x [K1 K2]]]; [discriminate|]. now apply NE in K1. }
  assert (e0 = er) by (rewrite (split_none 46 er CE) in Es; congruence). subst e0.
  assert (Ve : decode Ferrors er 6 = Ok (PStrs el)).
  { rewrite De. f_equal. unfold decode in De. destruct (str_eqb er empty) eqn:E0.
    - rewrite <- (Ok_inj _ _ De) in J3. cbn in J3. apply Ok_inj in J3. subst el. rewrite <- Fe in E0. discriminate.
    - apply Ok_inj in De. rewrite <- De in *. unfold errors_tuple in J3.
      destruct (filter (fun x => negb (str_eqb x [])) (split c_subfieldsep er)) eqn:Q; cbn in J3; congruence. }
  assert (We : weak_safe Ferrors (a Ferrors)).
  { eapply weak_bwd; [apply T| |]; rewrite Tel; [cbn; rewrite Fe; reflexivity|exact Ve]. }
  (* the id *)
  assert (Wi : weak_safe Fid (a Fid)).
  { eapply weak_bwd; [apply T|cbn [mval]; rewrite <- Gi; exact Ei|]. rewrite Ed2. f_equal.
    specialize (Hc dp Fid eq_refl). rewrite (J1 dp Fid eq_refl) in Hc by discriminate.
    rewrite set_arg_same in Hc. apply Ok_inj in Hc. exact Hc. }
  intro f. destruct (field_eqb f Fid) eqn:Q1; [apply field_eqb_eq in Q1; subst f|].
  { pose proof (T Fid) as T2. destruct T2 as [T2|[s T2]]; rewrite T2 in *; [exact Logic.I|]. cbn in Wi. cbn.
    split; [|exact Wi]. intros ->. apply Nz. specialize (Lid [] eq_refl). now destruct ide. }
  destruct (field_eqb f Ferrors) eqn:Q2; [apply field_eqb_eq in Q2; subst f|].
  { rewrite Tel in *. cbn in We. destruct We as [We1 We2]. cbn. split; [exact We1|].
    intros e He. destruct (We2 e He) as [X1 X2]. split; [exact X1|]. split; [exact X2|]. split; [now apply NE|].
    intro K. apply Hs. rewrite <- Fe. clear - He K.
    induction el as [|x l IH]; [destruct He|]. destruct l as [|y l]; [destruct He as [->|[]]; exact K|].
    change $";" with [59%N]. rewrite join_cons. apply in_or_app. destruct He as [->|He]; [now left|].
    right. apply in_or_app. right. now apply IH. }
  assert (N1 : f <> Fid) by (intros ->; discriminate). assert (N2 : f <> Ferrors) by (intros ->; discriminate).
  specialize (W f N1 N2). destruct f; try congruence; try exact W;
    match goal with |- link_safe_field _ (a ?g) => destruct (a g); exact W end.
Qed.
