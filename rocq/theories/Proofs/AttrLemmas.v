(** * Attributes of a file as metadata *)
From Coq Require Import String NArith ZArith Bool List Lia.
From Verif Require Import Model.Py Model.PurePath Model.Meta Model.MetaEncode Model.MetaXattr Model.MetaSymlink
  Model.Fs Model.Sparse Model.Cache Spec.FsSpec Spec.MetaSpec Spec.XattrSpec Spec.CacheSpec
  Proofs.PyLemmas Proofs.PathLemmas Proofs.MetaSymlinkProofs Proofs.MetaXattrProofs Proofs.SparseProofs Proofs.CacheLemmas.
Import ListNotations.

(** ** Text decodes from one sequence of bytes only *)
Lemma div_mod_64 a b : (b < 64)%N -> ((a * 64 + b) / 64 = a /\ (a * 64 + b) mod 64 = b)%N.
Proof.
  intro H. rewrite (N.add_comm (a * 64)), N.div_add, N.mod_add by lia. rewrite N.div_small, N.mod_small by assumption. now rewrite N.add_0_l.
Qed.
Lemma cont_spec b : cont b = true -> (128 <= b <= 191)%N.
Proof. unfold cont. rewrite andb_true_iff, !N.leb_le. auto. Qed.

Lemma utf8_dec_N_enc n : forall s t, (length s <= n)%nat -> utf8_dec_N s = Some t -> flat_map utf8_enc1 t = s.
Proof.
  induction n as [|n IH]; intros s t Hn H.
  { destruct s; [|cbn [length] in Hn; lia]. injection H as <-. reflexivity. }
  destruct s as [|a r]; [injection H as <-; reflexivity|]. cbn [utf8_dec_N] in H. cbn [length] in Hn.
  destruct (N.ltb_spec a 128).
  { destruct (utf8_dec_N r) as [u|] eqn:E; [|discriminate]. injection H as <-. cbn [flat_map]. rewrite (IH r u) by (assumption || lia).
    unfold utf8_enc1. destruct (N.ltb_spec a 128); [reflexivity|lia]. }
  destruct ((194 <=? a)%N && (a <=? 223)%N)%bool eqn:B2.
  { apply andb_true_iff in B2. rewrite !N.leb_le in B2. destruct r as [|b r]; [discriminate|]. destruct (cont b) eqn:Cb; [|discriminate].
    destruct (utf8_dec_N r) as [u|] eqn:E; [|discriminate]. injection H as <-. cbn [flat_map]. cbn [length] in Hn. rewrite (IH r u) by (assumption || lia).
    apply cont_spec in Cb. destruct (div_mod_64 (a - 192) (b - 128)) as [D1 M1]; [lia|].
    unfold utf8_enc1. set (v := ((a - 192) * 64 + (b - 128))%N) in *. destruct (N.ltb_spec v 128); [lia|]. destruct (N.ltb_spec v 2048); [|lia].
    rewrite D1, M1. cbn [app]. f_equal; [lia|]. f_equal. lia. }
  destruct ((224 <=? a)%N && (a <=? 239)%N)%bool eqn:B3.
  { apply andb_true_iff in B3. rewrite !N.leb_le in B3. destruct r as [|b [|c r]]; try discriminate.
    set (v := ((a - 224) * 4096 + (b - 128) * 64 + (c - 128))%N) in *.
    destruct (cont b && cont c && (2048 <=? v)%N && scalar v)%bool eqn:C; [|discriminate].
    rewrite !andb_true_iff in C. destruct C as [[[Cb Cc] Cv] _]. apply N.leb_le in Cv.
    destruct (utf8_dec_N r) as [u|] eqn:E; [|discriminate]. injection H as <-. cbn [flat_map]. cbn [length] in Hn. rewrite (IH r u) by (assumption || lia).
    apply cont_spec in Cb, Cc. destruct (div_mod_64 ((a - 224) * 64 + (b - 128)) (c - 128)) as [D1 M1]; [lia|].
    destruct (div_mod_64 (a - 224) (b - 128)) as [D2 M2]; [lia|].
    assert (Ev : v = (((a - 224) * 64 + (b - 128)) * 64 + (c - 128))%N) by (subst v; lia). rewrite <- Ev in D1, M1.
    assert (D3 : (v / 4096 = a - 224)%N) by (replace 4096%N with (64 * 64)%N by reflexivity; rewrite <- N.div_div by lia; rewrite D1; exact D2).
    unfold utf8_enc1. destruct (N.ltb_spec v 128); [lia|]. destruct (N.ltb_spec v 2048); [lia|]. destruct (N.ltb_spec v 65536); [|lia].
    rewrite D3, D1, M2, M1. cbn [app]. f_equal; [lia|]. f_equal; [lia|]. f_equal. lia. }
  destruct ((240 <=? a)%N && (a <=? 244)%N)%bool eqn:B4; [|discriminate].
  apply andb_true_iff in B4. rewrite !N.leb_le in B4. destruct r as [|b [|c [|d r]]]; try discriminate.
  set (v := ((a - 240) * 262144 + (b - 128) * 4096 + (c - 128) * 64 + (d - 128))%N) in *.
  destruct (cont b && cont c && cont d && (65536 <=? v)%N && scalar v)%bool eqn:C; [|discriminate].
  rewrite !andb_true_iff in C. destruct C as [[[[Cb Cc] Cd] Cv] _]. apply N.leb_le in Cv.
  destruct (utf8_dec_N r) as [u|] eqn:E; [|discriminate]. injection H as <-. cbn [flat_map]. cbn [length] in Hn. rewrite (IH r u) by (assumption || lia).
  apply cont_spec in Cb, Cc, Cd.
  destruct (div_mod_64 (((a - 240) * 64 + (b - 128)) * 64 + (c - 128)) (d - 128)) as [D1 M1]; [lia|].
  destruct (div_mod_64 ((a - 240) * 64 + (b - 128)) (c - 128)) as [D2 M2]; [lia|].
  destruct (div_mod_64 (a - 240) (b - 128)) as [D3 M3]; [lia|].
  assert (Ev : v = ((((a - 240) * 64 + (b - 128)) * 64 + (c - 128)) * 64 + (d - 128))%N) by (subst v; lia). rewrite <- Ev in D1, M1.
  assert (D4 : (v / 4096 = (a - 240) * 64 + (b - 128))%N) by (replace 4096%N with (64 * 64)%N by reflexivity; rewrite <- N.div_div by lia; rewrite D1; exact D2).
  assert (D5 : (v / 262144 = a - 240)%N) by (replace 262144%N with (4096 * 64)%N by reflexivity; rewrite <- N.div_div by lia; rewrite D4; exact D3).
  unfold utf8_enc1. destruct (N.ltb_spec v 128); [lia|]. destruct (N.ltb_spec v 2048); [lia|]. destruct (N.ltb_spec v 65536); [lia|].
  rewrite D5, D4, D1, M3, M2, M1. cbn [app]. f_equal; [lia|]. f_equal; [lia|]. f_equal; [lia|]. f_equal. lia.
Qed.

Lemma to_N_inj a b : Byte.to_N a = Byte.to_N b -> a = b.
Proof. intro H. apply (f_equal Byte.of_N) in H. rewrite !Byte.of_to_N in H. congruence. Qed.
Lemma map_to_N_inj a : forall b, map Byte.to_N a = map Byte.to_N b -> a = b.
Proof.
  induction a as [|x a IH]; intros [|y b] H; try discriminate; [reflexivity|]. cbn [map] in H. injection H as H1 H2.
  f_equal; [now apply to_N_inj|now apply IH].
Qed.
Lemma dec_inj a b s : dec a = Ok s -> dec b = Ok s -> a = b.
Proof.
  unfold dec, utf8_dec. intros Ha Hb.
  destruct (utf8_dec_N (map Byte.to_N a)) as [u|] eqn:Ea; [|discriminate]. destruct (utf8_dec_N (map Byte.to_N b)) as [v|] eqn:Eb; [|discriminate].
  apply Ok_inj in Ha. apply Ok_inj in Hb. subst u v.
  apply (utf8_dec_N_enc _ _ _ (le_n _)) in Ea. apply (utf8_dec_N_enc _ _ _ (le_n _)) in Eb. apply map_to_N_inj. congruence.
Qed.

(** ** Attributes by their key *)
Lemma text_key_text k : text_key (key_text k) = Some k.
Proof. induction k as [|b k IH]; [reflexivity|]. cbn [key_text map text_key fold_right] in *. unfold text_key, key_text in IH. rewrite IH, Byte.of_to_N. reflexivity. Qed.
Lemma text_key_inv s : forall k, text_key s = Some k -> s = key_text k.
Proof.
  induction s as [|c s IH]; intros k H; [injection H as <-; reflexivity|]. cbn [text_key fold_right] in H. fold (text_key s) in H.
  destruct (text_key s) as [l|]; [|discriminate]. destruct (Byte.of_N c) as [b|] eqn:E; [|discriminate]. injection H as <-.
  cbn [key_text map]. rewrite (IH l eq_refl). f_equal. symmetry. now apply Byte.to_of_N.
Qed.
Lemma key_text_inj a b : key_text a = key_text b -> a = b.
Proof. apply map_to_N_inj. Qed.

Definition first (k : bytes) (ys : MetaXattr.xattrs) : option bytes :=
  match find (fun e => bytes_eqb (fst e) k) ys with Some (_, v) => Some v | None => None end.
Lemma xkey_inj a b : xkey a = xkey b -> a = b.
Proof. apply app_inv_head. Qed.

Lemma bytes_eqb_eq a b : bytes_eqb a b = true <-> a = b.
Proof.
  split.
  - revert b. induction a as [|x a IH]; intros [|y b] H; try discriminate; [reflexivity|]. cbn in H. apply andb_true_iff in H as [H1 H2].
    f_equal; [|now apply IH]. now apply Byte.byte_dec_bl.
  - intros <-. induction a as [|x a IH]; [reflexivity|]. cbn. apply andb_true_iff. split; [now apply Byte.byte_dec_lb|exact IH].
Qed.

Lemma first_user k xs : first k (user_attrs xs) = xget (xkey (key_text k)) xs.
Proof.
  induction xs as [|[n v] xs IH]; [reflexivity|]. unfold user_attrs in *. cbn [flat_map fst snd]. unfold xget in *. cbn [find fst].
  destruct (startswith n $"user.") eqn:S.
  - apply startswith_spec in S as (s & ->). change (skipn 5 ($"user." ++ s)) with s.
    destruct (text_key s) as [l|] eqn:T.
    + apply text_key_inv in T. subst s. cbn [app]. unfold first in *. cbn [find fst]. destruct (bytes_eqb l k) eqn:B.
      * apply bytes_eqb_eq in B. subst l. change ($"user." ++ key_text k) with (xkey (key_text k)). now rewrite str_eqb_refl.
      * destruct (str_eqb ($"user." ++ key_text l) (xkey (key_text k))) eqn:E; [|exact IH]. exfalso. apply str_eqb_eq in E.
        apply (app_inv_head $"user.") in E. apply key_text_inj in E. subst l. assert (Z : bytes_eqb k k = true) by now apply bytes_eqb_eq. congruence.
    + cbn [app]. destruct (str_eqb ($"user." ++ s) (xkey (key_text k))) eqn:E; [|exact IH]. exfalso. apply str_eqb_eq in E.
      apply (app_inv_head $"user.") in E. subst s. rewrite text_key_text in T. discriminate.
  - cbn [app]. destruct (str_eqb n (xkey (key_text k))) eqn:E; [|exact IH]. exfalso. apply str_eqb_eq in E. subst n.
    unfold xkey in S. rewrite startswith_app in S. discriminate.
Qed.

(** ** One field read back *)
Section Read.
Variables (legacy : bytes -> res pyval) (prefix : option str).

Lemma kwargs_first f kb ys kws : own_key prefix f kb -> x_kwargs legacy prefix ys = Ok kws ->
  match first kb ys with
  | Some v => exists w, x_decode legacy f v = Ok w /\ MetaXattr.lookup (field_name f) kws = Some w
  | None => MetaXattr.lookup (field_name f) kws = None
  end.
Proof.
  intros O. revert kws. induction ys as [|[k v] ys IH]; intros kws H.
  { apply Ok_inj in H. now subst kws. }
  cbn [x_kwargs] in H. destruct (dec k) as [k0|] eqn:Dk; [|discriminate]. cbn [rbind] in H.
  unfold first. cbn [find fst]. destruct (bytes_eqb k kb) eqn:B.
  - apply bytes_eqb_eq in B. subst k. unfold own_key in O. rewrite O in Dk. apply Ok_inj in Dk. subst k0. rewrite deprefix_key, field_of_name in H.
    destruct (x_decode legacy f v) as [w|] eqn:Ew; [|discriminate]. cbn [rbind] in H. destruct (x_kwargs legacy prefix ys) as [ws|]; [|discriminate]. cbn [rbind] in H.
    apply Ok_inj in H. subst kws. exists w. split; [reflexivity|]. unfold MetaXattr.lookup. cbn [find fst]. now rewrite str_eqb_refl.
  - assert (Nk : k0 <> x_key prefix (field_name f)).
    { intros ->. assert (k = kb) by (eapply dec_inj; [exact Dk|exact O]). subst k. assert (Z : bytes_eqb kb kb = true) by now apply bytes_eqb_eq. congruence. }
    destruct (deprefix prefix k0) as [n|] eqn:Dp.
    + destruct (match field_of n with Some f0 => x_decode legacy f0 v | None => Ok (PBytes v) end) as [w|]; [|discriminate]. cbn [rbind] in H.
      destruct (x_kwargs legacy prefix ys) as [ws|] eqn:Ek; [|discriminate]. cbn [rbind] in H. apply Ok_inj in H. subst kws.
      specialize (IH ws eq_refl). unfold first in IH. unfold MetaXattr.lookup in *. cbn [find fst].
      destruct (str_eqb n (field_name f)) eqn:En; [|exact IH]. exfalso. apply str_eqb_eq in En. subst n. apply deprefix_some in Dp. congruence.
    + now apply IH.
Qed.

(** what a field of the metadata read comes from *)
Lemma read_field f kb ys m : own_key prefix f kb -> from_xattrs legacy ys prefix = Ok m ->
  exists kws a x, meta_init_x a x = Ok m /\ a = kw_args kws /\
    match first kb ys with Some v => x_decode legacy f v = Ok (a f) | None => a f = no_args f end.
Proof.
  intros O H. unfold from_xattrs in H. destruct (x_kwargs legacy prefix ys) as [kws|] eqn:Ek; [|discriminate]. cbn [rbind] in H. unfold call_pathmeta in H.
  destruct (existsb (fun p => str_eqb (fst p) $"self") kws); [discriminate|]. exists kws, (kw_args kws), (extras kws). split; [assumption|]. split; [reflexivity|].
  pose proof (kwargs_first f kb ys kws O Ek) as Q. unfold kw_args. destruct (first kb ys) as [v|].
  - destruct Q as (w & Q1 & Q2). now rewrite Q2.
  - now rewrite Q.
Qed.
End Read.

(** ** Setting attributes one after the other *)
Lemma setall_cons kv l xs : setall (kv :: l) xs = setall l (xset (xkey (key_text (fst kv))) (snd kv) xs).
Proof. reflexivity. Qed.
Lemma setall_other l key : forall xs, (forall k v, In (k, v) l -> key <> xkey (key_text k)) -> xget key (setall l xs) = xget key xs.
Proof.
  induction l as [|[k v] l IH]; intros xs H; [reflexivity|]. rewrite setall_cons, IH by (intros; apply (H k0 v0); now right).
  cbn [fst snd]. rewrite xget_xset. assert (N : key <> xkey (key_text k)) by (apply (H k v); now left).
  destruct (str_eqb (xkey (key_text k)) key) eqn:E; [|reflexivity]. apply str_eqb_eq in E. congruence.
Qed.
Lemma setall_some l key : forall xs, xget key xs <> None -> xget key (setall l xs) <> None.
Proof.
  induction l as [|[k v] l IH]; intros xs H; [assumption|]. rewrite setall_cons. apply IH. rewrite xget_xset. now destruct (str_eqb _ key).
Qed.
Lemma setall_in l k b : forall xs, NoDup (map fst l) -> In (k, b) l -> xget (xkey (key_text k)) (setall l xs) = Some b.
Proof.
  induction l as [|[k' v] l IH]; intros xs N I; [contradiction|]. cbn [map fst] in N. inversion N as [|? ? N1 N2]; subst. rewrite setall_cons. cbn [fst snd].
  destruct I as [I|I]; [|now apply IH]. injection I as -> ->. rewrite setall_other.
  - rewrite xget_xset, str_eqb_refl. reflexivity.
  - intros k0 v0 I E. apply xkey_inj, key_text_inj in E. subst k0. apply N1. apply in_map_iff. now exists (k, v0).
Qed.
Lemma firstn_In {A} n (l : list A) x : In x (firstn n l) -> In x l.
Proof. revert l. induction n as [|n IH]; intros [|y l]; cbn [firstn]; try contradiction. intros [->|H]; [now left|right; auto]. Qed.
Lemma setall_part l k n : forall xs, xget (xkey (key_text k)) (setall (firstn n l) xs) = xget (xkey (key_text k)) xs \/
  exists b, In (k, b) l /\ xget (xkey (key_text k)) (setall (firstn n l) xs) = Some b.
Proof.
  assert (H : forall l xs, xget (xkey (key_text k)) (setall l xs) = xget (xkey (key_text k)) xs \/ exists b, In (k, b) l /\ xget (xkey (key_text k)) (setall l xs) = Some b).
  { clear l. induction l as [|[k' v] l IH]; intro xs; [now left|]. rewrite setall_cons. cbn [fst snd].
    destruct (IH (xset (xkey (key_text k')) v xs)) as [E|(b & I & E)]; [|right; exists b; split; [now right|assumption]].
    rewrite xget_xset in E. destruct (str_eqb (xkey (key_text k')) (xkey (key_text k))) eqn:Ek; [|now left]. right. exists v. split; [|assumption]. left.
    apply str_eqb_eq, xkey_inj, key_text_inj in Ek. congruence. }
  intro xs. destruct (H (firstn n l) xs) as [E|(b & I & E)]; [now left|]. right. exists b. split; [|assumption]. now apply firstn_In in I.
Qed.

(** ** Metadata with a mismatch recorded *)
Lemma split_around c x : ~ In c x -> forall a b, (a = [] \/ exists a', a = a' ++ [c]) -> (b = [] \/ exists b', b = c :: b') -> In x (split c (a ++ x ++ b)).
Proof.
  intros N a b Ha Hb.
  assert (R : In x (split c (x ++ b))).
  { destruct Hb as [->|(b' & ->)]; [rewrite app_nil_r, split_none by assumption; now left|]. rewrite split_app by assumption. now left. }
  destruct Ha as [->|(a' & ->)]; [assumption|]. rewrite <- app_assoc. cbn [app]. rewrite split_app_gen. apply in_app_iff. now right.
Qed.
Lemma segment c l x : ~ In c x -> In x l -> In x (split c (join [c] l)).
Proof.
  intros N I.
  assert (E : exists a b, join [c] l = a ++ x ++ b /\ (a = [] \/ exists a', a = a' ++ [c]) /\ (b = [] \/ exists b', b = c :: b')).
  { induction l as [|y l IH]; [contradiction|]. destruct l as [|z l].
    - destruct I as [->|[]]. exists [], []. cbn [join app]. rewrite app_nil_r. split; [reflexivity|]. split; now left.
    - change (join [c] (y :: z :: l)) with (y ++ c :: join [c] (z :: l)). destruct I as [->|I].
      + exists [], (c :: join [c] (z :: l)). split; [reflexivity|]. split; [now left|]. right. eauto.
      + destruct (IH I) as (a & b & E & Ha & Hb). rewrite E. exists (y ++ c :: a), b. split; [now rewrite <- !app_assoc|]. split; [|assumption]. right.
        destruct Ha as [->|(a' & ->)]; [now exists y|]. exists (y ++ c :: a'). now rewrite <- app_assoc. }
  destruct E as (a & b & -> & Ha & Hb). now apply split_around.
Qed.

Lemma init_errors a x m : meta_init_x a x = Ok m -> errors_tuple (a Ferrors) = Ok (m_errors m).
Proof.
  unfold meta_init_x. intro H. repeat (match type of H with (if ?b then _ else _) = _ => destruct b; [discriminate|] end).
  match type of H with (do _ <- ?b ; _) = _ => destruct b; [cbn [rbind] in H|discriminate] end.
  destruct (errors_tuple (a Ferrors)); [|discriminate]. cbn [rbind] in H. apply Ok_inj in H. now subst m.
Qed.

Section Mismatch.
Variables (dp : pyval -> res pyval) (legacy : bytes -> res pyval) (prefix : option str).

Lemma mismatch_read nm l xs m : In mismatch (m_errors nm) -> as_xattrs dp nm prefix = Ok l ->
  from_xattrs legacy (user_attrs (setall l xs)) prefix = Ok m -> In mismatch (m_errors m).
Proof.
  intros Ee El Em. pose proof (write_nodup dp _ _ _ _ x_fields_nodup El) as Nl.
  pose proof (write_inv dp _ _ _ _ El) as W.
  (* the attribute that was written *)
  assert (Sv : exists kb b, In (kb, b) l /\ enc (x_key prefix (field_name Ferrors)) = Ok kb /\ x_encode Ferrors (PStrs (m_errors nm)) = Ok (PBytes b)).
  { assert (Bl : (is_none (PStrs (m_errors nm)) || empty_iterable (PStrs (m_errors nm)))%bool = false) by (destruct (m_errors nm); [contradiction|reflexivity]).
    unfold as_xattrs in El. revert El. generalize (x_fields_all Ferrors). clear W Nl Em. generalize x_fields. intros fl If. revert l.
    induction fl as [|f fl IH]; [contradiction|]. intros l El. cbn [as_xattrs_from] in El.
    destruct (getf dp nm f) as [v|] eqn:Eg; [|discriminate]. cbn [rbind] in El. destruct If as [->|If].
    - cbn [getf] in Eg. apply Ok_inj in Eg. subst v. rewrite Bl in El. destruct (x_encode Ferrors (PStrs (m_errors nm))) as [w|] eqn:Ew; [|discriminate]. cbn [rbind] in El.
      destruct (enc (x_key prefix (field_name Ferrors))) as [kb|] eqn:Ek; [|discriminate]. cbn [rbind] in El. destruct w as [| | | |b| | |]; try discriminate.
      destruct (as_xattrs_from dp fl nm prefix) as [out|]; [|discriminate]. cbn [rbind] in El. apply Ok_inj in El. subst l. exists kb, b. split; [now left|]. now split.
    - destruct (is_none v || empty_iterable v)%bool; [now apply (IH If)|]. destruct (x_encode f v) as [w|]; [|discriminate]. cbn [rbind] in El.
      destruct (enc (x_key prefix (field_name f))) as [kb|]; [|discriminate]. cbn [rbind] in El. destruct w as [| | | |b| | |]; try discriminate.
      destruct (as_xattrs_from dp fl nm prefix) as [out|] eqn:Eo; [|discriminate]. cbn [rbind] in El. apply Ok_inj in El. subst l.
      destruct (IH If out eq_refl) as (kb' & b' & I & Q). exists kb', b'. split; [now right|assumption]. }
  destruct Sv as (kb & b & Il & Ek & Eb). apply enc_inv in Ek as (_ & Dk & _).
  destruct (read_field legacy prefix Ferrors kb _ m Dk Em) as (kws & a & x & Ei & _ & Q).
  rewrite first_user, (setall_in l kb b xs Nl Il) in Q. cbn [x_decode] in Q.
  unfold x_encode in Eb. destruct (is_none (PStrs (m_errors nm)) || empty_iterable (PStrs (m_errors nm)))%bool; [discriminate|].
  unfold bytes_encode in Eb. cbn [str_encode join_semi rbind] in Eb. destruct (enc (join $";" (m_errors nm))) as [b'|] eqn:En; [|discriminate]. cbn [rbind] in Eb.
  apply Ok_inj in Eb. injection Eb as ->. apply enc_inv in En as (_ & Db & _). rewrite Db in Q. cbn [rbind] in Q. apply Ok_inj in Q.
  apply init_errors in Ei. rewrite <- Q in Ei. unfold errors_tuple in Ei.
  assert (Im : In mismatch (filter (fun x => negb (str_eqb x [])) (split (chr ";") (join $";" (m_errors nm))))).
  { apply filter_In. split; [|reflexivity]. apply (segment (chr ";")); [|assumption]. intro N. cbn in N. repeat (destruct N as [N|N]; [discriminate|]). contradiction. }
  destruct (truthy _) eqn:Tr; cycle 1.
  - exfalso. cbn [truthy] in Tr. destruct (filter _ _); [contradiction|discriminate].
  - apply Ok_inj in Ei. now rewrite <- Ei.
Qed.

(** what the metadata has in a plain field, given the argument *)
Definition shown_as (f : field) (v : pyval) : pyval := match f, v with Fsize, PInt z => PSize z | _, _ => v end.
Lemma init_plain a x m f : meta_init_x a x = Ok m -> plain f = true -> (f = Fsize -> a f = PNone \/ (exists z, a f = PInt z) \/ exists z, a f = PSize z) ->
  getf dp m f = Ok (shown_as f (a f)).
Proof.
  unfold meta_init_x. intros H Hp Hs. repeat (match type of H with (if ?b then _ else _) = _ => destruct b; [discriminate|] end).
  destruct (match a Fsize with PNone => Ok PNone | v => filesize v end) as [sz|] eqn:Es; [cbn [rbind] in H|discriminate].
  destruct (errors_tuple (a Ferrors)); [|discriminate]. cbn [rbind] in H. apply Ok_inj in H. subst m.
  destruct f; try discriminate; try reflexivity. cbn [getf m_size]. f_equal.
  destruct (Hs eq_refl) as [E|[(z & E)|(z & E)]]; rewrite E in Es |- *; apply Ok_inj in Es; subst sz; reflexivity.
Qed.

Lemma decode_plain f v w b : plain f = true -> x_decode legacy f v = Ok w -> (is_none (shown_as f w) || empty_iterable (shown_as f w))%bool = false ->
  x_encode f (shown_as f w) = Ok (PBytes b) -> x_decode legacy f b = Ok w.
Proof.
  intros Hp Hd Hb He. unfold x_encode in He. rewrite Hb in He. unfold bytes_encode in He.
  assert (T : forall s, w = PStr s -> (do out <- str_encode f (PStr s) ; match out with PStr s => do b <- enc s ; Ok (PBytes b) | _ => Ok out end) = Ok (PBytes b) -> dec b = Ok s).
  { intros s _ Q. cbn [str_encode rbind] in Q. destruct (enc s) as [b'|] eqn:En; [|discriminate]. cbn [rbind] in Q. apply Ok_inj in Q. injection Q as ->. now apply enc_inv in En. }
  assert (Z1 : forall z, (do b <- enc (dec_Z z) ; Ok (PBytes b)) = Ok (PBytes b) -> int_bytes b = Some z).
  { intros z Q. destruct (enc (dec_Z z)) as [b'|] eqn:En; [|discriminate]. cbn [rbind] in Q. apply Ok_inj in Q. injection Q as ->. apply enc_inv in En as (_ & _ & En).
    now rewrite (int_bytes_enc _ _ En), py_int_dec. }
  destruct f; try discriminate; cbn [x_decode shown_as] in *;
    try (destruct (dec v) as [s|]; [|discriminate]; cbn [rbind] in Hd; apply Ok_inj in Hd; subst w; rewrite (T s eq_refl He); reflexivity);
    try (destruct (int_bytes v) as [z|]; [|discriminate]; apply Ok_inj in Hd; subst w; cbn [str_encode py_str rbind] in He; rewrite (Z1 z He); reflexivity).
  apply Ok_inj in Hd. subst w. apply Ok_inj in He. now injection He as ->.
Qed.
End Mismatch.

(** The fields are what they were while the mismatch is being written. *)
Section Kept.
Variables (K : conf) (xs : Fs.xattrs) (m nm : pathmeta) (l : MetaXattr.xattrs) (n : nat) (kws : list (str * pyval)).
Hypothesis Hp : prefix_ok (c_prefix K).
Hypothesis Ek : x_kwargs (c_legacy K) (c_prefix K) (user_attrs xs) = Ok kws.
Hypothesis Ei : meta_init_x (kw_args kws) (extras kws) = Ok m.
Hypothesis En : with_mismatch K m = Ok nm.
Hypothesis El : as_xattrs (c_dateparse K) nm (c_prefix K) = Ok l.

Lemma kw_field f kb ys k : own_key (c_prefix K) f kb -> x_kwargs (c_legacy K) (c_prefix K) ys = Ok k ->
  match first kb ys with Some v => x_decode (c_legacy K) f v = Ok (kw_args k f) | None => kw_args k f = no_args f end.
Proof.
  intros O E. pose proof (kwargs_first (c_legacy K) (c_prefix K) f kb ys k O E) as Q. unfold kw_args. destruct (first kb ys) as [v|].
  - destruct Q as (w & Q1 & Q2). now rewrite Q2.
  - now rewrite Q.
Qed.
Lemma int_size v b : x_decode (c_legacy K) Fsize b = Ok v -> exists z, v = PInt z.
Proof. intro E. cbn [x_decode] in E. destruct (int_bytes b) as [z|]; [|discriminate]. apply Ok_inj in E. eauto. Qed.
Lemma arg_size ys k : x_kwargs (c_legacy K) (c_prefix K) ys = Ok k -> kw_args k Fsize = PNone \/ exists z, kw_args k Fsize = PInt z.
Proof.
  intro E. destruct (key_ok (c_prefix K) Fsize Hp) as (kb & _ & Dk). pose proof (kw_field Fsize kb ys k Dk E) as Q.
  destruct (first kb ys); [right; now apply int_size in Q|now left].
Qed.
Lemma got f : plain f = true -> getf (c_dateparse K) m f = Ok (shown_as f (kw_args kws f)).
Proof.
  intro Hf. apply (init_plain (c_dateparse K) (kw_args kws) (extras kws)); try assumption. intros ->.
  destruct (arg_size _ _ Ek) as [E|E]; [now left|right; now left].
Qed.
(** the value in the metadata with the mismatch is the old one *)
Lemma same_value f : plain f = true -> getf (c_dateparse K) nm f = Ok (shown_as f (kw_args kws f)).
Proof.
  intro Hf. pose proof (got f Hf) as Ga. pose proof En as En'. unfold with_mismatch in En'. destruct (items (c_dateparse K) m) as [it|] eqn:Ei1; [|discriminate]. cbn [rbind] in En'.
  set (a1 := set_arg Ferrors (PStrs (m_errors m ++ [mismatch])) (MetaUpdate.item_args it)) in En'.
  assert (E1 : a1 f = shown_as f (kw_args kws f)).
  { assert (E2 : MetaUpdate.item_args it f = shown_as f (kw_args kws f)).
    { assert (Ga2 : Ok (MetaUpdate.item_args it f) = getf (c_dateparse K) m f); [|rewrite Ga in Ga2; now apply Ok_inj in Ga2].
      unfold items, item_fields in Ei1. cbn [rmap getf rbind] in Ei1. destruct (get_created (c_dateparse K) m); [|discriminate]. cbn [rbind] in Ei1.
      destruct (get_updated (c_dateparse K) m); [|discriminate]. cbn [rbind] in Ei1. apply Ok_inj in Ei1. subst it. destruct f; try discriminate; reflexivity. }
    unfold a1. rewrite set_arg_other by (intros <-; discriminate). exact E2. }
  clearbody a1. assert (Gn : getf (c_dateparse K) nm f = Ok (shown_as f (a1 f))).
  { apply (init_plain (c_dateparse K) a1 []); try assumption. intros ->. rewrite E1. destruct (arg_size _ _ Ek) as [E|(z & E)]; rewrite E; [now left|].
    right. right. now exists z. }
  rewrite Gn, E1. destruct f; try reflexivity. cbn [shown_as]. destruct (kw_args kws Fsize); reflexivity.
Qed.
Lemma args_kept kws' : x_kwargs (c_legacy K) (c_prefix K) (user_attrs (setall (firstn n l) xs)) = Ok kws' ->
  forall f, plain f = true -> kw_args kws' f = kw_args kws f.
Proof.
  intros Ek' f Hf. destruct (key_ok (c_prefix K) f Hp) as (kb & Ekb & Dk).
  pose proof (kw_field f kb _ _ Dk Ek) as Q. rewrite first_user in Q.
  pose proof (kw_field f kb _ _ Dk Ek') as Q'. rewrite first_user in Q'.
  assert (Na : no_args f = PNone) by (destruct f; try discriminate; reflexivity).
  destruct (setall_part l kb n xs) as [E|(b & Ib & E)]; rewrite E in Q'.
  - destruct (xget (xkey (key_text kb)) xs); congruence.
  - apply (write_inv (c_dateparse K) _ _ _ _ El) in Ib as (g & v & _ & Eg & Bl & Eg' & Ex).
    assert (g = f) by (eapply enc_key_inj; eassumption). subst g. rewrite (same_value f Hf) in Eg. apply Ok_inj in Eg. subst v.
    destruct (xget (xkey (key_text kb)) xs) as [b0|].
    + assert (Qd : x_decode (c_legacy K) f b = Ok (kw_args kws f)) by (eapply decode_plain; eassumption). congruence.
    + exfalso. rewrite Q, Na in Bl. destruct f; discriminate.
Qed.
End Kept.

Lemma from_inv legacy ys prefix m : from_xattrs legacy ys prefix = Ok m ->
  exists kws, x_kwargs legacy prefix ys = Ok kws /\ existsb (fun p => str_eqb (fst p) $"self") kws = false /\ meta_init_x (kw_args kws) (extras kws) = Ok m.
Proof.
  intro H. unfold from_xattrs in H. destruct (x_kwargs legacy prefix ys) as [kws|] eqn:Ek; [|discriminate]. cbn [rbind] in H. unfold call_pathmeta in H.
  destruct (existsb (fun p => str_eqb (fst p) $"self") kws) eqn:E; [discriminate|]. now exists kws.
Qed.
Lemma fields_kept K xs m nm l n m' : prefix_ok (c_prefix K) ->
  from_xattrs (c_legacy K) (user_attrs xs) (c_prefix K) = Ok m -> with_mismatch K m = Ok nm -> as_xattrs (c_dateparse K) nm (c_prefix K) = Ok l ->
  from_xattrs (c_legacy K) (user_attrs (setall (firstn n l) xs)) (c_prefix K) = Ok m' ->
  forall f, plain f = true -> getf (c_dateparse K) m' f = getf (c_dateparse K) m f.
Proof.
  intros Hp Em En El Em' f Hf. apply from_inv in Em as (kws & Ek & _ & Ei). apply from_inv in Em' as (kws' & Ek' & _ & Ei').
  rewrite (got K xs m kws Hp Ek Ei f Hf), (got K _ m' kws' Hp Ek' Ei' f Hf). f_equal. f_equal. eapply args_kept; eassumption.
Qed.

(** ** They can still be read *)
Lemma in_user_set k v xs k' v' : In (k', v') (user_attrs (xset (xkey (key_text k)) v xs)) -> In (k', v') (user_attrs xs) \/ (k' = k /\ v' = v).
Proof.
  assert (H : forall ys zs, In (k', v') (user_attrs (ys ++ zs)) <-> In (k', v') (user_attrs ys) \/ In (k', v') (user_attrs zs)).
  { intros ys zs. unfold user_attrs. rewrite flat_map_app, in_app_iff. tauto. }
  assert (One : In (k', v') (user_attrs [(xkey (key_text k), v)]) -> k' = k /\ v' = v).
  { intro I. unfold user_attrs, xkey in I. cbn [flat_map fst snd] in I. rewrite startswith_app in I. change (skipn 5 ($"user." ++ key_text k)) with (key_text k) in I.
    rewrite text_key_text in I. destruct I as [I|[]]. injection I as -> ->. now split. }
  induction xs as [|[a b] xs IH]; intro I.
  - right. now apply One.
  - change ((a, b) :: xs) with ([(a, b)] ++ xs). rewrite H. cbn [xset] in I. destruct (str_eqb a (xkey (key_text k))).
    + change ((xkey (key_text k), v) :: xs) with ([(xkey (key_text k), v)] ++ xs) in I. rewrite H in I. destruct I as [I|I]; [right; now apply One|left; now right].
    + change ((a, b) :: xset (xkey (key_text k)) v xs) with ([(a, b)] ++ xset (xkey (key_text k)) v xs) in I. rewrite H in I.
      destruct I as [I|I]; [left; now left|]. destruct (IH I) as [J|J]; [left; now right|now right].
Qed.
Lemma in_user_setall l : forall xs k v, In (k, v) (user_attrs (setall l xs)) -> In (k, v) (user_attrs xs) \/ In (k, v) l.
Proof.
  induction l as [|[a b] l IH]; intros xs k v I; [now left|]. rewrite setall_cons in I. cbn [fst snd] in I. apply IH in I as [I|I]; [|right; now right].
  apply in_user_set in I as [I|[-> ->]]; [now left|right; now left].
Qed.

Section Total.
Variables (legacy : bytes -> res pyval) (prefix : option str).
Definition decodes (kv : bytes * bytes) : Prop :=
  exists k0, dec (fst kv) = Ok k0 /\ forall k, deprefix prefix k0 = Some k ->
    match field_of k with Some f => exists w, x_decode legacy f (snd kv) = Ok w | None => True end.
Lemma kwargs_decodes ys : forall kws, x_kwargs legacy prefix ys = Ok kws -> forall kv, In kv ys -> decodes kv.
Proof.
  induction ys as [|[k v] ys IH]; intros kws H kv I; [contradiction|]. cbn [x_kwargs] in H. destruct (dec k) as [k0|] eqn:Dk; [|discriminate]. cbn [rbind] in H.
  destruct (deprefix prefix k0) as [n|] eqn:Dp.
  - destruct (match field_of n with Some f0 => x_decode legacy f0 v | None => Ok (PBytes v) end) as [w|] eqn:Ew; [|discriminate]. cbn [rbind] in H.
    destruct (x_kwargs legacy prefix ys) as [ws|]; [|discriminate]. destruct I as [<-|I]; [|now apply (IH ws)].
    exists k0. split; [assumption|]. intros k' E. cbn [snd]. rewrite Dp in E. injection E as <-. destruct (field_of n); [eauto|exact Logic.I].
  - destruct I as [<-|I]; [|now apply (IH kws)]. exists k0. split; [assumption|]. intros k' E. congruence.
Qed.
Lemma decodes_kwargs ys : (forall kv, In kv ys -> decodes kv) -> exists kws, x_kwargs legacy prefix ys = Ok kws.
Proof.
  induction ys as [|[k v] ys IH]; intro H; [eexists; reflexivity|]. cbn [x_kwargs]. destruct IH as (ws & Ew); [intros kv I; apply H; now right|].
  destruct (H (k, v)) as (k0 & Dk & Hk); [now left|]. cbn [fst snd] in *. rewrite Dk. cbn [rbind]. destruct (deprefix prefix k0) as [n|]; [|eauto].
  specialize (Hk n eq_refl). rewrite Ew. destruct (field_of n); [destruct Hk as (w & ->)|]; cbn [rbind]; eauto.
Qed.
(** the names of the arguments *)
Lemma kwargs_names ys : forall kws, x_kwargs legacy prefix ys = Ok kws -> forall n,
  (exists w, In (n, w) kws) <-> exists k v k0, In (k, v) ys /\ dec k = Ok k0 /\ deprefix prefix k0 = Some n.
Proof.
  induction ys as [|[k v] ys IH]; intros kws H n.
  - apply Ok_inj in H. subst kws. split; [intros (w & [])|intros (k & v & k0 & [] & _)].
  - cbn [x_kwargs] in H. destruct (dec k) as [k0|] eqn:Dk; [|discriminate]. cbn [rbind] in H. destruct (deprefix prefix k0) as [n0|] eqn:Dp.
    + destruct (match field_of n0 with Some f0 => x_decode legacy f0 v | None => Ok (PBytes v) end) as [w|]; [|discriminate]. cbn [rbind] in H.
      destruct (x_kwargs legacy prefix ys) as [ws|]; [|discriminate]. cbn [rbind] in H. apply Ok_inj in H. subst kws. specialize (IH ws eq_refl n). split.
      * intros (w' & [E|I]); [injection E as -> _; exists k, v, k0; split; [now left|now split]|].
        destruct (proj1 IH (ex_intro _ w' I)) as (k1 & v1 & k2 & I1 & Q). exists k1, v1, k2. split; [now right|assumption].
      * intros (k1 & v1 & k2 & [E|I] & E1 & E2).
        -- injection E as <- <-. rewrite Dk in E1. apply Ok_inj in E1. subst k2. rewrite Dp in E2. injection E2 as ->. exists w. now left.
        -- destruct (proj2 IH) as (w' & I'); [now exists k1, v1, k2|]. exists w'. now right.
    + specialize (IH kws H n). rewrite IH. split.
      * intros (k1 & v1 & k2 & I & Q). exists k1, v1, k2. split; [now right|assumption].
      * intros (k1 & v1 & k2 & [E|I] & E1 & E2); [|now exists k1, v1, k2]. injection E as <- <-. rewrite Dk in E1. apply Ok_inj in E1. subst k2. congruence.
Qed.
Lemma self_iff ys kws : x_kwargs legacy prefix ys = Ok kws -> existsb (fun p => str_eqb (fst p) $"self") kws = true ->
  exists k v, In (k, v) ys /\ dec k = Ok (x_key prefix $"self").
Proof.
  intros E H. apply existsb_exists in H as ([n w] & I & E1). cbn [fst] in E1. apply str_eqb_eq in E1. subst n.
  destruct (proj1 (kwargs_names ys kws E $"self") (ex_intro _ w I)) as (k & v & k0 & I1 & E1 & E2). exists k, v. split; [assumption|].
  apply deprefix_some in E2. now subst.
Qed.

(** what is written can be read *)
Definition writable (f : field) (v : pyval) : Prop :=
  match f with
  | Fname | Fid | Fparent_id | Fold_id | Fmode | Fchecksum_cypher => v = PNone \/ exists s, v = PStr s
  | Fsize | Fchunksize | Fmulti | Fgid | Ffile_id => v = PNone \/ (exists z, v = PInt z) \/ exists z, v = PSize z
  | Fuser_id => v = PNone \/ (exists z, v = PInt z) \/ exists s, v = PStr s
  | Fcreated | Fupdated => v = PNone \/ exists d, v = PDt d
  | Fchecksum => True
  | Fetag => v = PNone \/ exists b n, v = PEtag b n /\ (0 <= n)%Z
  | Ferrors => exists l, v = PStrs l
  end.
Lemma write_read f v b : writable f v -> x_encode f v = Ok (PBytes b) -> exists w, x_decode legacy f b = Ok w.
Proof.
  assert (T : forall s, (do c <- enc s ; Ok (PBytes c)) = Ok (PBytes b) -> dec b = Ok s).
  { intros s Q. destruct (enc s) as [b'|] eqn:En; [|discriminate]. cbn [rbind] in Q. apply Ok_inj in Q. injection Q as ->. now apply enc_inv in En. }
  assert (Z1 : forall z, (do c <- enc (dec_Z z) ; Ok (PBytes c)) = Ok (PBytes b) -> int_bytes b = Some z).
  { intros z Q. destruct (enc (dec_Z z)) as [b'|] eqn:En; [|discriminate]. cbn [rbind] in Q. apply Ok_inj in Q. injection Q as ->. apply enc_inv in En as (_ & _ & En).
    now rewrite (int_bytes_enc _ _ En), py_int_dec. }
  assert (L8 : forall d, (do c <- enc (isoformat d) ; Ok (PBytes c)) = Ok (PBytes b) -> Nat.eqb (length b) 8 = false).
  { intros d Q. destruct (enc (isoformat d)) as [b'|] eqn:En; [|discriminate]. cbn [rbind] in Q. apply Ok_inj in Q. injection Q as ->. apply enc_inv in En as (_ & _ & En).
    apply Nat.eqb_neq. rewrite (enc_ascii_len _ _ (iso_ascii d) En). pose proof (iso_length d). lia. }
  intros W E. unfold x_encode in E. destruct (is_none v || empty_iterable v)%bool eqn:Bl; [discriminate|]. unfold bytes_encode in E.
  destruct f; cbn [writable] in W;
    try (destruct W as [->|(s & ->)]; [discriminate|]; cbn [str_encode rbind] in E; apply T in E; cbn [x_decode]; rewrite E; cbn [rbind]; eauto; fail);
    try (destruct W as [->|[(z & ->)|(z & ->)]]; [discriminate| |]; cbn [str_encode py_str rbind] in E; apply Z1 in E; cbn [x_decode]; rewrite E; eauto; fail).
  - destruct W as [->|(d & ->)]; [discriminate|]. cbn [str_encode rbind] in E. cbn [x_decode]. rewrite (L8 d E). apply T in E. rewrite E. cbn [rbind]. eauto.
  - destruct W as [->|(d & ->)]; [discriminate|]. cbn [str_encode rbind] in E. cbn [x_decode]. rewrite (L8 d E). apply T in E. rewrite E. cbn [rbind]. eauto.
  - cbn [x_decode]. eauto.
  - destruct W as [->|(c & z & -> & Hz)]; [discriminate|]. cbn [str_encode rbind] in E. apply T in E. cbn [x_decode]. rewrite E. cbn [rbind].
    change (chr "-") with 45%N. rewrite rsplit_etag_pos by assumption. rewrite py_int_dec, fromhex_hex. eauto.
  - destruct W as [->|[(z & ->)|(s & ->)]]; [discriminate| |]; cbn [str_encode py_str rbind] in E.
    + apply Z1 in E. cbn [x_decode]. rewrite E. eauto.
    + apply T in E. cbn [x_decode]. destruct (int_bytes b); [eauto|]. rewrite E. cbn [rbind]. eauto.
  - destruct W as (l & ->). cbn [str_encode join_semi rbind] in E. apply T in E. cbn [x_decode]. rewrite E. cbn [rbind]. eauto.
Qed.
End Total.
