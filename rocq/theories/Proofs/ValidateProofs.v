From Coq Require Import String Strings.Byte NArith ZArith Bool List Lia.
From Verif Require Import Model.Py Model.PurePath Model.Meta Model.MetaXattr Model.MetaUpdate Model.Fs Model.PathOps Model.Etag Model.Data Model.Cache Model.Validate
  Spec.FsSpec Spec.LoopSpec Spec.EtagSpec Spec.CacheSpec Spec.ValidateSpec
  Proofs.PyLemmas Proofs.FsLemmas Proofs.RunLemmas Proofs.RmtreeProofs Proofs.Hoare Proofs.EtagProofs Proofs.DataProofs Proofs.CacheLemmas Proofs.CacheProofs.
Import ListNotations.

(** ** dedupe *)
Lemma py_lt_total a b : (exists x, py_lt a b = Ok x) -> exists y, py_lt b a = Ok y.
Proof.
  intros (x & H). destruct a, b; try discriminate; cbn in *; try (eexists; reflexivity).
  destruct (Bool.eqb (dt_aware d) (dt_aware d0)) eqn:E; [|discriminate]. apply eqb_prop in E. rewrite E, eqb_reflx. eexists. reflexivity.
Qed.
Lemma py_lt_asym a b : py_lt a b = Ok true -> py_lt b a = Ok false.
Proof.
  intro H. destruct a, b; try discriminate; cbn in *; try (injection H as H; apply Z.ltb_lt in H; f_equal; apply Z.ltb_ge; lia).
  destruct (Bool.eqb (dt_aware d) (dt_aware d0)) eqn:E; [|discriminate]. apply eqb_prop in E. rewrite E, eqb_reflx.
  injection H as H; apply Z.ltb_lt in H; f_equal; apply Z.ltb_ge; lia.
Qed.
Lemma py_lt_none_l b : py_lt PNone b = Err TypeError. Proof. now destruct b. Qed.
Lemma py_lt_none_r b : py_lt b PNone = Err TypeError. Proof. now destruct b. Qed.

Lemma none_false v : v <> PNone -> is_none v = false. Proof. now destruct v. Qed.

Section Dedupe.
Variable dateparse : pyval -> res pyval.
Notation dd := (dedupe dateparse).

(** All that is known of a run that returns *)
Lemma dedupe_inv a b x : dd a b = Ok x -> exists ma mb u v, py_eq (d_id a) (d_id b) = true /\ d_meta a = Some ma /\ d_meta b = Some mb /\
  get_updated dateparse ma = Ok u /\ get_updated dateparse mb = Ok v /\
  (exists t, update_meta dateparse (Some (match x with Mine => mb | Theirs => ma end)) (Some (match x with Mine => ma | Theirs => mb end)) = Ok t) /\
  ((x = Theirs /\ before u v) \/ (x = Mine /\ before v u) \/
   (same_time u v /\
    ((x = Theirs /\ local_before (d_local a) (d_local b)) \/ (x = Mine /\ local_before (d_local b) (d_local a)) \/
     (x = Mine /\ d_local a = PNone /\ d_local b = PNone) \/
     (d_local a <> PNone /\ local_same (d_local a) (d_local b) /\ x = match m_size ma with PNone => Theirs | _ => Mine end)))).
Proof.
  unfold dedupe. destruct (py_eq (d_id a) (d_id b)) eqn:I; [|discriminate]. cbn [negb].
  destruct (d_meta a) as [ma|]; [|discriminate]. destruct (d_meta b) as [mb|]; [|discriminate].
  destruct (get_updated dateparse ma) as [u|] eqn:U; [cbn [rbind]|discriminate]. destruct (get_updated dateparse mb) as [v|] eqn:V; [cbn [rbind]|discriminate].
  intro H. exists ma, mb, u, v. 
  assert (Up : forall y, (do _ <- update_meta dateparse (Some (match y with Mine => mb | Theirs => ma end)) (Some (match y with Mine => ma | Theirs => mb end)) ; Ok y) = Ok x ->
    y = x /\ exists t, update_meta dateparse (Some (match x with Mine => mb | Theirs => ma end)) (Some (match x with Mine => ma | Theirs => mb end)) = Ok t).
  { intros y Z. destruct (update_meta _ _ _) as [t|] eqn:T; [|discriminate]. cbn [rbind] in Z. apply Ok_inj in Z. subst y. split; [reflexivity|]. now exists t. }
  destruct (py_lt u v) as [lt|] eqn:L; [cbn [rbind] in H|discriminate].
  refine (conj eq_refl (conj eq_refl (conj eq_refl (conj U (conj V _))))).
  destruct lt.
  { apply (Up Theirs) in H as [<- T]. split; [exact T|]. now left. }
  destruct (py_lt v u) as [gt|] eqn:G; [cbn [rbind] in H|discriminate]. destruct gt.
  { apply (Up Mine) in H as [<- T]. split; [exact T|]. right. now left. }
  assert (St : same_time u v) by (split; assumption).
  destruct (d_local a) as [| | | | | | |] eqn:La; cbn [is_none andb] in H.
  { destruct (d_local b) as [| | | | | | |] eqn:Lb; cbn [is_none] in H.
    1:{ apply (Up Mine) in H as [<- T]. split; [exact T|]. right. right. split; [exact St|]. right. right. left. now repeat split. }
    all: apply (Up Theirs) in H as [<- T]; split; [exact T|]; right; right; (split; [exact St|]); left; (split; [reflexivity|]); left; split; congruence. }
  all: rewrite <- La in *; assert (Na : d_local a <> PNone) by congruence; clear La;
    (destruct (d_local b) as [| | | | | | |] eqn:Lb; cbn [is_none] in H;
     [apply (Up Mine) in H as [<- T]; split; [exact T|]; right; right; (split; [exact St|]); right; left; (split; [reflexivity|]); left; now split| | | | | | |]);
    rewrite <- Lb in *; assert (Nb : d_local b <> PNone) by congruence; clear Lb;
    (destruct (py_lt (d_local a) (d_local b)) as [llt|] eqn:LL; [cbn [rbind] in H|discriminate]); (destruct llt;
      [apply (Up Theirs) in H as [<- T]; split; [exact T|]; right; right; (split; [exact St|]); left; (split; [reflexivity|]); right; now repeat split|]);
    (destruct (py_lt (d_local b) (d_local a)) as [lgt|] eqn:LG; [cbn [rbind] in H|discriminate]); (destruct lgt;
      [apply (Up Mine) in H as [<- T]; split; [exact T|]; right; right; (split; [exact St|]); right; left; (split; [reflexivity|]); right; now repeat split|]);
    (assert (Q : x = match m_size ma with PNone => Theirs | _ => Mine end /\
       exists t, update_meta dateparse (Some (match x with Mine => mb | Theirs => ma end)) (Some (match x with Mine => ma | Theirs => mb end)) = Ok t)
      by (destruct (m_size ma), (m_size mb); cbn [is_none negb andb rbind] in H; first [apply (Up Mine) in H as [<- T]|apply (Up Theirs) in H as [<- T]]; split; try reflexivity; exact T));
    destruct Q as [Q T]; (split; [exact T|]); right; right; (split; [exact St|]); right; right; right; (split; [exact Na|]); (split; [|exact Q]);
    right; now repeat split.
Qed.

Lemma same_time_sym u v : same_time u v -> same_time v u. Proof. now intros [A B]. Qed.
(** What is picked is not older than the other. *)
Lemma dedupe_newest a b x : dd a b = Ok x -> ~ older dateparse (won x a b) (lost x a b).
Proof.
  intros H (m1 & m2 & u1 & v1 & M1 & M2 & U1 & V1 & O).
  destruct (dedupe_inv _ _ _ H) as (ma & mb & u & v & _ & Ma & Mb & U & V & _ & C).
  assert (As : forall p q, before p q -> before q p -> False) by (intros p q A B; apply py_lt_asym in A; unfold before in B; congruence).
  assert (As2 : forall p q, before p q -> same_time p q -> False) by (intros p q A [B _]; unfold before in A; congruence).
  assert (As3 : forall p q, local_before p q -> local_before q p -> False).
  { intros p q [[A B]|(A & B & C1)] [[A' B']|(A' & B' & C')]; try congruence. now apply (As p q). }
  assert (As4 : forall p q, local_before p q -> local_same p q -> False).
  { intros p q [[A B]|(A & B & C1)] [[A' B']|(A' & B' & C')]; try congruence. now apply (As2 p q). }
  assert (Sy : forall p q, local_same p q -> local_same q p).
  { intros p q [[A B]|(A & B & C1)]; [now left|]. right. now repeat split; try apply C1. }
  assert (E : x = Theirs /\ u1 = v /\ v1 = u /\ m1 = mb /\ m2 = ma \/ x = Mine /\ u1 = u /\ v1 = v /\ m1 = ma /\ m2 = mb).
  { destruct x; cbn [won lost] in *.
    - right. assert (m1 = ma) by congruence. assert (m2 = mb) by congruence. subst. repeat split; congruence.
    - left. assert (m1 = mb) by congruence. assert (m2 = ma) by congruence. subst. repeat split; congruence. }
  destruct C as [[-> C]|[[-> C]|[St C]]]; cbn [won lost] in *.
  1,2: destruct E as [(Ex & -> & -> & _)|(Ex & -> & -> & _)]; try discriminate;
     (destruct O as [O|[O _]]; [now eapply As; eauto|eapply As2; [exact C|apply same_time_sym; exact O]]).
  destruct O as [O|[_ O]].
  { destruct E as [(_ & -> & -> & _)|(_ & -> & -> & _)]; [eapply As2; [exact O|now apply same_time_sym]|eapply As2; [exact O|exact St]]. }
  destruct C as [[-> C]|[[-> C]|[(-> & La & Lb)|(Na & L & Ex)]]]; cbn [won lost] in *.
  - destruct O as [O|(_ & O & _)]; [now eapply As3; eauto|eapply As4; [exact C|now apply Sy]].
  - destruct O as [O|(_ & O & _)]; [now eapply As3; eauto|eapply As4; [exact C|now apply Sy]].
  - destruct O as [[[A B]|(A & _)]|(A & _)]; congruence.
  - destruct E as [(-> & _ & _ & -> & ->)|(-> & _ & _ & -> & ->)]; cbn [won lost] in *.
    + destruct O as [O|(_ & _ & A & B)]; [eapply As4; [exact O|now apply Sy]|]. destruct (m_size ma); congruence.
    + destruct O as [O|(_ & _ & A & B)]; [eapply As4; [exact O|exact L]|]. rewrite A in Ex. discriminate.
Qed.
(** The older one is not picked, whoever is asked. *)
Lemma dedupe_older a b t : older dateparse a b -> py_eq (d_id a) (d_id b) = true -> py_eq (d_id b) (d_id a) = true ->
  update_meta dateparse (d_meta a) (d_meta b) = Ok t -> dd a b = Ok Theirs /\ dd b a = Ok Mine.
Proof.
  intros (ma & mb & u & v & Ma & Mb & U & V & O) I I' T. rewrite Ma, Mb in T. unfold dedupe. rewrite I, I', Ma, Mb, U, V. cbn [negb rbind].
  destruct O as [B|[[S1 S2] O]].
  { unfold before in B. rewrite B, (py_lt_asym _ _ B). cbn [rbind]. try rewrite B. cbn [rbind]. now rewrite T. }
  rewrite S1, S2. cbn [rbind]. try rewrite S1. cbn [rbind].
  destruct O as [[[A B]|(A & B & C)]|(A & [[A' _]|(_ & B & [C D])] & Sa & Sb)].
  - rewrite A, (none_false _ B). cbn [is_none andb rbind]. now rewrite T.
  - assert (Na : is_none (d_local a) = false) by now apply none_false. assert (Nb : is_none (d_local b) = false) by now apply none_false.
    rewrite Na, Nb. cbn [andb]. unfold before in C. rewrite C, (py_lt_asym _ _ C). cbn [rbind]. try rewrite C. cbn [rbind]. now rewrite T.
  - congruence.
  - assert (Na : is_none (d_local a) = false) by now apply none_false. assert (Nb : is_none (d_local b) = false) by now apply none_false.
    rewrite Na, Nb, C, D. cbn [andb rbind]. try rewrite C. cbn [rbind]. rewrite Sa. cbn [is_none negb andb].
    assert (Ns : is_none (m_size mb) = false) by now apply none_false. rewrite Ns. cbn [negb andb rbind]. now rewrite T.
Qed.
Lemma dedupe_ids a b : py_eq (d_id a) (d_id b) = false -> dd a b = Err ValueError.
Proof. intro H. unfold dedupe. now rewrite H. Qed.
Lemma dedupe_undated a b ma mb : d_meta a = Some ma -> d_meta b = Some mb -> (exists u, get_updated dateparse ma = Ok u) -> (exists v, get_updated dateparse mb = Ok v) ->
  get_updated dateparse ma = Ok PNone \/ get_updated dateparse mb = Ok PNone -> py_eq (d_id a) (d_id b) = true -> dd a b = Err TypeError.
Proof.
  intros Ma Mb (u & U) (v & V) N I. unfold dedupe. rewrite I, Ma, Mb, U, V. cbn [negb rbind].
  destruct N as [N|N]; [rewrite U in N; apply Ok_inj in N; subst u; now rewrite py_lt_none_l|rewrite V in N; apply Ok_inj in N; subst v; now rewrite py_lt_none_r].
Qed.
End Dedupe.

(** ** validate_file *)
Lemma quiet_validate K md5 chunk p : quiet (validate_file K md5 chunk p).
Proof. unfold validate_file. quiet_tac. Qed.
Lemma validate_reads K md5 chunk p fs cwd fault r w' : validate_file K md5 chunk p (start fs cwd fault) = (r, w') -> Forall (eq fs) (states w').
Proof. intro H. apply quiet_validate in H as (A & _ & B & _). unfold states. rewrite A, B. repeat constructor. Qed.

Section Validate.
Variables (K : conf) (md5 : bytes -> bytes) (chunk : nat) (D : place) (x : str) (fs : node) (cwd : place) (fault : nat -> option exn) (d : bytes) (xs : Fs.xattrs) (m : pathmeta).
Notation P := (D ++ [x]).
Notation p := (path_of (D ++ [x])).
Hypothesis Hc : 0 < chunk.
Hypothesis Gf : good_fs fs.
Hypothesis Lf : look fs P = Some (AFile d xs).
Hypothesis Ho : honest fault.
Hypothesis Rm : recorded K x (Some (AFile d xs)) = Ok (Some m).
Notation run := (validate_file K md5 (Z.of_nat chunk) p (start fs cwd fault)).
Notation at_' := (at_ fs).

Lemma at_start : at_' (start fs cwd fault). Proof. now split. Qed.

Ltac meta_step w A1 := eapply sure_bind; [eapply s_cache_meta; [exact Gf|exact Lf|exact A1|exact Rm]|];
  let S := fresh "S" in intros w S; pose proof (at_same _ _ _ A1 S); cbv beta iota.

Lemma validate_etag size b n : m_etag m = PEtag b n -> m_chunksize m = PInt (Z.of_nat size) \/ m_chunksize m = PSize (Z.of_nat size) -> 0 < size ->
  exists l, sure (start fs cwd fault) (validate_file K md5 (Z.of_nat chunk) p) (Ok l) /\ (l = [] <-> is_etag md5 size d (b, n)) /\ (l = [] \/ l = [EtagDiffers]).
Proof.
  intros E C Hs. destruct (local_etag_correct md5 d chunk size Hc Hs) as ([ob on] & Le & Ie).
  exists (if (bytes_eqb ob b && Z.eqb on n)%bool then [] else [EtagDiffers]). split.
  - unfold validate_file. pose proof at_start as A0. meta_step w1 A0. rewrite E. cbn [truthy].
    eapply sure_bind; [apply (s_test D x fs d xs Gf Lf); exact H|]. intros w2 S2. cbv beta iota. pose proof (at_same _ _ _ H S2) as A2.
    eapply sure_bind; [apply (s_read D x fs d xs Gf Lf); exact A2|]. intros w3 S3. pose proof (at_same _ _ _ A2 S3) as A3.
    eapply sure_bind; [assert (file_etag md5 (Z.of_nat chunk) (m_chunksize m) d = Ok (ob, on)) as -> by (unfold file_etag; destruct C as [-> | ->]; exact Le); apply sure_lift|]. intros w4 S4. cbn [fst snd]. apply sure_ret.
  - destruct (bytes_eqb ob b && (on =? n)%Z)%bool eqn:Q.
    + apply andb_true_iff in Q as [Q1 Q2]. apply bytes_eqb_eq in Q1. apply Z.eqb_eq in Q2. subst. split; [split; [intros _; exact Ie|reflexivity]|now left].
    + split; [|now right]. split; [discriminate|]. intro Ie'. pose proof (is_etag_unique _ _ _ _ _ Ie Ie') as Z. injection Z as -> ->.
      rewrite (proj2 (bytes_eqb_eq b b) eq_refl), Z.eqb_refl in Q. discriminate.
Qed.
Lemma validate_checksum cy : truthy (m_etag m) = false -> truthy (m_checksum m) = true -> algorithm K m cy -> c_known K cy = true ->
  (c_cypher K = default_cypher \/ cy <> default_cypher) ->
  sure (start fs cwd fault) (validate_file K md5 (Z.of_nat chunk) p)
    (if py_eq (PBytes (c_digest K cy d)) (m_checksum m) then Ok [] else Err (match with_mismatch K m with Ok _ => AttributeError | Err e => e end)).
Proof.
  intros E T Al Kn Df. unfold validate_file. pose proof at_start as A0. meta_step w1 A0. rewrite E, T.
  assert (Cy : sure w1 (instance_cypher K p) (Ok cy)).
  { unfold instance_cypher. meta_step w2 H. destruct Al as [[-> ->]| ->]; [apply sure_ret|]. rewrite Kn. apply sure_ret. }
  eapply sure_bind; [exact Cy|]. intros w2 S2. pose proof (at_same _ _ _ H S2) as A2.
  assert (Uc : used_cypher K cy = cy).
  { unfold used_cypher. destruct (str_eqb cy default_cypher) eqn:Q; [|reflexivity]. apply str_eqb_eq in Q. destruct Df; congruence. }
  eapply sure_bind; [apply (s_local_checksum K D x fs d xs Gf Lf); exact A2|]. intros w3 S3. pose proof (at_same _ _ _ A2 S3) as A3.
  meta_step w4 A3. rewrite Uc. destruct (py_eq _ _); [apply sure_ret|].
  destruct (with_mismatch K m) as [m'|e]; [|eapply sure_bind_err, sure_lift]. eapply sure_bind; [apply sure_lift|]. intros w5 S5. apply sure_raise.
Qed.
Lemma validate_size : truthy (m_etag m) = false -> truthy (m_checksum m) = false -> m_size m <> PNone ->
  sure (start fs cwd fault) (validate_file K md5 (Z.of_nat chunk) p)
    (if py_eq (PInt (Z.of_nat (length d))) (m_size m) then Ok [NoChecksum] else Err SizeErr).
Proof.
  intros E T Ns. unfold validate_file. pose proof at_start as A0. meta_step w1 A0. rewrite E, T.
  assert (is_none (m_size m) = false) as -> by now apply none_false. cbn [negb].
  eapply sure_bind; [apply (s_test D x fs d xs Gf Lf); exact H|]. intros w2 S2. cbv beta iota. pose proof (at_same _ _ _ H S2) as A2.
  eapply sure_bind with (a := PInt (Z.of_nat (length d))).
  { eapply sure_bind; [apply (s_stat D x fs d xs Gf Lf); exact A2|]. intros w3 S3. pose proof (at_same _ _ _ A2 S3) as A3.
    eapply sure_bind; [apply (s_local_checksum K D x fs d xs Gf Lf); exact A3|]. intros w4 S4. apply sure_ret. }
  intros w3 S3. pose proof (at_same _ _ _ A2 S3) as A3. meta_step w4 A3. destruct (py_eq _ _); [apply sure_ret|apply sure_raise].
Qed.
Lemma validate_blind : truthy (m_etag m) = false -> truthy (m_checksum m) = false -> m_size m = PNone ->
  sure (start fs cwd fault) (validate_file K md5 (Z.of_nat chunk) p) (Ok [NoSize]).
Proof. intros E T Ns. unfold validate_file. pose proof at_start as A0. meta_step w1 A0. rewrite E, T, Ns. apply sure_ret. Qed.
End Validate.

(** ** As statements about runs *)
Lemma etag_checked K md5 chunk D x fs cwd fault d xs m size b n r w' :
  0 < chunk -> good_fs fs -> look fs (D ++ [x]) = Some (AFile d xs) -> recorded K x (Some (AFile d xs)) = Ok (Some m) -> honest fault ->
  m_etag m = PEtag b n -> m_chunksize m = PInt (Z.of_nat size) \/ m_chunksize m = PSize (Z.of_nat size) -> 0 < size ->
  validate_file K md5 (Z.of_nat chunk) (path_of (D ++ [x])) (start fs cwd fault) = (r, w') ->
  (exists e t, r = Err e /\ fault t = Some e) \/ (r = Ok [] /\ is_etag md5 size d (b, n)) \/ (r = Ok [EtagDiffers] /\ ~ is_etag md5 size d (b, n)).
Proof.
  intros Hc Gf Lf Rm Ho E C Hs H. destruct (validate_etag K md5 chunk D x fs cwd fault d xs m Hc Gf Lf Ho Rm size b n E C Hs) as (l & Su & Iff & Or).
  destruct (Su _ _ H) as [_ [-> |F]]; [right|now left]. destruct Or as [-> | ->]; [left|right]; (split; [reflexivity|]); [now apply Iff|].
  intro I. apply Iff in I. discriminate.
Qed.
Lemma checksum_checked K md5 chunk D x fs cwd fault d xs m cy r w' :
  good_fs fs -> look fs (D ++ [x]) = Some (AFile d xs) -> recorded K x (Some (AFile d xs)) = Ok (Some m) -> honest fault ->
  truthy (m_etag m) = false -> truthy (m_checksum m) = true -> algorithm K m cy -> c_known K cy = true -> (c_cypher K = default_cypher \/ cy <> default_cypher) ->
  validate_file K md5 (Z.of_nat chunk) (path_of (D ++ [x])) (start fs cwd fault) = (r, w') ->
  (r = Ok [] -> py_eq (PBytes (c_digest K cy d)) (m_checksum m) = true) /\
  (py_eq (PBytes (c_digest K cy d)) (m_checksum m) = true -> r = Ok [] \/ exists e t, r = Err e /\ fault t = Some e) /\
  (py_eq (PBytes (c_digest K cy d)) (m_checksum m) = false -> exists e, r = Err e).
Proof.
  intros Gf Lf Rm Ho E T Al Kn Df H.
  destruct (validate_checksum K md5 chunk D x fs cwd fault d xs m Gf Lf Ho Rm cy E T Al Kn Df _ _ H) as [_ [-> |(e & t & -> & F)]].
  - destruct (py_eq _ _); repeat split; try discriminate; intros; first [now left|now eexists|discriminate].
  - repeat split; try discriminate; intros; [right; now exists e, t|now exists e].
Qed.
Lemma size_checked K md5 chunk D x fs cwd fault d xs m r w' :
  good_fs fs -> look fs (D ++ [x]) = Some (AFile d xs) -> recorded K x (Some (AFile d xs)) = Ok (Some m) -> honest fault ->
  truthy (m_etag m) = false -> truthy (m_checksum m) = false ->
  validate_file K md5 (Z.of_nat chunk) (path_of (D ++ [x])) (start fs cwd fault) = (r, w') ->
  (exists e t, r = Err e /\ fault t = Some e) \/ (r = Ok [NoSize] /\ m_size m = PNone) \/
  (m_size m <> PNone /\ r = Ok [NoChecksum] /\ py_eq (PInt (Z.of_nat (length d))) (m_size m) = true) \/
  (m_size m <> PNone /\ r = Err SizeErr /\ py_eq (PInt (Z.of_nat (length d))) (m_size m) = false).
Proof.
  intros Gf Lf Rm Ho E T H. destruct (m_size m) eqn:Sz.
  1:{ destruct (validate_blind K md5 chunk D x fs cwd fault d xs m Gf Lf Ho Rm E T Sz _ _ H) as [_ [-> |F]]; [right; left; now split|now left]. }
  all: assert (Ns : m_size m <> PNone) by congruence; rewrite <- Sz in *; clear Sz;
    destruct (validate_size K md5 chunk D x fs cwd fault d xs m Gf Lf Ho Rm E T Ns _ _ H) as [_ [-> |F]]; [right; right|now left];
    (destruct (py_eq (PInt (Z.of_nat (length d))) (m_size m)) eqn:Q; [left|right]; (split; [exact Ns|]); (split; [reflexivity|]); reflexivity || exact Q).
Qed.
