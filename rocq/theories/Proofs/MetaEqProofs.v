(** * Equality of metadata with extra values, and after the stamps were read *)
From Coq Require Import String NArith ZArith Bool List Lia.
From Verif Require Import Model.Py Model.Meta Spec.XattrSpec Spec.MergeSpec Proofs.PyLemmas Proofs.MergeProofs Proofs.MergeTwice.
Import ListNotations.

(** ** Extra values *)
Lemma dict_extra a x m : x <> [] -> meta_init_x a x = Ok m ->
  exists m0, meta_init a = Ok m0 /\ dict m = dict m0 ++ [(A_kwargs, DK x)].
Proof.
  intros Nx H. unfold meta_init. unfold meta_init_x in *.
  destruct (negb _ && negb _ && negb _)%bool; [discriminate|].
  destruct (match a Fid with PNone | PStr _ => false | _ => true end); [discriminate|].
  destruct (match a Fsize with PNone => Ok PNone | v => filesize v end) as [sz|]; [|discriminate].
  cbn [rbind] in *. destruct (errors_tuple (a Ferrors)) as [er|]; [|discriminate]. cbn [rbind] in *.
  apply Ok_inj in H. subst m. eexists. split; [reflexivity|]. unfold dict.
  cbn [m_name m_size m_created m_created_ok m_updated m_updated_ok m_checksum m_checksum_cypher
       m_etag m_chunksize m_multi m_parent_id m_id m_file_id m_old_id m_gid m_user_id m_mode m_errors m_kwargs].
  destruct x as [|kv x]; [congruence|].
  assert (Z : forall v (A : attr), match (if stamp_ok v then PNone else v), (if stamp_ok v then Some v else None) with
              | PNone, _ => [] | _, Some w => [(A, DV w)] | _, None => [] end = @nil (attr * dval)).
  { intros v A. destruct v; reflexivity. }
  rewrite !Z. now rewrite !app_nil_r, <- !app_assoc.
Qed.
Lemma dict_plain a m : meta_init a = Ok m -> forall v, ~ In (A_kwargs, v) (dict m).
Proof.
  intros H v. unfold meta_init, meta_init_x in H.
  destruct (negb _ && negb _ && negb _)%bool; [discriminate|].
  destruct (match a Fid with PNone | PStr _ => false | _ => true end); [discriminate|].
  destruct (match a Fsize with PNone => Ok PNone | v => filesize v end) as [sz|]; [|discriminate].
  cbn [rbind] in *. destruct (errors_tuple (a Ferrors)) as [er|]; [|discriminate]. cbn [rbind] in *.
  apply Ok_inj in H. subst m. unfold dict.
  cbn [m_name m_size m_created m_created_ok m_updated m_updated_ok m_checksum m_checksum_cypher
       m_etag m_chunksize m_multi m_parent_id m_id m_file_id m_old_id m_gid m_user_id m_mode m_errors m_kwargs].
  rewrite !in_app_iff. intro K.
  destruct (a Fcreated), (a Fupdated); cbn in K; intuition discriminate.
Qed.
Lemma find_snoc {A} (P : A -> bool) l z : find P (l ++ [z]) = match find P l with Some y => Some y | None => if P z then Some z else None end.
Proof. induction l as [|y l IH]; [reflexivity|]. cbn. destruct (P y); auto. Qed.
Lemma find_kwargs (l : list (attr * dval)) : (forall v, ~ In (A_kwargs, v) l) -> find (fun p => attr_eqb A_kwargs (fst p)) l = None.
Proof.
  induction l as [|[y u] l IH]; intro N; [reflexivity|]. cbn [find fst]. destruct y; cbn [attr_eqb]; try (apply IH; intros v K; apply (N v); now right).
  destruct (N u). now left.
Qed.
Lemma loop_extra l o y : (forall v, ~ In (A_kwargs, v) l) -> eq_loop l (o ++ [(A_kwargs, DK y)]) = eq_loop l o.
Proof.
  induction l as [|[a u] l IH]; intro N; [reflexivity|]. cbn [eq_loop]. rewrite find_snoc. cbn [fst].
  assert (E : attr_eqb a A_kwargs = false) by (destruct a; try reflexivity; destruct (N u); now left). rewrite E.
  destruct (find _ o) as [[]|]; [|reflexivity]. destruct (dval_eq u _); [|reflexivity]. apply IH. intros v K. apply (N v). now right.
Qed.
Lemma loop_snoc l o a u : eq_loop (l ++ [(a, u)]) o =
  (do r <- eq_loop l o ; if r then match find (fun p => attr_eqb a (fst p)) o with
                                  | None => Err AttributeError | Some (_, w) => Ok (dval_eq u w) end else Ok false).
Proof.
  induction l as [|[b v] l IH]; cbn [eq_loop app].
  - cbn [rbind]. destruct (find _ o) as [[c w]|]; [|reflexivity]. now destruct (dval_eq u w).
  - destruct (find (fun p => attr_eqb b (fst p)) o) as [[c w]|]; [|reflexivity]. destruct (dval_eq v w); [exact IH|reflexivity].
Qed.
Lemma kw_eq_iff x y : NoDup (map fst x) -> NoDup (map fst y) -> (kw_eq x y = true <-> forall kv, In kv x <-> In kv y).
Proof.
  intros Ux Uy. unfold kw_eq. rewrite andb_true_iff, PeanoNat.Nat.eqb_eq, forallb_forall.
  assert (Dx : NoDup x) by (apply NoDup_map_inv in Ux; assumption).
  assert (Dy : NoDup y) by (apply NoDup_map_inv in Uy; assumption).
  assert (E : forall kv, existsb (fun kv' => (str_eqb (fst kv) (fst kv') && bytes_eqb (snd kv) (snd kv'))%bool) y = true <-> In kv y).
  { intros [k v]. rewrite existsb_exists. split.
    - intros ([k' v'] & I & Q). cbn in Q. apply andb_true_iff in Q as [Q1 Q2]. apply str_eqb_eq in Q1. apply bytes_eqb_eq in Q2. now subst.
    - intro I. exists (k, v). split; [assumption|]. cbn. now rewrite str_eqb_refl, (proj2 (bytes_eqb_eq v v) eq_refl). }
  split.
  - intros [L F]. assert (I : incl x y) by (intros kv H; now apply E, F). intro kv. split; [apply I|].
    apply (NoDup_length_incl Dx); [lia|assumption].
  - intro H. split.
    + apply PeanoNat.Nat.le_antisymm; apply NoDup_incl_length; try assumption; intros kv; apply H.
    + intros kv I. now apply E, H.
Qed.
Lemma eq_both a b x y m n : x <> [] -> y <> [] -> NoDup (map fst x) -> NoDup (map fst y) ->
  meta_init_x a x = Ok m -> meta_init_x b y = Ok n ->
  exists m0 n0, meta_init a = Ok m0 /\ meta_init b = Ok n0 /\
    forall r, meta_eq m0 n0 = r ->
      match r with
      | Ok true => exists s, meta_eq m n = Ok s /\ (s = true <-> forall kv, In kv x <-> In kv y)
      | _ => meta_eq m n = r
      end.
Proof.
  intros Nx Ny Ux Uy Hm Hn. destruct (dict_extra a x m Nx Hm) as (m0 & A & Dm). destruct (dict_extra b y n Ny Hn) as (n0 & B & Dn).
  exists m0, n0. split; [assumption|]. split; [assumption|]. intros r <-. unfold meta_eq. rewrite Dm, Dn, loop_snoc, loop_extra by now apply (dict_plain a).
  destruct (eq_loop (dict m0) (dict n0)) as [[|]|e]; cbn [rbind]; try reflexivity.
  rewrite find_snoc, find_kwargs by now apply (dict_plain b). cbn. exists (kw_eq x y). split; [reflexivity|]. now apply kw_eq_iff.
Qed.
Lemma eq_left a b x m n : x <> [] -> meta_init_x a x = Ok m -> meta_init b = Ok n ->
  exists m0, meta_init a = Ok m0 /\ meta_eq m n = match meta_eq m0 n with Ok true => Err AttributeError | r => r end.
Proof.
  intros Nx Hm Hn. destruct (dict_extra a x m Nx Hm) as (m0 & A & Dm). exists m0. split; [assumption|]. unfold meta_eq. rewrite Dm, loop_snoc.
  destruct (eq_loop (dict m0) (dict n)) as [[|]|e]; cbn [rbind]; try reflexivity. now rewrite find_kwargs by now apply (dict_plain b).
Qed.

(** ** Reading the stamps *)
Lemma read_same dp m m' : force dp m = Ok m' -> forall dp' f, getf dp' m' f = getf dp m f.
Proof.
  unfold force. destruct (get_created dp m) as [c|] eqn:C; [|discriminate]. destruct (get_updated dp m) as [u|] eqn:U; [|discriminate].
  cbn [rbind]. intro H. apply Ok_inj in H. subst m'. intros dp' []; cbn [getf]; try reflexivity; rewrite ?C, ?U; reflexivity.
Qed.
Lemma dict_read dp a m m' : meta_init a = Ok m -> stamp_ok (a Fcreated) = false -> force dp m = Ok m' ->
  exists c more, dict m' = dict m ++ (A_created_ok, c) :: more /\ (forall v, ~ In (A_created_ok, v) (dict m)).
Proof.
  intros H Sc Hf. unfold meta_init, meta_init_x in H.
  destruct (negb _ && negb _ && negb _)%bool; [discriminate|].
  destruct (match a Fid with PNone | PStr _ => false | _ => true end); [discriminate|].
  destruct (match a Fsize with PNone => Ok PNone | v => filesize v end) as [sz|]; [|discriminate].
  cbn [rbind] in *. destruct (errors_tuple (a Ferrors)) as [er|]; [|discriminate]. cbn [rbind] in *.
  apply Ok_inj in H. subst m. unfold force in Hf.
  destruct (get_created dp _) as [c|] eqn:C; [|discriminate]. destruct (get_updated dp _) as [u|] eqn:U; [|discriminate].
  cbn [rbind] in Hf. apply Ok_inj in Hf. subst m'. rewrite Sc in *.
  unfold dict. cbn [m_name m_size m_created m_created_ok m_updated m_updated_ok m_checksum m_checksum_cypher
       m_etag m_chunksize m_multi m_parent_id m_id m_file_id m_old_id m_gid m_user_id m_mode m_errors m_kwargs get_updated] in *.
  destruct (a Fcreated) eqn:Ec; try discriminate Sc;
    (destruct (stamp_ok (a Fupdated)) eqn:Su; [injection U as <-|]; [|destruct (a Fupdated) eqn:Eu; try discriminate Su];
     cbn [app]; eexists; eexists; (split; [reflexivity|]); intros v K; cbn [app In] in K;
     repeat (destruct K as [K|K]; [discriminate K|]); contradiction).
Qed.
Lemma read_raises dp a m m' : plain a -> meta_init a = Ok m -> stamp_ok (a Fcreated) = false -> force dp m = Ok m' ->
  meta_eq m m = Ok true /\ meta_eq m' m = Err AttributeError.
Proof.
  intros Pa H Sc Hf. destruct (eq_fields a a m m Pa Pa eq_refl eq_refl H H) as (r & E & I).
  assert (R : r = true) by (apply I; intro; apply py_eq_refl). subst r. split; [assumption|].
  destruct (dict_read dp a m m' H Sc Hf) as (c & more & D & N). unfold meta_eq in *. rewrite D.
  assert (F : find (fun p => attr_eqb A_created_ok (fst p)) (dict m) = None).
  { revert N. generalize (dict m). induction l as [|[y u] l IH]; intro N; [reflexivity|]. cbn [find fst].
    destruct y; cbn [attr_eqb]; try (apply IH; intros v K; apply (N v); now right). destruct (N u). now left. }
  revert E. generalize (dict m) at 1 3. intro l. induction l as [|[y u] l IH]; intro E; cbn [eq_loop app] in *.
  - now rewrite F.
  - destruct (find (fun p => attr_eqb y (fst p)) (dict m)) as [[q w]|]; [|discriminate]. destruct (dval_eq u w); [now apply IH|discriminate].
Qed.
