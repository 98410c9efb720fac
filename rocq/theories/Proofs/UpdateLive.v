(** * What an update that returns has done *)
From Coq Require Import String NArith ZArith Bool List Lia.
From Verif Require Import Model.Py Model.PurePath Model.Meta Model.MetaUpdate Model.Access Model.Fs Model.PathOps Model.Cache
  Spec.FsSpec Spec.LoopSpec Spec.CopySpec Spec.CacheSpec
  Proofs.PyLemmas Proofs.PathLemmas Proofs.FsLemmas Proofs.RunLemmas Proofs.RmtreeProofs Proofs.MoveLemmas Proofs.Hoare Proofs.SlotLemmas Proofs.CacheLemmas Proofs.CacheOps
  Proofs.TrashProofs Proofs.UpdateProofs Proofs.CacheProofs.
Import ListNotations.

Section Live.
Variables (K : conf) (D : place) (x : str) (TR : place) (fs : node) (d : bytes) (xs : Fs.xattrs).
Notation P := (D ++ [x]).
Notation p := (path_of (D ++ [x])).
Notation St := (St D x).
Notation data := (concat (r_chunks (c_remote K))).
Hypothesis Hx : good_name x.
Hypothesis Htr : c_trash K = path_of TR.
Hypothesis Hconf : confined P (c_refresh K p).
Hypothesis Hsends : forall w a w', c_refresh K p w = (Ok a, w') -> content (w_fs w') P = Some data.
Hypothesis Gf : good_fs fs.
Hypothesis Lf : look fs P = Some (AFile d xs).
Hypothesis Ht : is_dir_at fs TR.
Hypothesis Nb : ~ below TR P.
Hypothesis Hid : forall m i, recorded K x (Some (AFile d xs)) = Ok (Some m) -> m_id m = PStr i -> good_name (fs_safe_id i).

Lemma body_data F u : m_id u <> PStr [] ->
  tri (fun _ => True) (St F None) (let! _ <- cache_set K p (Some u) ; when true (fetch K p None)) (fun r s => forall a, r = Ok a -> content s P = Some data).
Proof.
  intro Hu. assert (HI : forall s v, St F v s -> True -> True) by auto.
  eapply tri_bind; [apply (t_cache_set_free K D x Hx (fun _ => True) F (fun _ => True) HI u Hu); auto| |discriminate].
  intros []. cbv beta. apply tri_ex. intro v. apply tri_fact. intros Hv. cbn [when].
  destruct Hv as [->|[(t & ->)|(R & zs & ->)]].
  - eapply tri_post; [apply (t_fetch_none K D x Hx)|]. intros r s (_ & Nr) [] ->. congruence.
  - eapply tri_post; [apply (t_fetch_link K D x Hx (fun _ => True) F (fun _ => True) HI (fun r s => forall a, r = Ok a -> content s P = Some data))|].
    + auto.
    + intros m _ _ w r w' Ho ((G & _) & _) H. split; [intros a ->; now apply (Hsends w a)|].
      destruct (Hconf w r w' G H) as (A1 & A2 & l & A3 & _). split; [assumption|]. split; [assumption|]. exists l. split; [assumption|]. now apply Forall_forall.
    + intros r s [(H & _)|H] a ->; [now apply (H a)|]. destruct H as (m & _ & Nf & [(Ff & H)|(_ & _ & l & xs' & _ & _ & H)]).
      * exfalso. unfold fetches in Ff. destruct (m_file_id m); try discriminate. now apply Nf.
      * unfold content. now rewrite (proj2 (proj2 H)).
  - eapply tri_post; [apply (t_fetch_dir K D x Hx)|]. intros r s (_ & Nr) [] ->. congruence.
Qed.

Lemma update_live pm w b w' : w_fs w = fs -> honest (w_fault w) -> meta_updater K p pm true w = (Ok b, w') ->
  (exists om u, recorded K x (Some (AFile d xs)) = Ok om /\ update_meta (c_dateparse K) om pm = Ok (b, u)) /\
  content (w_fs w') P = Some (if b then data else d).
Proof.
  intros Ew Ho H.
  assert (Hid' : forall m, recorded K x (Some (AFile d xs)) = Ok (Some m) -> m_id m <> PStr []).
  { intros m R Q. destruct (Hid m [] R Q) as [N _]. apply N. reflexivity. }
  pose proof (update_run K D x TR Hx Htr Hconf fs d xs Gf Lf Ht Nb Hid' pm true w _ w' Ew Ho H) as Un.
  assert (Hs : forall v, same w v -> honest (w_fault v) /\ St fs (Some (AFile d xs)) (w_fs v)).
  { intros v (S1 & _ & _ & S4). rewrite S4, S1, Ew. split; [assumption|now apply St0]. }
  unfold meta_updater in H. apply bind_inv in H as [(om & w1 & H1 & H)|(e & H1 & Q)]; [|discriminate].
  destruct (tk_cache_meta K D x Hx (fun _ => True) fs (Some (AFile d xs)) w _ _ Ho (proj2 (Hs w (same_refl w))) H1) as [[_ Er] _].
  specialize (Er om eq_refl). apply quiet_cache_meta in H1.
  apply bind_inv in H as [([df u] & w2 & H2 & H)|(e & H2 & Q)]; [|discriminate]. injection H2 as Eu <-.
  assert (b = df) as ->.
  { apply bind_inv in H as [(must & w3 & _ & H)|(e & _ & Q)]; [|discriminate]. apply bind_inv in H as [(tr & w4 & _ & H)|(e & _ & Q)]; [|discriminate].
    apply bind_inv in H as [(c & w5 & _ & H)|(e & _ & Q)]; [|discriminate]. now injection H as ->. }
  split; [eauto|]. destruct df.
  2:{ destruct Un as [[_ (xs' & _ & _ & L)]|(_ & _ & _ & m & u' & Rm & Um)].
      - unfold content. now rewrite L.
      - rewrite Er in Rm. apply Ok_inj in Rm. subst om. rewrite Eu in Um. discriminate. }
  apply bind_inv in H as [(must & w3 & H3 & H)|(e & _ & Q)]; [|discriminate].
  assert (S3 : same w w3).
  { apply (same_trans _ w1); [assumption|]. revert H3. match goal with |- ?m w1 = _ -> _ => assert (Qm : quiet m) by quiet_tac end. apply Qm. }
  assert (must = true) as ->.
  { destruct (Hs w1 H1) as [Ho1 St1]. apply bind_inv in H3 as [(f & v & G & H3)|(e & _ & Q)]; [|discriminate].
    destruct (tk_is_file D x Hx (fun _ => True) fs (Some (AFile d xs)) w1 _ _ Ho1 St1 G) as [[_ Ef] _]. specialize (Ef f eq_refl). cbn [isF] in Ef. subst f.
    apply quiet_is_file in G. pose proof (same_trans _ _ _ H1 G) as S2. destruct (Hs v S2) as [Ho2 St2].
    apply bind_inv in H3 as [(f & v2 & G2 & H3)|(e & _ & Q)]; [|discriminate].
    destruct (tk_exists D x Hx (fun _ => True) fs (Some (AFile d xs)) v _ _ Ho2 St2 G2) as [[_ Ef] _]. specialize (Ef f eq_refl). cbn [isE] in Ef. subst f.
    now injection H3 as <-. }
  apply bind_inv in H as [(tr & w6 & H6 & H)|(e & _ & Q)]; [|discriminate].
  apply bind_inv in H6 as [(u1 & w4 & H4 & H6)|(e1 & H4 & E)]; [|discriminate].
  assert (S4 : same w w4).
  { apply (same_trans _ w3); [assumption|]. revert H4. match goal with |- ?m w3 = _ -> _ => assert (Qm : quiet m) by quiet_tac end. apply Qm. }
  apply bind_inv in H6 as [(t & w5 & H5 & H6)|(e2 & H5 & E)]; [|discriminate]. injection H6 as <- <-.
  destruct (Hs w4 S4) as [Ho4 St4]. assert (E4 : w_fs w4 = fs) by (destruct S4 as (-> & _); assumption).
  destruct (crumple_run K D x TR Hx Htr w4 _ _ (File d xs) (proj1 St4) (proj1 (look_file _ _ _ _) (proj2 (proj2 St4)))
    ltac:(intros zs es E; discriminate) ltac:(now rewrite E4) Nb Ho4 H5) as [(_ & e & E)|(C5 & Tt)]; [discriminate|].
  rewrite E4 in Tt. pose proof Tt as (m & i & y & Rm & Ei & Hy & Etr & Hc & Nd & Mv).
  assert (Ho5 : honest (w_fault w5)) by (destruct C5 as (_ & _ & _ & ->); assumption).
  rewrite Lf in Rm. rewrite Er in Rm. injection Rm as ->.
  assert (Hm : m_id m <> PStr []) by now apply Hid'.
  assert (Eu' : exists u', u = Some u' /\ m_id u' <> PStr []).
  { unfold update_meta in Eu. destruct (negb (meta_bool m)); [discriminate|]. destruct pm as [pm|]; [|discriminate].
    destruct (negb (meta_bool pm)); [discriminate|]. destruct (merge (c_dateparse K) m pm) as [[d1 u1']|] eqn:Em; [|discriminate].
    cbn [rbind fst snd] in Eu. apply Ok_inj in Eu. injection Eu as -> <-. exists u1'. split; [reflexivity|]. now apply (merge_id (c_dateparse K) m pm true). }
  destruct Eu' as (u' & -> & Hu).
  assert (S5 : St (w_fs w5) None (w_fs w5)).
  { eapply St_moved; try eassumption; [apply (P_not_below_trash D x TR fs d xs Lf Ht Nb y)|apply below_app]. }
  apply bind_inv in H as [(u2 & w6 & H6 & H)|(e & H6 & E)]; [|discriminate]. injection H as <-.
  apply catch_inv in H6 as [(u3 & H6 & _)|(e & w7 & H6 & H7)].
  - subst. now destruct (body_data (w_fs w5) u' Hu w5 _ _ Ho5 S5 H6) as [B _]; apply (B u3).
  - exfalso. apply bind_inv in H7 as [(u4 & w8 & H7 & H8)|(e' & H7 & E)]; discriminate.
Qed.
End Live.

Lemma update_returns K D x TR fs cwd fault d xs pm b w' :
  good_name x -> good_fs fs -> look fs (D ++ [x]) = Some (AFile d xs) -> trash_at K fs TR (D ++ [x]) -> usable_id K x (Some (AFile d xs)) ->
  confined (D ++ [x]) (c_refresh K (path_of (D ++ [x]))) ->
  (forall w a v, c_refresh K (path_of (D ++ [x])) w = (Ok a, v) -> content (w_fs v) (D ++ [x]) = Some (concat (r_chunks (c_remote K)))) ->
  honest fault ->
  meta_updater K (path_of (D ++ [x])) pm true (start fs cwd fault) = (Ok b, w') ->
  (exists om u, recorded K x (Some (AFile d xs)) = Ok om /\ update_meta (c_dateparse K) om pm = Ok (b, u)) /\
  content (w_fs w') (D ++ [x]) = Some (if b then concat (r_chunks (c_remote K)) else d).
Proof.
  intros Hx G L (T1 & T2 & T3) U C S Ho H. now apply (update_live K D x TR fs d xs Hx T1 C S G L T2 T3 U pm (start fs cwd fault) b w').
Qed.
