(** * Updating metadata, the trash *)
From Coq Require Import String NArith ZArith Bool List Lia.
From Verif Require Import Model.Py Model.PurePath Model.Meta Model.MetaEncode Model.MetaXattr Model.MetaSymlink Model.MetaUpdate Model.Access
  Model.Fs Model.PathOps Model.Sparse Model.Copy Model.Cache
  Spec.FsSpec Spec.LoopSpec Spec.CopySpec Spec.CacheSpec
  Proofs.PyLemmas Proofs.PathLemmas Proofs.AccessProofs Proofs.FsLemmas Proofs.RunLemmas Proofs.RmtreeProofs Proofs.RmdirtreeProofs Proofs.SparseProofs
  Proofs.MoveLemmas Proofs.CopyProofs Proofs.Hoare Proofs.SlotLemmas Proofs.CacheLemmas Proofs.CacheOps Proofs.TrashProofs Proofs.UpdateProofs.
Import ListNotations.

(** ** Renaming changes nothing but what is at or below the two places *)
Lemma rename_off w A a B b r w' : good_fs (w_fs w) -> is_dir_at (w_fs w) A -> good_name a -> is_dir_at (w_fs w) B -> good_name b ->
  sys_rename (path_of (A ++ [a])) (path_of (B ++ [b])) w = (r, w') ->
  forall q, ~ below (A ++ [a]) q -> ~ below (B ++ [b]) q -> look (w_fs w') q = look (w_fs w) q.
Proof.
  intros G Ha Na Hb Nb H q N1 N2. unfold sys_rename in H. apply sys_inv in H as [(e & _ & S & _)|(u & fs & _ & E & C)].
  - destruct S as (-> & _). reflexivity.
  - destruct C as (-> & _). rewrite (not_dotdot_snoc A a Na), (not_dotdot_snoc B b Nb) in E. cbn [orb] in E. unfold lookup in E.
    destruct (get (w_fs w) (A ++ [a])) as [n|] eqn:Ga.
    2:{ rewrite walk_of_missing in E; try assumption; [discriminate|now apply look_none]. }
    rewrite (walk_of _ _ _ _ _ G Ga) in E by discriminate. cbn [rbind] in E.
    destruct (A ++ [a]) as [|z l] eqn:El; [discriminate|]. rewrite <- El in *.
    assert (Done : fs = w_fs w \/ fs = put (del (w_fs w) (A ++ [a])) (B ++ [b]) n -> look fs q = look (w_fs w) q).
    { intros [->| ->]; [reflexivity|]. rewrite look_put_other by assumption. now apply look_del_other. }
    apply Done. destruct (get (w_fs w) (B ++ [b])) as [m|] eqn:Gb.
    + rewrite (walk_of _ _ _ _ _ G Gb) in E by discriminate. destruct (list_eqb str_eqb (A ++ [a]) (B ++ [b])).
      * left. apply Ok_inj in E. now injection E as <-.
      * right. destruct n as [d xs|xs es|t], m as [d' ys|ys fs'|t']; try discriminate;
          repeat (match type of E with
                  | (if ?b then _ else _) = _ => destruct b; try discriminate
                  | match ?b with _ => _ end = _ => destruct b; try discriminate end);
          apply Ok_inj in E; now injection E as <-.
    + rewrite walk_of_missing in E; try assumption; [|now apply look_none].
      destruct (is_prefix (A ++ [a]) (B ++ [b])); [discriminate|]. right. apply Ok_inj in E. now injection E as <-.
Qed.

(** ** What [_meta_updater] leaves *)
Section Update.
Variables (K : conf) (D : place) (x : str) (TR : place) (fs : node) (cwd : place) (fault : nat -> option exn) (d : bytes) (xs : Fs.xattrs).
Notation P := (D ++ [x]).
Notation p := (path_of (D ++ [x])).
Hypothesis Hx : good_name x.
Hypothesis Htr : c_trash K = path_of TR.
Hypothesis Hconf : confined P (c_refresh K p).
Hypothesis Gf : good_fs fs.
Hypothesis Lf : look fs P = Some (AFile d xs).
Hypothesis Ht : is_dir_at fs TR.
Hypothesis Nb : ~ below TR P.
Hypothesis Hid : forall m i, recorded K x (Some (AFile d xs)) = Ok (Some m) -> m_id m = PStr i -> good_name (fs_safe_id i).
Hypothesis Ho : honest fault.

Lemma Hid' m : recorded K x (Some (AFile d xs)) = Ok (Some m) -> m_id m <> PStr [].
Proof. intros R E. destruct (Hid m [] R E) as [N _]. apply N. reflexivity. Qed.

Lemma run_states pm f r w' : meta_updater K p pm f (start fs cwd fault) = (r, w') ->
  stayed D x fs d (start fs cwd fault) w' \/ went K D x TR fs (start fs cwd fault) r w'.
Proof. intro H. apply (update_run K D x TR Hx Htr Hconf fs d xs Gf Lf Ht Nb Hid' pm f) in H as [H|(H & _)]; auto. Qed.

Lemma stayed_states w' : stayed D x fs d (start fs cwd fault) w' -> forall s, In s (states w') -> Inv0 D x fs d s.
Proof.
  intros ((_ & _ & l & E & Fl) & Q) s [<-|Is]; [assumption|]. rewrite E in Is. apply in_app_iff in Is as [Is|[<-|[]]].
  - now apply (proj1 (Forall_forall _ _) Fl).
  - exists xs. now apply St0.
Qed.

Lemma after T w1 s : moved fs P T (w_fs w1) -> ~ below P T -> Inv1 K D x (w_fs w1) s -> look s T = Some (AFile d xs).
Proof. intros (_ & E & _) N (_ & O & _). rewrite O by assumption. now rewrite E. Qed.

Lemma last_rename w1 w2 t y i r3 w' : moved fs P (TR ++ [y]) (w_fs w1) -> good_name y -> good_name (fs_safe_id i) ->
  t = pp_join (c_trash K) (pp_parse (fs_safe_id i)) -> Inv1 K D x (w_fs w1) (w_fs w2) -> sys_rename t p w2 = (r3, w') ->
  (same w2 w' \/ changed (w_fs w') w2 w') /\ 
  ((y <> fs_safe_id i /\ look (w_fs w') (TR ++ [y]) = Some (AFile d xs)) \/
   (y = fs_safe_id i /\
    ((same w2 w' /\ exists e, r3 = Err e /\ (w_fault w2 (w_tick w2) = Some e \/ is_dir_at (w_fs w2) P)) \/
     (r3 = Ok tt /\ moved (w_fs w2) (TR ++ [y]) P (w_fs w'))))).
Proof.
  intros Mv Hy Hz -> Iv H. assert (Ch : same w2 w' \/ changed (w_fs w') w2 w').
  { unfold sys_rename in H. apply sys_inv in H as [(e & _ & S & _)|(u & fs' & _ & _ & C)]; [now left|right]. assert (w_fs w' = fs') as -> by apply C. exact C. }
  split; [assumption|]. rewrite Htr, join_name in H by assumption.
  pose proof (P_not_below_trash D x TR fs d xs Lf Ht Nb y) as Ny.
  assert (G2 : good_fs (w_fs w2)) by apply Iv. pose proof Iv as (_ & O & _).
  assert (Nt : ~ below P TR) by (intro B; apply Ny; apply (below_trans _ TR); [assumption|apply below_app]).
  assert (T2 : is_dir_at (w_fs w2) TR).
  { destruct Ht as (zs & Lt). exists zs. rewrite O by assumption. destruct Mv as (_ & _ & _ & Mo). rewrite Mo; [assumption| |].
    - intros ->. apply Nb, below_refl.
    - intro E. apply (f_equal (@length str)) in E. rewrite app_length in E. cbn [length] in E. lia. }
  assert (D2 : is_dir_at (w_fs w2) D).
  { destruct (St_moved K D x TR Hconf fs d xs Gf Lf Nb w1 (TR ++ [y]) Mv Ny (below_app _ _)) as ((_ & (zs & Ld) & _) & _). exists zs. rewrite O; [assumption|].
    intro B. now apply below_snoc_self in B. }
  assert (L2 : look (w_fs w2) (TR ++ [y]) = Some (AFile d xs)) by now apply (after _ w1).
  destruct (str_dec y (fs_safe_id i)) as [E|E].
  - right. split; [assumption|]. rewrite <- E in H.
    apply (rename_leaf w2 (TR ++ [y]) (File d xs) D x) in H; try assumption.
    + destruct H as [(S & e & -> & Hk)|(-> & _ & Mw & _)].
      * left. split; [assumption|]. exists e. split; [reflexivity|]. tauto.
      * right. now split.
    + intro Z. destruct TR; discriminate.
    + now apply look_file.
    + intros zs es Z. discriminate.
    + intro Z. apply Nb. rewrite <- Z. apply below_app.
  - left. split; [assumption|]. rewrite (rename_off w2 TR (fs_safe_id i) D x r3 w'); try assumption.
    intro B. pose proof (below_len _ _ B) as Bl. apply below_snoc in B as [B|B]; [now apply below_snoc_self in B|]. apply app_inj_tail in B as [_ B]. congruence.
Qed.

(** Without fetching, and where nothing differs, the content stays where it is. *)
Lemma stays pm f r w' : meta_updater K p pm f (start fs cwd fault) = (r, w') ->
  f = false \/ (forall m u, recorded K x (Some (AFile d xs)) = Ok (Some m) -> update_meta (c_dateparse K) (Some m) pm <> Ok (true, u)) ->
  forall s, In s (states w') -> content s P = Some d /\ only_at P fs s.
Proof.
  intros H C s Is. apply (update_run K D x TR Hx Htr Hconf fs d xs Gf Lf Ht Nb Hid' pm f) in H as [H|(_ & _ & Ef & m & u & Rm & Em)]; [|destruct C as [C|C]; [congruence|now apply C in Em]|reflexivity|exact Ho].
  destruct (stayed_states w' H s Is) as (xs' & _ & O & L). unfold content. rewrite L. split; [reflexivity|].
  intros q Nq. destruct (below_dec P q) as [(l & ->)|B]; [|now apply O]. destruct l as [|z l]; [rewrite app_nil_r in Nq; congruence|].
  rewrite (leaf_below' s P z l), (leaf_below' fs P z l); congruence.
Qed.

(** At every moment the content is at the path or in the trash. *)
Lemma nothing_lost pm f r w' : meta_updater K p pm f (start fs cwd fault) = (r, w') ->
  forall s, In s (states w') -> content s P = Some d \/ exists y, look s (TR ++ [y]) = Some (AFile d xs).
Proof.
  intros H s Is. destruct (run_states _ _ _ _ H) as [Q|(w1 & w2 & t & C & Tt & R & Iv & E)].
  - left. destruct (stayed_states w' Q s Is) as (xs' & _ & _ & L). unfold content. now rewrite L.
  - destruct Tt as (m & i & y & Rm & Ei & Hy & Et & _ & _ & Mv). apply Ok_inj in Et.
    rewrite Lf in Rm. pose proof (Hid m i Rm Ei) as Hz.
    pose proof (P_not_below_trash D x TR fs d xs Lf Ht Nb y) as Ny.
    assert (A2 : forall s, In s (w_fs w2 :: w_hist w2) -> content s P = Some d \/ exists y, look s (TR ++ [y]) = Some (AFile d xs)).
    { destruct R as (_ & _ & l & Eh & Fl). destruct C as (_ & _ & Ch & _).
      intros q [<-|Iq]; [right; exists y; now apply (after _ w1)|]. rewrite Eh, in_app_iff in Iq. destruct Iq as [Iq|Iq].
      - right. exists y. apply (after _ w1); try assumption. now apply (proj1 (Forall_forall _ _) Fl).
      - rewrite Ch in Iq. destruct Iq as [<-|[<-|[]]].
        + right. exists y. destruct Mv as (_ & -> & _). assumption.
        + left. unfold content. now rewrite Lf. }
    destruct E as [(_ & ->)|(r3 & E & _)]; [now apply A2|].
    destruct (last_rename w1 w2 t y i r3 w' Mv Hy Hz Et Iv E) as (Ch & K1).
    assert (Is' : s = w_fs w' \/ In s (w_fs w2 :: w_hist w2)).
    { destruct Is as [<-|Is]; [now left|]. destruct Ch as [Ch|Ch]; destruct Ch as (_ & _ & Eh & _); rewrite Eh in Is.
      - right. now right.
      - destruct Is as [<-|Is]; [now left|]. right. now right. }
    destruct Is' as [->|Is']; [|now apply A2].
    destruct K1 as [(_ & L)|(_ & [(S & _)|(_ & Mw)])].
    + right. eauto.
    + destruct S as (-> & _). apply A2. now left.
    + left. destruct Mw as (_ & L & _). unfold content. rewrite L, (after (TR ++ [y]) w1 (w_fs w2)) by assumption. reflexivity.
Qed.

(** When it raises, the file is as it was. *)
Lemma restored pm f e w' : meta_updater K p pm f (start fs cwd fault) = (Err e, w') ->
  r_is_dir (c_remote K) = false -> (forall t, fault t <> Some (OSErr ENAMETOOLONG)) -> fault (pred (w_tick w')) = None ->
  (forall s, In s (states w') -> content s P = Some d /\ only_at P fs s) \/
  (exists y, ~ is_dir_at fs (TR ++ [y]) /\ look (w_fs w') (TR ++ [y]) = None /\ forall q, q <> TR ++ [y] -> look (w_fs w') q = look fs q).
Proof.
  intros H Rd Nl Lt. destruct (run_states _ _ _ _ H) as [Q|(w1 & w2 & t & C & Tt & R & Iv & E)].
  - left. intros s Is. destruct (stayed_states w' Q s Is) as (xs' & _ & O & L). unfold content. rewrite L. split; [reflexivity|].
    intros q Nq. destruct (below_dec P q) as [(l & ->)|B]; [|now apply O]. destruct l as [|z l]; [rewrite app_nil_r in Nq; congruence|].
    rewrite (leaf_below' s P z l), (leaf_below' fs P z l); congruence.
  - right. destruct E as [(E & _)|(r3 & E & _)]; [discriminate|].
    destruct Tt as (m & i & y & Rm & Ei & Hy & Et & Hc & Nd & Mv). apply Ok_inj in Et.
    rewrite Lf in Rm. pose proof (Hid m i Rm Ei) as Hz.
    destruct (last_rename w1 w2 t y i r3 w' Mv Hy Hz Et Iv E) as (_ & K1). exists y. split; [assumption|].
    destruct K1 as [(Ny & _)|(_ & [(S & e3 & _ & [Hf|Hd])|(_ & Mw)])].
    + exfalso. destruct Hc as [Hc|(_ & k & Hc)]; [congruence|]. now apply (Nl k).
    + exfalso. unfold sys_rename, sys in E. rewrite Hf in E. injection E as _ <-. cbn [w_tick pred] in Lt.
      destruct R as (Rf & _). destruct C as (_ & _ & _ & Cf). rewrite Rf, Cf in Hf. cbn [start w_fault] in Hf. congruence.
    + destruct Iv as (_ & _ & Iv). now elim (Iv Rd).
    + pose proof (P_not_below_trash D x TR fs d xs Lf Ht Nb y) as Ny.
      pose proof (after (TR ++ [y]) w1 (w_fs w2) Mv Ny Iv) as L2.
      destruct Mw as (_ & Lp & Ln & Mo). split; [assumption|]. intros q Nq.
      destruct (below_dec P q) as [(l & ->)|B].
      * destruct l as [|z l]; [rewrite app_nil_r; congruence|]. rewrite (leaf_below' _ P z l), (leaf_below' fs P z l); congruence.
      * assert (Np : q <> P) by (intros ->; apply B, below_refl). rewrite Mo by assumption.
        destruct Iv as (_ & O & _). rewrite O by assumption. destruct Mv as (_ & _ & _ & Mv). now apply Mv.
Qed.
End Update.

(** ** crumple *)
Section Crumple.
Variables (K : conf) (D : place) (x : str) (TR : place) (fs : node) (cwd : place) (fault : nat -> option exn) (v : thing).
Notation P := (D ++ [x]).
Notation p := (path_of (D ++ [x])).
Hypothesis Hx : good_name x.
Hypothesis Htr : c_trash K = path_of TR.
Hypothesis Gf : good_fs fs.
Hypothesis Lf : look fs P = Some v.
Hypothesis Hv : match v with ADir _ => False | ALink t => starts_with_name x t | AFile _ _ => True end.
Hypothesis Ht : is_dir_at fs TR.
Hypothesis Nb : ~ below TR P.
Hypothesis Ho : honest fault.

(** Only the entry with the name of the id, or the name of the path where that was
    too long, is replaced. *)
Lemma crumple_states r w' : crumple K p (start fs cwd fault) = (r, w') ->
  (w_hist w' = [fs] /\ w_fs w' = fs /\ exists e, r = Err e) \/
  (exists m i y, recorded K x (Some v) = Ok (Some m) /\ m_id m = PStr i /\
     (y = fs_safe_id i \/ y = x /\ exists t, fault t = Some (OSErr ENAMETOOLONG)) /\
     w_hist w' = [w_fs w'; fs] /\ r = Ok (pp_join (path_of TR) (pp_parse (fs_safe_id i))) /\
     ~ is_dir_at fs (TR ++ [y]) /\ moved fs P (TR ++ [y]) (w_fs w')).
Proof.
  intro H.
  assert (Fi : fine D x fs).
  { split; [assumption|]. split; [apply (look_above fs D x []); congruence|]. intros t E. rewrite E in Lf. injection Lf as <-. exact Hv. }
  destruct (look_some fs P) as (n & Gp); [congruence|].
  assert (N : not_dir n). { intros ys es ->. unfold look in Lf. rewrite Gp in Lf. injection Lf as <-. exact Hv. }
  destruct (crumple_run K D x TR Hx Htr (start fs cwd fault) r w' n Fi Gp N Ht Nb Ho H) as [((S1 & _ & S3 & _) & Er)|(C & m & i & y & Rm & Ei & Hy & Er & Hc & Nd & Mv)].
  - left. now repeat split.
  - right. exists m, i, y. cbn [start w_fs w_fault] in *. rewrite Lf in Rm. rewrite Htr in Er. split; [assumption|]. split; [assumption|]. split; [assumption|]. split; [apply C|]. tauto.
Qed.
End Crumple.

(** ** Local changes *)

(** Nothing changes, and the result is that or the error of a call that failed. *)
Definition sure {A} (w : world) (m : M A) (v : res A) : Prop :=
  forall r w', m w = (r, w') -> same w w' /\ (r = v \/ exists e t, r = Err e /\ w_fault w t = Some e).
Lemma fault_same w w1 : same w w1 -> w_fault w1 = w_fault w. Proof. now intros (_ & _ & _ & ->). Qed.
Lemma sure_bind {A B} w (m : M A) (f : A -> M B) a v : sure w m (Ok a) -> (forall w1, same w w1 -> sure w1 (f a) v) -> sure w (bind m f) v.
Proof.
  intros H1 H2 r w' H. apply bind_inv in H as [(b & w1 & E & H)|(e & E & ->)]; destruct (H1 _ _ E) as [S [Q|(e1 & t & Q & Hf)]]; try discriminate.
  - apply Ok_inj in Q. subst b. destruct (H2 w1 S _ _ H) as [S2 Hr]. split; [now apply (same_trans _ w1)|]. now rewrite (fault_same _ _ S) in Hr.
  - injection Q as <-. split; [assumption|]. right. exists e, t. now split.
Qed.
Lemma sure_bind_err {A B} w (m : M A) (f : A -> M B) e : sure w m (Err e) -> sure w (bind m f) (Err e).
Proof.
  intros H1 r w' H. apply bind_inv in H as [(b & w1 & E & H)|(e1 & E & ->)]; destruct (H1 _ _ E) as [S [Q|(e2 & t & Q & Hf)]]; try discriminate.
  - injection Q as ->. split; [assumption|now left].
  - injection Q as ->. split; [assumption|right]. exists e2, t. now split.
Qed.
Lemma sure_ret {A} w (a : A) : sure w (ret a) (Ok a).
Proof. intros r w' H. injection H as <- <-. split; [apply same_refl|now left]. Qed.
Lemma sure_raise {A} w (e : exn) : sure w (@raise A e) (Err e).
Proof. intros r w' H. injection H as <- <-. split; [apply same_refl|now left]. Qed.
Lemma sure_lift {A} w (v : res A) : sure w (lift v) v.
Proof. intros r w' H. injection H as <- <-. split; [apply same_refl|now left]. Qed.
Lemma sure_ask {A} w (f : node -> place -> res A) v : f (w_fs w) (w_cwd w) = v -> sure w (ask f) v.
Proof. intros E r w' H. apply ask_inv in H as [S [->|(e & -> & Hf)]]; (split; [assumption|]); [now left|]. right. eauto. Qed.

Section Changes.
Variables (K : conf) (D : place) (x : str) (fs : node) (d : bytes) (xs : Fs.xattrs).
Notation P := (D ++ [x]).
Notation p := (path_of (D ++ [x])).
Hypothesis Hx : good_name x.
Hypothesis Gf : good_fs fs.
Hypothesis Lf : look fs P = Some (AFile d xs).

Definition at_ (w : world) : Prop := honest (w_fault w) /\ w_fs w = fs.
Lemma at_same w w1 : at_ w -> same w w1 -> at_ w1.
Proof. intros [N E] S. split; [now rewrite (fault_same _ _ S)|]. destruct S as (-> & _). assumption. Qed.
Lemma Gp : get fs P = Some (File d xs). Proof. now apply look_file. Qed.
Lemma found follow w : at_ w -> walk (w_fs w) (w_cwd w) follow p = Found P (File d xs).
Proof. intros [_ ->]. apply walk_of; [assumption|apply Gp|discriminate]. Qed.
Lemma s_stat follow w : at_ w -> sure w (sys_stat follow p) (Ok (File d xs)).
Proof. intro A. apply sure_ask. unfold lookup. now rewrite (found follow w A). Qed.
Lemma s_test follow g w : at_ w -> sure w (test (sys_stat follow p) g) (Ok (g (File d xs))).
Proof.
  intros A r w' H. unfold test in H. apply catch_inv in H as [(b & H & ->)|(e & w1 & H & Hh)].
  - apply bind_inv in H as [(n & w1 & H & Hn)|(e & _ & E)]; [|discriminate]. injection Hn as <- <-.
    destruct (s_stat follow w A _ _ H) as [S [Q|(e & t & Q & _)]]; [|discriminate]. apply Ok_inj in Q. subst n. split; [assumption|now left].
  - apply bind_inv in H as [(n & w2 & H & Hn)|(e1 & H & E)]; [discriminate|]. injection E as <-.
    destruct (s_stat follow w A _ _ H) as [S [Q|(e1 & t & Q & Hf)]]; [discriminate|]. injection Q as <-.
    assert (Ig : ignored e = false). { destruct A as [Ho _]. apply Ho in Hf as [->|(n & -> & N1 & N2 & N3)]; [reflexivity|]. destruct n; try reflexivity; congruence. }
    rewrite Ig in Hh. injection Hh as <- <-. split; [assumption|]. right. eauto.
Qed.
Lemma s_read w : at_ w -> sure w (read_all p) (Ok d).
Proof. intro A. apply sure_ask. unfold lookup. now rewrite (found true w A). Qed.
Lemma s_cache_meta w m : at_ w -> recorded K x (Some (AFile d xs)) = Ok m -> sure w (cache_meta K p) (Ok m).
Proof.
  intros A R. cbn [recorded] in R. destruct (from_xattrs (c_legacy K) (user_attrs xs) (c_prefix K)) as [m0|e] eqn:E0; [|discriminate]. cbn [rbind] in R.
  apply Ok_inj in R. unfold cache_meta. eapply sure_bind; [apply s_test; assumption|]. intros w1 S1. cbv beta iota.
  pose proof (at_same _ _ A S1) as A1. eapply sure_bind with (a := Some m0).
  - unfold eat_meta. eapply sure_bind; [apply s_test; assumption|]. intros w2 S2. cbv beta iota. pose proof (at_same _ _ A1 S2) as A2.
    eapply sure_bind with (a := user_attrs xs).
    + apply sure_ask. unfold lookup. now rewrite (found true w2 A2).
    + intros w3 S3. eapply sure_bind; [rewrite E0; apply sure_lift|]. intros w4 S4. apply sure_ret.
  - intros w2 S2. cbn [meta_true]. destruct (meta_bool m0); subst m; apply sure_ret.
Qed.
Lemma s_local_checksum cy w : at_ w -> sure w (local_checksum K p cy) (Ok (PBytes (c_digest K (used_cypher K cy) d))).
Proof.
  intro A. unfold local_checksum. eapply sure_bind; [apply s_test; assumption|]. intros w1 S1. cbv beta iota. pose proof (at_same _ _ A S1) as A1.
  eapply sure_bind; [now apply s_read|]. intros w2 S2. apply sure_ret.
Qed.
Lemma own_cypher : used_cypher K (c_cypher K) = c_cypher K.
Proof. unfold used_cypher. now destruct (str_eqb (c_cypher K) default_cypher). Qed.
Lemma s_meta_checksum w : at_ w -> sure w (local_meta_checksum K p) (Ok (PBytes (c_digest K (c_cypher K) d))).
Proof.
  intro A. unfold local_meta_checksum. eapply sure_bind; [apply s_test; assumption|]. intros w1 S1. cbv beta iota. pose proof (at_same _ _ A S1) as A1.
  eapply sure_bind; [now apply s_stat|]. intros w2 S2. pose proof (at_same _ _ A1 S2) as A2. pose proof (s_local_checksum (c_cypher K) w2 A2) as L. now rewrite own_cypher in L.
Qed.

Variables (old new u : pathmeta).
Hypothesis Ro : recorded K x (Some (AFile d xs)) = Ok (Some old).
Hypothesis Hu : update_meta (c_dateparse K) (Some old) (Some new) = Ok (true, Some u).
Hypothesis To : truthy (m_checksum old) = true.
Hypothesis No : py_eq (PBytes (c_digest K (c_cypher K) d)) (m_checksum old) = false.
Hypothesis Nn : py_eq (PBytes (c_digest K (c_cypher K) d)) (m_checksum new) = false.

Lemma changes_raise w : at_ w -> sure w (meta_updater K p (Some new) true) (Err LocalChangesError).
Proof.
  intro A. unfold meta_updater. eapply sure_bind; [apply s_cache_meta; [exact A|exact Ro]|]. intros w1 S1. pose proof (at_same _ _ A S1) as A1.
  eapply sure_bind; [rewrite Hu; apply sure_lift|]. intros w2 S2. pose proof (at_same _ _ A1 S2) as A2. cbv beta iota.
  eapply sure_bind with (a := true).
  { eapply sure_bind; [apply s_test; assumption|]. intros w3 S3. cbv beta iota. eapply sure_bind; [apply s_test; now apply (at_same _ _ A2)|]. intros w4 S4. apply sure_ret. }
  intros w3 S3. pose proof (at_same _ _ A2 S3) as A3. cbv beta iota. apply sure_bind_err. apply sure_bind_err.
  assert (Q : sure w3 (let! cd <- p_content_different K p;
     if cd then let! c <- local_meta_checksum K p; if py_eq c (m_checksum new) then ret tt else raise LocalChangesError else ret tt) (Err LocalChangesError)).
  { eapply sure_bind with (a := true).
    - unfold p_content_different. eapply sure_bind; [apply s_cache_meta; [exact A3|exact Ro]|]. intros w4 S4. pose proof (at_same _ _ A3 S4) as A4. cbv beta iota. rewrite To.
      eapply sure_bind; [now apply s_meta_checksum|]. intros w5 S5. rewrite No. apply sure_ret.
    - intros w4 S4. pose proof (at_same _ _ A3 S4) as A4. cbv beta iota. eapply sure_bind; [now apply s_meta_checksum|]. intros w5 S5. rewrite Nn. apply sure_raise. }
  intros r w' H. apply catch_inv in H as [(b & H & ->)|(e & w4 & H & Hh)]; destruct (Q _ _ H) as [S [E|(e1 & t & E & Hf)]]; try discriminate.
  - injection E as ->. injection Hh as <- <-. split; [assumption|now left].
  - injection E as <-. assert (Hr : r = Err e /\ w' = w4).
    { destruct A3 as [Ho _]. apply Ho in Hf as [->|(n & -> & _)]; injection Hh as <- <-; now split. }
    destruct Hr as [-> ->]. split; [assumption|right]. eauto.
Qed.
End Changes.
