(** Proofs about where metadata is read. *)
From Coq Require Import String NArith ZArith Bool List.
From Verif Require Import Model.Py Model.PurePath Model.Meta Model.MetaXattr Model.MetaSymlink Model.Fs Model.PathOps Model.Cache.
From Verif Require Import Spec.FsSpec Spec.LoopSpec Spec.ReadlinkSpec Spec.ReadMetaSpec.
From Verif Require Import Proofs.PyLemmas Proofs.FsLemmas Proofs.RunLemmas Proofs.Hoare Proofs.CacheLemmas Proofs.CacheProofs Proofs.LinkProofs Proofs.AttrLemmas.
From Verif Require Proofs.RmdirtreeProofs Proofs.RepoProofs.
Import ListNotations.

(** ** Attributes *)
Lemma not_user n : startswith n $"user." = false \/ text_key (skipn 5 n) = None -> forall k : bytes, n <> $"user." ++ map Byte.to_N k.
Proof.
  intros [H|H] k ->.
  - now rewrite startswith_app in H.
  - change (skipn 5 ($"user." ++ map Byte.to_N k)) with (key_text k) in H. rewrite text_key_text in H. discriminate.
Qed.
Lemma of_user_attrs xs : of_user xs (user_attrs xs).
Proof.
  induction xs as [|[n v] xs IH]; [constructor|]. unfold user_attrs. cbn [flat_map fst snd]. fold (user_attrs xs).
  destruct (startswith n $"user.") eqn:W; [|apply ou_other; [apply not_user; now left|exact IH]].
  destruct (text_key (skipn 5 n)) as [k|] eqn:T; [|apply ou_other; [apply not_user; now right|exact IH]].
  apply startswith_spec in W. destruct W as (t & ->). change (skipn 5 ($"user." ++ t)) with t in T.
  apply text_key_inv in T. subst t. cbn [app]. apply (ou_mine k v xs (user_attrs xs) IH).
Qed.
Lemma of_user_only xs ys : of_user xs ys -> ys = user_attrs xs.
Proof.
  intro H. induction H as [|k v xs ys H IH|n v xs ys N H IH]; [reflexivity| |].
  - unfold user_attrs. cbn [flat_map fst snd]. fold (user_attrs xs). rewrite startswith_app.
    change (skipn 5 ($"user." ++ map Byte.to_N k)) with (key_text k). rewrite text_key_text, IH. reflexivity.
  - unfold user_attrs. cbn [flat_map fst snd]. fold (user_attrs xs).
    destruct (startswith n $"user.") eqn:W; [|exact IH]. destruct (text_key (skipn 5 n)) as [k|] eqn:T; [|exact IH].
    apply startswith_spec in W. destruct W as (t & ->). change (skipn 5 ($"user." ++ t)) with t in T.
    apply text_key_inv in T. subst t. now destruct (N k).
Qed.

(** ** Reading the text of a link does not say that there is no metadata *)
Definition says {A} (r : res A) : Prop := r <> Err NoCachedMetadataError.
Lemma says_bind {A B} (r : res A) (f : A -> res B) : says r -> (forall a, says (f a)) -> says (rbind r f).
Proof. intros H1 H2. destruct r as [a|e]; cbn [rbind]; [apply H2|]. intro E. apply H1. now injection E as ->. Qed.
Ltac says_cases := repeat match goal with
  | |- says (rbind _ _) => apply says_bind; [|intro]
  | |- says (Ok _) => discriminate
  | |- says (Err _) => discriminate
  | |- says (match ?x with _ => _ end) => destruct x
  end.
Lemma says_decode f v z : says (decode f v z).
Proof. unfold decode. says_cases. Qed.
Lemma says_decode_all l z : forall a, says (decode_all l z a).
Proof.
  induction l as [|[f s] l IH]; intro a; cbn [decode_all]; [discriminate|]. apply says_bind; [apply says_decode|]. intro v. apply IH.
Qed.
Lemma says_init a : says (meta_init a).
Proof. unfold meta_init, meta_init_x, filesize, errors_tuple. says_cases. Qed.
Lemma says_parts ps : says (from_parts ps).
Proof.
  unfold from_parts. destruct ps as [|p ps]; [discriminate|].
  destruct (split c_fieldsep (last (p :: ps) [])) as [|? [|version suffixes]]; try discriminate.
  destruct (py_int (skipn 3 version)) as [v|]; [|discriminate]. destruct (lookup_version version) as [o|]; [|discriminate].
  apply says_bind; [apply says_decode_all|]. intro a. apply says_bind; [apply says_decode|]. intro i. apply says_init.
Qed.
Lemma says_symlink n t b c : says (from_symlink n t b c).
Proof. unfold from_symlink. says_cases; apply says_parts. Qed.

Section Read.
Variables (K : conf) (p : ppath) (fs : node) (cwd : place).
Definition att (w : world) : Prop := honest (w_fault w) /\ w_fs w = fs /\ w_cwd w = cwd.
Lemma att_same w w1 : att w -> same w w1 -> att w1.
Proof. intros (N & E & C) S. split; [now rewrite (fault_same _ _ S)|]. destruct S as (-> & -> & _). now split. Qed.

Lemma g_test follow g w : att w -> sure w (test (sys_stat follow p) g)
  (Ok (match walk fs cwd follow p with Found _ n => g n | _ => false end)).
Proof.
  intros (Ho & Ef & Ec) r w' H. pose proof H as H'. apply test_honest in H as [S H]; [|exact Ho]. split; [exact S|].
  rewrite Ef, Ec in H. destruct r as [[]|e].
  - destruct H as (q & n & W & E). left. now rewrite W, E.
  - left. destruct (walk fs cwd follow p) as [q n|d x|e] eqn:W; try reflexivity. now rewrite (H q n eq_refl).
  - right. unfold test in H'. apply catch_inv in H' as [(b & H' & E)|(e1 & w1 & H' & Kh)]; [discriminate|].
    apply bind_inv in H' as [(n & w2 & H' & K2)|(e' & H' & K2)]; [discriminate|]. injection K2 as ->.
    destruct (ignored e') eqn:Ig; [injection Kh as E _; discriminate|]. injection Kh as <- _.
    apply ask_inv in H' as [_ [Q|(e2 & Q & F)]].
    + exfalso. rewrite Ef, Ec in Q. unfold lookup in Q. destruct (walk fs cwd follow p) as [q n|d x|er] eqn:W; cbn [rbind] in Q.
      * discriminate.
      * injection Q as ->. discriminate Ig.
      * injection Q as ->. apply RmdirtreeProofs.walk_fail in W. rewrite W in Ig. discriminate Ig.
    + injection Q as ->. eauto.
Qed.
Lemma g_exists w : att w -> sure w (p_exists p) (Ok (match walk fs cwd true p with Found _ _ => true | _ => false end)).
Proof. exact (g_test true (fun _ => true) w). Qed.
Lemma g_link w : att w -> sure w (p_is_symlink p) (Ok (match walk fs cwd false p with Found _ (Link _) => true | _ => false end)).
Proof. intro A. pose proof (g_test false (fun n => match n with Link _ => true | _ => false end) w A) as H.
  unfold p_is_symlink. destruct (walk fs cwd false p) as [q []|d x|e]; exact H. Qed.

Lemma opens_exists q : opens fs cwd p q -> (match walk fs cwd true p with Found _ _ => true | _ => false end) = true.
Proof. now intros [n ->]. Qed.
Lemma not_opens : (forall q, ~ opens fs cwd p q) -> (match walk fs cwd true p with Found _ _ => true | _ => false end) = false.
Proof. intro N. destruct (walk fs cwd true p) as [q n|d x|e] eqn:W; try reflexivity. destruct (N q). now exists n. Qed.
Lemma link_walk t : link_at fs cwd p t -> exists q, walk fs cwd false p = Found q (Link t).
Proof.
  intros (q & [n W] & L). exists q. apply look_link in L. pose proof (walk_found_get _ _ _ _ _ _ _ W) as G. rewrite G in L.
  injection L as ->. exact W.
Qed.
Lemma no_link : (forall t, ~ link_at fs cwd p t) -> (match walk fs cwd false p with Found _ (Link _) => true | _ => false end) = false.
Proof.
  intro N. destruct (walk fs cwd false p) as [q n|d x|e] eqn:W; try reflexivity. destruct n as [d xs|xs es|t]; try reflexivity.
  destruct (N t). exists q. split; [now exists (Link t)|]. apply look_link. exact (walk_found_get _ _ _ _ _ _ _ W).
Qed.

Lemma s_there w q : att w -> opens fs cwd p q -> sure w (p_exists p) (Ok true).
Proof. intros A O. pose proof (g_exists w A) as H. now rewrite (opens_exists q O) in H. Qed.
Lemma s_gone w : att w -> (forall q, ~ opens fs cwd p q) -> sure w (p_exists p) (Ok false).
Proof. intros A O. pose proof (g_exists w A) as H. now rewrite (not_opens O) in H. Qed.
Lemma s_no_link w : att w -> (forall t, ~ link_at fs cwd p t) -> sure w (p_is_symlink p) (Ok false).
Proof. intros A O. pose proof (g_link w A) as H. now rewrite (no_link O) in H. Qed.

Definition decoded (v : res pathmeta) : res (option pathmeta) :=
  match v with Ok m => Ok (Some m) | Err e => Err e end.
Definition told (v : res pathmeta) : res (option pathmeta) :=
  match v with Ok m => Ok (if meta_bool m then Some m else None) | Err e => Err e end.

Lemma eat_thing xs ys w : att w -> opens_with fs cwd p xs -> of_user xs ys ->
  sure w (eat_meta K p) (decoded (from_xattrs (c_legacy K) ys (c_prefix K))).
Proof.
  intros A (q & O & L) U. apply of_user_only in U. subst ys. unfold eat_meta.
  eapply sure_bind; [exact (s_there _ q A O)|]. intros w1 S1. cbv beta iota.
  pose proof (att_same _ _ A S1) as A1.
  eapply sure_bind with (a := user_attrs xs).
  - apply sure_ask. destruct A1 as (_ & -> & ->). destruct O as [n W]. unfold lookup. rewrite W. cbn [rbind snd].
    pose proof (walk_found_get _ _ _ _ _ _ _ W) as G.
    destruct L as [L|[d L]]; unfold look in L; rewrite G in L; destruct n as [d' xs'|xs' es|t]; try discriminate.
    + injection L as ->. reflexivity.
    + injection L as -> ->. reflexivity.
  - intros w2 S2. destruct (from_xattrs (c_legacy K) (user_attrs xs) (c_prefix K)) as [m|e].
    + eapply sure_bind; [apply sure_lift|]. intros w3 S3. apply sure_ret.
    + apply sure_bind_err. apply sure_lift.
Qed.
Lemma cache_thing xs ys w : att w -> opens_with fs cwd p xs -> of_user xs ys ->
  sure w (cache_meta K p) (told (from_xattrs (c_legacy K) ys (c_prefix K))).
Proof.
  intros A O U. unfold cache_meta. pose proof O as (q & Oq & _).
  eapply sure_bind; [exact (s_there _ q A Oq)|]. intros w1 S1. cbv beta iota.
  pose proof (att_same _ _ A S1) as A1. pose proof (eat_thing xs ys w1 A1 O U) as E.
  destruct (from_xattrs (c_legacy K) ys (c_prefix K)) as [m|e]; cbn [decoded told] in *.
  - eapply sure_bind; [exact E|]. intros w2 S2. cbn [meta_true]. destruct (meta_bool m); apply sure_ret.
  - now apply sure_bind_err.
Qed.
Lemma eat_none w : att w -> (forall q, ~ opens fs cwd p q) -> sure w (eat_meta K p) (Ok None).
Proof.
  intros A O. unfold eat_meta. eapply sure_bind; [exact (s_gone _ A O)|]. intros w1 S1. apply sure_ret.
Qed.
Lemma link_nothing t w : att w -> link_at fs cwd p t -> (forall q, ~ opens fs cwd p q) ->
  sure w (symlink_meta p) (from_symlink (pp_name p) t false false).
Proof.
  intros A L O. destruct (link_walk t L) as [q W]. unfold symlink_meta.
  eapply sure_bind with (a := true); [pose proof (g_link w A) as G; now rewrite W in G|]. intros w1 S1. cbv beta iota.
  pose proof (att_same _ _ A S1) as A1.
  eapply sure_bind; [exact (s_gone _ A1 O)|]. intros w2 S2. cbv beta iota.
  pose proof (att_same _ _ A1 S2) as A2.
  eapply sure_bind with (a := t).
  - apply sure_ask. destruct A2 as (_ & -> & ->). unfold lookup. rewrite W. reflexivity.
  - intros w3 S3. apply sure_lift.
Qed.
Lemma link_leads t q w : att w -> link_at fs cwd p t -> opens fs cwd p q -> sure w (symlink_meta p) (Err PathExistsErr).
Proof.
  intros A L O. destruct (link_walk t L) as [q' W]. unfold symlink_meta.
  eapply sure_bind with (a := true); [pose proof (g_link w A) as G; now rewrite W in G|]. intros w1 S1. cbv beta iota.
  pose proof (att_same _ _ A S1) as A1.
  eapply sure_bind; [exact (s_there _ q A1 O)|]. intros w2 S2. apply sure_raise.
Qed.
Lemma link_none w : att w -> (forall t, ~ link_at fs cwd p t) -> sure w (symlink_meta p) (Err NoCachedMetadataError).
Proof.
  intros A L. unfold symlink_meta. eapply sure_bind; [exact (s_no_link _ A L)|]. intros w1 S1. apply sure_raise.
Qed.
Lemma cache_none w : att w -> (forall q, ~ opens fs cwd p q) -> (forall t, ~ link_at fs cwd p t) -> sure w (cache_meta K p) (Ok None).
Proof.
  intros A O L. unfold cache_meta. eapply sure_bind; [exact (s_gone _ A O)|]. intros w1 S1. cbv beta iota.
  pose proof (att_same _ _ A S1) as A1.
  eapply sure_bind; [exact (s_no_link _ A1 L)|]. intros w2 S2. apply sure_ret.
Qed.
Lemma cache_link t w : att w -> link_at fs cwd p t -> (forall q, ~ opens fs cwd p q) ->
  sure w (cache_meta K p) (decoded (from_symlink (pp_name p) t false false)).
Proof.
  intros A L O. pose proof (says_symlink (pp_name p) t false false) as Nn. unfold cache_meta. eapply sure_bind; [exact (s_gone _ A O)|]. intros w1 S1. cbv beta iota.
  pose proof (att_same _ _ A S1) as A1. destruct (link_walk t L) as [q W].
  eapply sure_bind with (a := true); [pose proof (g_link w1 A1) as G; now rewrite W in G|]. intros w2 S2. cbv beta iota.
  pose proof (att_same _ _ A1 S2) as A2.
  assert (Q : sure w2 (let! m <- symlink_meta p ; ret (Some m)) (decoded (from_symlink (pp_name p) t false false))).
  { pose proof (link_nothing t w2 A2 L O) as E. destruct (from_symlink (pp_name p) t false false) as [m|e]; cbn [decoded].
    - eapply sure_bind; [exact E|]. intros w3 S3. apply sure_ret.
    - now apply sure_bind_err. }
  intros r w' H. apply catch_inv in H as [(a & H & ->)|(e & w3 & H & Kh)].
  - exact (Q _ _ H).
  - destruct (Q _ _ H) as [S3 R].
    assert (Ne : e <> NoCachedMetadataError).
    { intros ->. destruct R as [R|(e' & k & R & F)].
      - destruct (from_symlink (pp_name p) t false false) as [m|e']; cbn [decoded] in R; [discriminate|]. apply Nn. now injection R as <-.
      - injection R as <-. destruct A2 as (Ho & _). destruct (Ho _ _ F) as [X|(n & X & _)]; discriminate X. }
    assert (X : (r, w') = (Err e, w3)).
    { rewrite <- Kh. destruct e; try reflexivity. now destruct Ne. }
    injection X as -> ->. split; [exact S3|exact R].
Qed.
End Read.

(** ** Writing where a link leads to something *)
Lemma parent_opens fs cwd p q : opens fs cwd p q -> exists r, opens fs cwd (pp_parent p) r.
Proof.
  intros [n W]. unfold opens, walk, pp_parent in *. cbn [pp_abs pp_parts].
  destruct (pp_parts p) as [|x l _] eqn:E using rev_ind; [cbn [removelast]; eauto|].
  rewrite removelast_last. apply RepoProofs.walk_prefix in W as (r & m & W). eauto.
Qed.
Lemma link_no_write K p fs cwd t q m w r w' : att fs cwd w -> link_at fs cwd p t -> opens fs cwd p q ->
  meta_bool m = true -> cache_set K p (Some m) w = (r, w') ->
  same w w' /\ (r = Err TypeError \/ r = Err RuntimeErr \/ exists e k, r = Err e /\ w_fault w k = Some e).
Proof.
  intros A L O B H. unfold cache_set in H. rewrite B in H.
  destruct (link_walk p fs cwd t L) as [q' W]. destruct (parent_opens fs cwd p q O) as [rp Op].
  assert (Q : forall w1, att fs cwd w1 -> sure w1 (p_is_symlink p) (Ok true)).
  { intros w1 A1. pose proof (g_link p fs cwd w1 A1) as G. now rewrite W in G. }
  assert (S : sure w (let! e <- p_exists_not_symlink p ;
        if e then eat_set K p m
        else let! _ <- prepare K p ;
             let! e <- p_exists p ;
             if e then eat_set K p m else symlink_set K p m)
     (if (r_is_dir (c_remote K) || r_is_file (c_remote K))%bool then Err TypeError else Err RuntimeErr)).
  { eapply sure_bind with (a := false).
    { unfold p_exists_not_symlink. eapply sure_bind; [exact (s_there p fs cwd _ q A O)|]. intros w1 S1. cbv beta iota.
      eapply sure_bind; [exact (Q w1 (att_same fs cwd _ _ A S1))|]. intros w2 S2. apply sure_ret. }
    intros w1 S1. pose proof (att_same fs cwd _ _ A S1) as A1. cbv beta iota.
    assert (F : forall w2, att fs cwd w2 -> sure w2 (let! e <- p_exists p ; if e then eat_set K p m else symlink_set K p m) (Err TypeError)).
    { intros w2 A2. eapply sure_bind; [exact (s_there p fs cwd _ q A2 O)|]. intros w3 S3. cbv beta iota.
      pose proof (att_same fs cwd _ _ A2 S3) as A3. unfold eat_set.
      eapply sure_bind; [exact (s_there p fs cwd _ q A3 O)|]. intros w4 S4. cbv beta iota.
      eapply sure_bind; [exact (Q w4 (att_same fs cwd _ _ A3 S4))|]. intros w5 S5. apply sure_raise. }
    assert (P : sure w1 (prepare K p) (if (r_is_dir (c_remote K) || r_is_file (c_remote K))%bool then Ok tt else Err RuntimeErr)).
    { unfold prepare. eapply sure_bind; [now apply sure_ask|]. intros w2 S2. pose proof (att_same fs cwd _ _ A1 S2) as A2.
      destruct (r_is_dir (c_remote K)); cbn [orb].
      - eapply sure_bind; [exact (s_there p fs cwd _ q A2 O)|]. intros w3 S3. apply sure_ret.
      - eapply sure_bind; [now apply sure_ask|]. intros w3 S3. pose proof (att_same fs cwd _ _ A2 S3) as A3.
        destruct (r_is_file (c_remote K)); [|apply sure_raise].
        eapply sure_bind; [exact (s_there (pp_parent p) fs cwd _ rp A3 Op)|]. intros w4 S4. apply sure_ret. }
    destruct (r_is_dir (c_remote K) || r_is_file (c_remote K))%bool.
    - eapply sure_bind; [exact P|]. intros w2 S2. apply F. exact (att_same fs cwd _ _ A1 S2).
    - now apply sure_bind_err. }
  destruct (S _ _ H) as [Sm R]. split; [exact Sm|].
  destruct R as [R|R]; [|now right; right]. destruct (_ || _)%bool in R; [now left|right; now left].
Qed.

(** ** As stated *)
Lemma att_of w : honest (w_fault w) -> att (w_fs w) (w_cwd w) w.
Proof. intro H. now repeat split. Qed.
Lemma gives_of {A} w (m : M A) v : sure w m v -> gives w (m w) v.
Proof.
  intro H. unfold gives. destruct (m w) as [r w'] eqn:E. destruct (H _ _ E) as [(S1 & S2 & S3 & _) R]. cbn [fst snd].
  exact (conj S1 (conj S2 (conj S3 R))).
Qed.
Lemma read_thing K p w xs ys : honest (w_fault w) -> opens_with (w_fs w) (w_cwd w) p xs -> of_user xs ys ->
  gives w (cache_meta K p w)
    (match from_xattrs (c_legacy K) ys (c_prefix K) with Ok m => Ok (if meta_bool m then Some m else None) | Err e => Err e end) /\
  gives w (eat_meta K p w)
    (match from_xattrs (c_legacy K) ys (c_prefix K) with Ok m => Ok (Some m) | Err e => Err e end).
Proof.
  intros Ho O U. pose proof (att_of w Ho) as A. split; apply gives_of.
  - exact (cache_thing K p _ _ xs ys w A O U).
  - exact (eat_thing K p _ _ xs ys w A O U).
Qed.
Lemma read_link K p w t : honest (w_fault w) -> link_at (w_fs w) (w_cwd w) p t -> (forall q, ~ opens (w_fs w) (w_cwd w) p q) ->
  gives w (cache_meta K p w)
    (match from_symlink (pp_name p) t false false with Ok m => Ok (Some m) | Err e => Err e end) /\
  gives w (symlink_meta p w) (from_symlink (pp_name p) t false false) /\
  gives w (eat_meta K p w) (Ok None).
Proof.
  intros Ho L O. pose proof (att_of w Ho) as A.
  exact (conj (gives_of _ _ _ (cache_link K p _ _ t w A L O))
        (conj (gives_of _ _ _ (link_nothing p _ _ t w A L O)) (gives_of _ _ _ (eat_none K p _ _ w A O)))).
Qed.
Lemma read_nothing K p w : honest (w_fault w) -> (forall t, ~ link_at (w_fs w) (w_cwd w) p t) ->
  gives w (symlink_meta p w) (Err NoCachedMetadataError) /\
  ((forall q, ~ opens (w_fs w) (w_cwd w) p q) ->
   gives w (cache_meta K p w) (Ok None) /\ gives w (eat_meta K p w) (Ok None)).
Proof.
  intros Ho L. pose proof (att_of w Ho) as A. split; [exact (gives_of _ _ _ (link_none p _ _ w A L))|].
  intro O. exact (conj (gives_of _ _ _ (cache_none K p _ _ w A O L)) (gives_of _ _ _ (eat_none K p _ _ w A O))).
Qed.
Lemma read_through p w t q : honest (w_fault w) -> link_at (w_fs w) (w_cwd w) p t -> opens (w_fs w) (w_cwd w) p q ->
  gives w (symlink_meta p w) (Err PathExistsErr).
Proof. intros Ho L O. exact (gives_of _ _ _ (link_leads p _ _ t q w (att_of w Ho) L O)). Qed.
Lemma write_through K p w t q m r w' : honest (w_fault w) -> link_at (w_fs w) (w_cwd w) p t -> opens (w_fs w) (w_cwd w) p q ->
  meta_bool m = true -> cache_set K p (Some m) w = (r, w') ->
  w_fs w' = w_fs w /\ w_hist w' = w_hist w /\
  (r = Err TypeError \/ r = Err RuntimeErr \/ exists e k, r = Err e /\ w_fault w k = Some e).
Proof.
  intros Ho L O B H. destruct (link_no_write K p _ _ t q m w r w' (att_of w Ho) L O B H) as ((S1 & _ & S3 & _) & R).
  exact (conj S1 (conj S3 R)).
Qed.
Lemma reads_only K p w : 
  (w_fs (snd (cache_meta K p w)) = w_fs w /\ w_hist (snd (cache_meta K p w)) = w_hist w) /\
  (w_fs (snd (eat_meta K p w)) = w_fs w /\ w_hist (snd (eat_meta K p w)) = w_hist w) /\
  (w_fs (snd (symlink_meta p w)) = w_fs w /\ w_hist (snd (symlink_meta p w)) = w_hist w).
Proof.
  assert (Q : forall A (m : M A), quiet m -> w_fs (snd (m w)) = w_fs w /\ w_hist (snd (m w)) = w_hist w).
  { intros A m Hq. destruct (m w) as [r w'] eqn:E. destruct (Hq _ _ _ E) as (S1 & _ & S3 & _). now split. }
  split; [apply Q, quiet_cache_meta|].
  split; apply Q; unfold eat_meta, symlink_meta; quiet_tac; apply quiet_xattrs.
Qed.
