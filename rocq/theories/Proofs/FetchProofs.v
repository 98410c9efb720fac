(** * Fetching *)
From Coq Require Import String NArith ZArith Bool List Lia.
From Verif Require Import Model.Py Model.PurePath Model.Meta Model.MetaEncode Model.MetaXattr Model.MetaSymlink Model.MetaUpdate Model.Access
  Model.Fs Model.PathOps Model.Sparse Model.Copy Model.Cache
  Spec.FsSpec Spec.LoopSpec Spec.CopySpec Spec.CacheSpec Spec.XattrSpec
  Proofs.PyLemmas Proofs.PathLemmas Proofs.FsLemmas Proofs.RunLemmas Proofs.MoveLemmas Proofs.CopyProofs
  Proofs.Hoare Proofs.SlotLemmas Proofs.CacheLemmas Proofs.CacheOps Proofs.TrashProofs Proofs.AttrLemmas Proofs.AttrRead.
Import ListNotations.

Lemma errors_bool m : In mismatch (m_errors m) -> meta_bool m = true.
Proof.
  intro H. unfold meta_bool. apply existsb_exists. exists (A Ferrors, DV (PStrs (m_errors m))). split.
  - unfold dict. rewrite !in_app_iff. right. right. left. cbn [In]. repeat first [left; reflexivity | right].
  - destruct (m_errors m); [contradiction|reflexivity].
Qed.
Lemma file_bool m : m_file_id m <> PNone -> meta_bool m = true.
Proof.
  intro H. unfold meta_bool. apply existsb_exists. exists (A Ffile_id, DV (m_file_id m)). split.
  - unfold dict. rewrite !in_app_iff. right. right. left. cbn [In]. repeat first [left; reflexivity | right].
  - destruct (m_file_id m); try contradiction; reflexivity.
Qed.
Lemma has_mismatch l : existsb (str_eqb mismatch) l = true <-> In mismatch l.
Proof.
  rewrite existsb_exists. split.
  - intros (y & I & E). apply str_eqb_eq in E. now subst.
  - intro I. exists mismatch. split; [assumption|apply str_eqb_refl].
Qed.

Section Fetch.
Variables (K : conf) (D : place) (x : str) (fs : node) (cwd : place) (fault : nat -> option exn) (v : thing) (m : pathmeta).
Notation P := (D ++ [x]).
Notation p := (path_of (D ++ [x])).
Notation St := (St D x).
Notation data := (concat (r_chunks (c_remote K))).
Hypothesis Hx : good_name x.
Hypothesis Gf : good_fs fs.
Hypothesis Lf : look fs P = Some v.
Hypothesis Hv : cached_leaf x v.
Hypothesis Rm : recorded K x (Some v) = Ok (Some m).
Hypothesis Hf : m_file_id m <> PNone.
Hypothesis Ho : honest fault.

Lemma fine0 : fine D x fs.
Proof.
  split; [assumption|]. split; [apply (look_above fs D x []); congruence|]. intros t E. rewrite E in Lf. injection Lf as <-. exact Hv.
Qed.
Lemma St_start : St fs (Some v) fs.
Proof. split; [apply fine0|]. split; [now intros q _|assumption]. Qed.
Lemma St_only u s : St fs (Some u) s -> cached_leaf x u -> only_at P fs s.
Proof.
  intros (_ & O & L) C q Nq. destruct (below_dec P q) as [(r & ->)|B]; [|now apply O].
  destruct r as [|z r]; [rewrite app_nil_r in Nq; congruence|]. rewrite (leaf_below' s P z r), (leaf_below' fs P z r); [reflexivity| |].
  - intros zs E. rewrite E in Lf. injection Lf as <-. exact Hv.
  - intros zs E. rewrite E in L. injection L as <-. exact C.
Qed.
Lemma St_only_none s : St fs None s -> only_at P fs s.
Proof.
  intros (_ & O & L) q Nq. destruct (below_dec P q) as [(r & ->)|B]; [|now apply O].
  destruct r as [|z r]; [rewrite app_nil_r in Nq; congruence|]. rewrite (leaf_below' s P z r), (leaf_below' fs P z r); [reflexivity| |congruence].
  intros zs E. rewrite E in Lf. injection Lf as <-. exact Hv.
Qed.

(** the values there may be in between *)
Definition mid (u : option thing) : Prop :=
  match v with
  | AFile d xs => rest_kinds K m xs u
  | ALink t => link_kinds K m t u
  | ADir _ => False
  end.
Lemma mid_start : mid (Some v).
Proof. unfold mid. destruct v as [d xs|zs|t] eqn:Ev; [apply rest_plain|exact Hv|now left]. Qed.

(** what there is when it returned *)
Definition done (u : option thing) : Prop :=
  r_break (c_remote K) = None /\ exists xs xs', u = Some (AFile data xs') /\ rest_ok K x m xs xs' /\
  match v with
  | AFile d ys => xs = ys
  | ALink t => exists l, xs = setall l [] /\ if meta_bool m then set_list K m = Ok l else l = []
  | ADir _ => False
  end.

Lemma fetch_run limit r w' : fetch K p limit (start fs cwd fault) = (r, w') ->
  (forall s, In s (states w') -> exists u, mid u /\ St fs u s) /\
  (r = Ok tt -> (fetches m limit = false /\ St fs (Some v) (w_fs w')) \/ (fetches m limit = true /\ exists u, done u /\ St fs u (w_fs w'))).
Proof.
  intro H.
  assert (T : tri (fun s => exists u, mid u /\ St fs u s) (St fs (Some v)) (fetch K p limit) (fun r s =>
     (exists u, mid u /\ St fs u s) /\ (r = Ok tt -> (fetches m limit = false /\ St fs (Some v) s) \/ (fetches m limit = true /\ exists u, done u /\ St fs u s)))).
  { pose proof mid_start as M0. destruct v as [d xs|zs|t] eqn:Ev; [|contradiction|].
    - eapply tri_post; [apply (t_fetch_file K D x Hx (fun s => exists u, mid u /\ St fs u s) fs mid) with (Rf := fun _ _ => True)|].
      + eauto.
      + intros m' u Rm' Hk. rewrite Rm in Rm'. apply Ok_inj in Rm'. injection Rm' as <-. unfold mid. now rewrite Ev.
      + intros m' Rm' N. congruence.
      + intros r0 s [(_ & m' & Rm' & N)|Q]; [congruence|]. destruct r0 as [[]|e].
        * destruct Q as (m' & Rm' & _ & [(Fe & Q)|(Fe & Eb & xs' & Q1 & Q2)]); rewrite Rm in Rm'; apply Ok_inj in Rm'; injection Rm' as <-.
          -- split; [eauto|]. intros _. left. now split.
          -- split; [|intros _; right; split; [assumption|]; eexists; split; [|exact Q2]; split; [assumption|]; exists xs, xs'; rewrite Ev; split; [reflexivity|split; [exact Q1|reflexivity]]].
             eexists. split; [|exact Q2]. unfold mid. rewrite Ev. destruct Q1 as (_ & [(_ & ->)|[(-> & _)|(nm & l & E1 & E2 & ->)]]); try apply rest_plain.
             exists data, (length l), l. rewrite firstn_all. split; [reflexivity|]. right. eauto.
        * split; [|discriminate]. destruct Q as [Q|(m' & u & Rm' & Q1 & Q2)]; [eauto|]. rewrite Rm in Rm'; apply Ok_inj in Rm'; injection Rm' as <-.
          exists u. split; [|assumption]. unfold mid. now rewrite Ev.
    - eapply tri_post; [apply (t_fetch_link K D x Hx (fun s => exists u, mid u /\ St fs u s) fs mid) with (Rf := fun _ _ => True)|].
      + eauto.
      + intros m' u Rm' Hk. rewrite Rm in Rm'. apply Ok_inj in Rm'. injection Rm' as <-. unfold mid. now rewrite Ev.
      + intros m' Rm' N. congruence.
      + intros r0 s [(_ & m' & Rm' & N)|Q]; [congruence|]. destruct r0 as [[]|e].
        * destruct Q as (m' & Rm' & _ & [(Fe & Q)|(Fe & Eb & l & xs' & Ql & Q1 & Q2)]); rewrite Rm in Rm'; apply Ok_inj in Rm'; injection Rm' as <-.
          -- split; [eauto|]. intros _. left. now split.
          -- split; [|intros _; right; split; [assumption|]; eexists; split; [|exact Q2]; split; [assumption|]; exists (setall l []), xs'; rewrite Ev; split; [reflexivity|split; [exact Q1|]]; exists l; split; [reflexivity|exact Ql]].
             eexists. split; [|exact Q2]. unfold mid. rewrite Ev. right. right. right. exists l. split; [assumption|].
             destruct Q1 as (_ & [(_ & ->)|[(-> & _)|(nm & l' & E1 & E2 & ->)]]); try apply rest_plain.
             exists data, (length l'), l'. rewrite firstn_all. split; [reflexivity|]. right. eauto.
        * split; [|discriminate]. destruct Q as [Q|(m' & u & Rm' & Q1 & Q2)]; [eauto|]. rewrite Rm in Rm'; apply Ok_inj in Rm'; injection Rm' as <-.
          exists u. split; [|assumption]. unfold mid. now rewrite Ev. }
  destruct (T (start fs cwd fault) r w' Ho St_start H) as [[T1 T2] (_ & _ & l & E & Fl)]. split; [|assumption].
  intros s [<-|Is]; [assumption|]. rewrite E in Is. apply in_app_iff in Is as [Is|[<-|[]]].
  - now apply (proj1 (Forall_forall _ _) Fl).
  - exists (Some v). split; [apply mid_start|apply St_start].
Qed.

(** When it returned after fetching, the size is right, and the checksum is or it is
    said that it is not. *)
Lemma fetch_checked limit w' : fetch K p limit (start fs cwd fault) = (Ok tt, w') ->
  (fetches m limit = false /\ forall q, look (w_fs w') q = look fs q) \/
  (fetches m limit = true /\ exists xs', look (w_fs w') P = Some (AFile data xs') /\ only_at P fs (w_fs w') /\ r_break (c_remote K) = None /\
     py_eq (PInt (Z.of_nat (length data))) (m_size m) = true /\
     (says_mismatch K x (look (w_fs w') P) \/
      exists cm cy, recorded K x (look (w_fs w') P) = Ok (Some cm) /\ algorithm K cm cy /\
        (m_checksum m = PNone \/ py_eq (PBytes (c_digest K cy data)) (m_checksum m) = true \/ (cy = default_cypher /\ c_cypher K <> default_cypher)))).
Proof.
  intro H. apply fetch_run in H as [_ H]. destruct (H eq_refl) as [(Fe & Q)|(Fe & u & (Eb & xs & xs' & -> & (Es & Hr) & Hs) & Q)].
  - left. split; [assumption|]. intro q. destruct (place_dec q P) as [->|N]; [now rewrite Lf; apply Q|]. now apply (St_only v).
  - right. split; [assumption|]. exists xs'. pose proof Q as (_ & _ & L). split; [assumption|]. split; [now apply (St_only (AFile data xs')) in Q|].
    split; [assumption|]. split; [assumption|]. rewrite L.
    destruct Hr as [(Em & ->)|[(-> & cm & cy & Rc & Cc & Hc)|(nm & l & E1 & E2 & ->)]].
    + left. apply has_mismatch in Em. intros o Eo. cbn [recorded] in Eo.
      destruct (from_xattrs (c_legacy K) (user_attrs xs) (c_prefix K)) as [m2|] eqn:E2; [|discriminate]. cbn [rbind] in Eo.
      assert (In mismatch (m_errors m2)) as I2.
      { destruct v as [d ys|zs|t] eqn:Ev; [|contradiction|].
        - subst ys. cbn [recorded] in Rm. rewrite E2 in Rm. cbn [rbind] in Rm. destruct (meta_bool m2); [|discriminate]. congruence.
        - destruct Hs as (l & -> & El). rewrite (errors_bool m Em) in El. now apply (mismatch_read (c_dateparse K) (c_legacy K) (c_prefix K) m l [] m2). }
      rewrite (errors_bool m2 I2) in Eo. apply Ok_inj in Eo. subst o. eauto.
    + right. exists cm, cy. split; [assumption|]. unfold cypher_for in Cc. unfold algorithm. split.
      * destruct (m_checksum_cypher cm); try discriminate; injection Cc as <-; [left; now split|now right].
      * destruct Hc as [Hc|Hc]; [now left|]. right. unfold used_cypher in Hc. destruct (str_eqb cy default_cypher) eqn:Ed; [|now left].
        apply str_eqb_eq in Ed. destruct (str_dec (c_cypher K) default_cypher) as [Ec|Ec]; [left; congruence|right; now split].
    + left. intros o Eo. cbn [recorded] in Eo. destruct (from_xattrs (c_legacy K) (user_attrs (setall l xs)) (c_prefix K)) as [m2|] eqn:E3; [|discriminate]. cbn [rbind] in Eo.
      assert (In mismatch (m_errors m2)) as I2.
      { apply (mismatch_read (c_dateparse K) (c_legacy K) (c_prefix K) nm l xs m2); try assumption.
        destruct (with_mismatch_errors K m nm E1) as [-> _]. apply in_app_iff. right. now left. }
      rewrite (errors_bool m2 I2) in Eo. apply Ok_inj in Eo. subst o. eauto.
Qed.

(** At every moment a file has its metadata. *)
Lemma fetch_keeps d xs limit r w' : v = AFile d xs -> prefix_ok (c_prefix K) -> fetch K p limit (start fs cwd fault) = (r, w') ->
  forall s, In s (states w') -> only_at P fs s /\ exists d' xs', look s P = Some (AFile d' xs') /\
    (forall k, xget k xs <> None -> xget k xs' <> None) /\
    (gives_dates K -> exists m', recorded K x (look s P) = Ok (Some m')) /\
    (forall o, recorded K x (look s P) = Ok o -> exists m', o = Some m' /\ forall f, plain f = true -> getf (c_dateparse K) m' f = getf (c_dateparse K) m f).
Proof.
  intros Ev Hp H s Is. apply fetch_run in H as [H _]. destruct (H s Is) as (u & Mu & Su). unfold mid in Mu. rewrite Ev in Mu.
  destruct Mu as (d' & n & l & -> & Hl). split; [now apply (St_only _ _ Su)|]. exists d', (setall (firstn n l) xs). pose proof Su as (_ & _ & L).
  split; [assumption|]. split; [intros k Hk; now apply setall_some|]. rewrite L.
  pose proof Rm as Rm'. rewrite Ev in Rm'. cbn [recorded] in Rm' |- *.
  destruct (from_xattrs (c_legacy K) (user_attrs xs) (c_prefix K)) as [m0|] eqn:E0; [|discriminate]. cbn [rbind] in Rm'.
  destruct (meta_bool m0) eqn:B0; [|discriminate]. apply Ok_inj in Rm'. injection Rm' as ->.
  assert (T : forall m', from_xattrs (c_legacy K) (user_attrs (setall (firstn n l) xs)) (c_prefix K) = Ok m' ->
    (forall f, plain f = true -> getf (c_dateparse K) m' f = getf (c_dateparse K) m f) /\ meta_bool m' = true).
  { intros m' E'. assert (Hk : forall f, plain f = true -> getf (c_dateparse K) m' f = getf (c_dateparse K) m f).
    { destruct Hl as [->|(nm & E1 & E2)].
      - rewrite firstn_nil in E'. change (setall [] xs) with xs in E'. rewrite E0 in E'. apply Ok_inj in E'. now subst.
      - eapply fields_kept; eassumption. }
    split; [assumption|]. specialize (Hk Ffile_id eq_refl). cbn [getf] in Hk. apply Ok_inj in Hk. apply file_bool. now rewrite Hk. }
  split.
  - intro G. assert (exists m', from_xattrs (c_legacy K) (user_attrs (setall (firstn n l) xs)) (c_prefix K) = Ok m') as (m' & E').
    { destruct Hl as [->|(nm & E1 & E2)].
      - rewrite firstn_nil. change (setall [] xs) with xs. eauto.
      - eapply still_reads; eassumption. }
    exists m'. rewrite E'. cbn [rbind]. now rewrite (proj2 (T m' E')).
  - intros o Eo. destruct (from_xattrs (c_legacy K) (user_attrs (setall (firstn n l) xs)) (c_prefix K)) as [m'|] eqn:E'; [|discriminate]. cbn [rbind] in Eo.
    destruct (T m' eq_refl) as [T1 T2]. rewrite T2 in Eo. apply Ok_inj in Eo. subst o. eauto.
Qed.
End Fetch.
