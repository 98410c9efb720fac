(** * A fetch that nothing disturbs succeeds *)
From Coq Require Import String Strings.Byte NArith ZArith Bool List Lia Permutation.
From Verif Require Import Model.Py Model.PurePath Model.Meta Model.MetaXattr Model.MetaSymlink Model.Fs Model.PathOps Model.Sparse Model.Copy Model.Cache
  Spec.FsSpec Spec.LoopSpec Spec.CopySpec Spec.MetaSpec Spec.XattrSpec Spec.CacheSpec Spec.FetchSpec Spec.ReadlinkSpec
  Proofs.PyLemmas Proofs.PathLemmas Proofs.FsLemmas Proofs.RunLemmas Proofs.RmtreeProofs Proofs.RmdirtreeProofs Proofs.MoveLemmas Proofs.CopyProofs
  Proofs.SparseProofs Proofs.Hoare Proofs.SlotLemmas Proofs.CacheLemmas Proofs.CacheOps Proofs.TrashProofs Proofs.CacheProofs Proofs.FetchProofs
  Proofs.DataDirProofs Proofs.LinkProofs.
Import ListNotations.

Lemma sure_run {A} w (m : M A) v : no_fault w -> sure w m v -> exists w', m w = (v, w') /\ same w w'.
Proof.
  intros N H. destruct (m w) as [r w'] eqn:E. destruct (H r w' E) as [S [->|(e & t & _ & F)]]; [eauto|]. rewrite N in F. discriminate.
Qed.
Lemma no_fault_honest w : no_fault w -> honest (w_fault w).
Proof. intros N t e H. rewrite N in H. discriminate. Qed.
Lemma exists_runs w p : no_fault w -> exists b w', p_exists p w = (Ok b, w') /\ same w w'.
Proof.
  intro N. unfold p_exists. destruct (test_run true p (fun _ => true) w N) as (w' & S & E). rewrite E.
  unfold walk in *. destruct (walk_from _ _ _ _ _) as [q n|d x|e] eqn:W; [exists true, w'; auto|exists false, w'; auto|].
  rewrite (walk_fail _ _ _ _ _ _ W). exists false, w'. auto.
Qed.

Section File.
Variables (D : place) (x : str).
Notation P := (D ++ [x]).
Notation p := (path_of (D ++ [x])).

(** there is a file with this content and these attributes, the rest is as in [F] *)
Definition has (F : node) (cwd : place) (d : bytes) (xs : Fs.xattrs) (w : world) : Prop :=
  no_fault w /\ good_fs (w_fs w) /\ look (w_fs w) P = Some (AFile d xs) /\ w_cwd w = cwd /\ forall q, q <> P -> look (w_fs w) q = look F q.
Lemma has_same F cwd d xs w w' : has F cwd d xs w -> same w w' -> has F cwd d xs w'.
Proof. intros (N & G & L & C & O) S. pose proof (no_fault_same _ _ S N) as N'. destruct S as (E1 & E2 & _). split; [assumption|]. rewrite E1, E2. auto. Qed.

Lemma has_put F cwd d xs w w' d' xs' : has F cwd d xs w -> changed (put (w_fs w) P (File d' xs')) w w' -> has F cwd d' xs' w'.
Proof.
  intros (N & G & L & C & O) Ch. pose proof (no_fault_changed _ _ _ Ch N) as N'. destruct Ch as (E & E2 & _). apply look_file in L.
  split; [assumption|]. rewrite E. split.
  { apply good_fs_put; [assumption|now destruct D|now apply (good_names _ _ _ (proj1 G) L)|constructor]. }
  split; [apply look_file; now apply (get_put_self _ _ _ _ L)|]. split; [congruence|].
  intros q Nq. rewrite <- (O q Nq). destruct (below_dec P q) as [(r & ->)|B]; [|now apply look_put_other].
  destruct r as [|z r]; [rewrite app_nil_r in Nq; congruence|].
  unfold look. rewrite !(get_app _ P). rewrite L, (get_put_self _ _ _ _ L). reflexivity.
Qed.

Lemma append_run F cwd d xs w b : has F cwd d xs w -> exists w', sys_append P b w = (Ok tt, w') /\ has F cwd (d ++ b) xs w'.
Proof.
  intro H. pose proof H as (N & G & L & C & O). apply look_file in L.
  destruct (sys_ok (fun fs _ => match get fs P with Some (File d xs) => Ok (tt, put fs P (File (d ++ b) xs)) | _ => fail EIO end) w tt (put (w_fs w) P (File (d ++ b) xs)) N) as (w' & E & Ch).
  { now rewrite L. }
  exists w'. split; [exact E|]. now apply (has_put _ _ _ _ _ _ _ _ H).
Qed.
Lemma create_run F cwd d xs w : has F cwd d xs w -> exists w', sys_create p w = (Ok P, w') /\ has F cwd [] xs w'.
Proof.
  intro H. pose proof H as (N & G & L & C & O). apply look_file in L.
  edestruct (sys_ok (fun fs cwd => match walk fs cwd true p with
                     | Found q (File _ xs) => Ok (q, put fs q (File [] xs))
                     | Found _ (Dir _ _) => fail EISDIR
                     | Found _ (Link _) => fail ELOOP
                     | Missing d x => Ok (d ++ [x], put fs (d ++ [x]) (File [] []))
                     | Fail e => fail e
                     end) w P (put (w_fs w) P (File [] xs)) N) as (w' & E & Ch).
  { rewrite (walk_of _ _ _ _ _ G L); [reflexivity|discriminate]. }
  exists w'. split; [exact E|]. now apply (has_put _ _ _ _ _ _ _ _ H).
Qed.
Lemma feed_eq l e : remote_feed l e = Feed (ask (fun _ _ => match l with c :: r => Ok (Some (c, remote_feed r e)) | [] => match e with Some x => Err x | None => Ok None end end)).
Proof. destruct l; reflexivity. Qed.
Lemma drain_run F cwd xs l : forall d w, has F cwd d xs w -> exists w', drain P (remote_feed l None) w = (Ok tt, w') /\ has F cwd (d ++ concat l) xs w'.
Proof.
  induction l as [|c l IH]; intros d w H; rewrite feed_eq; cbn [drain].
  - destruct (ask_run (fun _ _ => @Ok (option (bytes * feed)) None) w (proj1 H)) as (w1 & E1 & S1). rewrite E1. exists w1. split; [reflexivity|].
    cbn [concat]. rewrite app_nil_r. now apply (has_same _ _ _ _ _ _ H).
  - destruct (ask_run (fun _ _ => Ok (Some (c, remote_feed l None))) w (proj1 H)) as (w1 & E1 & S1). rewrite E1.
    destruct (append_run _ _ _ _ _ c (has_same _ _ _ _ _ _ H S1)) as (w2 & E2 & H2). rewrite E2.
    destruct (IH _ _ H2) as (w' & E & H'). exists w'. split; [exact E|]. cbn [concat]. now rewrite app_assoc.
Qed.
Lemma write_run F cwd d xs l w : l <> [] -> has F cwd d xs w -> exists w', write_chunks p (remote_feed l None) w = (Ok tt, w') /\ has F cwd (concat l) xs w'.
Proof.
  intros Nl H. destruct l as [|c l]; [contradiction|]. unfold write_chunks. rewrite feed_eq. cbn [pull].
  destruct (ask_run (fun _ _ => Ok (Some (c, remote_feed l None))) w (proj1 H)) as (w1 & E1 & S1).
  destruct (create_run _ _ _ _ _ (has_same _ _ _ _ _ _ H S1)) as (w2 & E2 & H2).
  destruct (append_run _ _ _ _ _ c H2) as (w3 & E3 & H3). destruct (drain_run _ _ _ l _ _ H3) as (w4 & E4 & H4).
  exists w4. split; [|exact H4]. unfold bind. rewrite E1, E2, E3. exact E4.
Qed.

Variable K : conf.
Section Reads.
Variables (F : node) (cwd : place) (d : bytes) (xs : Fs.xattrs).
Lemma has_at w : has F cwd d xs w -> at_ (w_fs w) w.
Proof. intros (N & _). split; [now apply no_fault_honest|reflexivity]. Qed.
Lemma meta_run w m : has F cwd d xs w -> recorded K x (Some (AFile d xs)) = Ok m -> exists w', cache_meta K p w = (Ok m, w') /\ has F cwd d xs w'.
Proof.
  intros H R. pose proof H as (N & G & L & _). destruct (sure_run w _ _ N (s_cache_meta K D x (w_fs w) d xs G L w m (has_at w H) R)) as (w' & E & S).
  exists w'. split; [exact E|]. now apply (has_same _ _ _ _ _ _ H).
Qed.
Lemma is_dir_run w : has F cwd d xs w -> exists w', p_is_dir p w = (Ok false, w') /\ has F cwd d xs w'.
Proof.
  intro H. pose proof H as (N & G & L & _). destruct (sure_run w _ _ N (s_test D x (w_fs w) d xs G L true (fun n => match n with Dir _ _ => true | _ => false end) w (has_at w H))) as (w' & E & S).
  exists w'. split; [exact E|]. now apply (has_same _ _ _ _ _ _ H).
Qed.
Lemma is_symlink_run w : has F cwd d xs w -> exists w', p_is_symlink p w = (Ok false, w') /\ has F cwd d xs w'.
Proof.
  intro H. pose proof H as (N & G & L & _). destruct (sure_run w _ _ N (s_test D x (w_fs w) d xs G L false (fun n => match n with Link _ => true | _ => false end) w (has_at w H))) as (w' & E & S).
  exists w'. split; [exact E|]. now apply (has_same _ _ _ _ _ _ H).
Qed.
Lemma stat_run w : has F cwd d xs w -> exists w', sys_stat true p w = (Ok (File d xs), w') /\ has F cwd d xs w'.
Proof.
  intro H. pose proof H as (N & G & L & _). destruct (sure_run w _ _ N (s_stat D x (w_fs w) d xs G L true w (has_at w H))) as (w' & E & S).
  exists w'. split; [exact E|]. now apply (has_same _ _ _ _ _ _ H).
Qed.
Lemma checksum_run w cy : has F cwd d xs w -> exists w', local_checksum K p cy w = (Ok (PBytes (c_digest K (used_cypher K cy) d)), w') /\ has F cwd d xs w'.
Proof.
  intro H. pose proof H as (N & G & L & _). destruct (sure_run w _ _ N (s_local_checksum K D x (w_fs w) d xs G L cy w (has_at w H))) as (w' & E & S).
  exists w'. split; [exact E|]. now apply (has_same _ _ _ _ _ _ H).
Qed.
Lemma other_run w q : has F cwd d xs w -> exists b w', p_exists q w = (Ok b, w') /\ has F cwd d xs w'.
Proof. intro H. destruct (exists_runs w q (proj1 H)) as (b & w' & E & S). exists b, w'. split; [exact E|]. now apply (has_same _ _ _ _ _ _ H). Qed.
End Reads.

Notation data := (concat (r_chunks (c_remote K))).
(** what is recorded does not depend on the content *)
Lemma recorded_any d d' xs : recorded K x (Some (AFile d' xs)) = recorded K x (Some (AFile d xs)). Proof. reflexivity. Qed.

Lemma set_data_run F cwd d xs m w : sends_all K -> has F cwd d xs w -> recorded K x (Some (AFile d xs)) = Ok (Some m) ->
  exists w', cache_set_data K p (remote_feed (r_chunks (c_remote K)) (r_break (c_remote K))) w = (Ok tt, w') /\ has F cwd data xs w'.
Proof.
  intros (Eb & Nl) H R. rewrite Eb. unfold cache_set_data.
  destruct (meta_run _ _ _ _ _ _ H R) as (w1 & E1 & H1). destruct (write_run _ _ _ _ _ _ Nl H1) as (w2 & E2 & H2).
  rewrite <- (recorded_any d data) in R.
  destruct (meta_run _ _ _ _ _ _ H2 R) as (w3 & E3 & H3). destruct (meta_run _ _ _ _ _ _ H3 R) as (w4 & E4 & H4). destruct (meta_run _ _ _ _ _ _ H4 R) as (w5 & E5 & H5).
  assert (B : meta_true (Some m) = true).
  { cbn [recorded] in R. destruct (from_xattrs _ _ _) as [m0|]; [|discriminate]. cbn [rbind] in R. destruct (meta_bool m0) eqn:B; [|discriminate]. apply Ok_inj in R. injection R as <-. exact B. }
  exists w5. split; [|assumption]. unfold bind. rewrite E1, E2, E3, B, E4, B, E5, B. reflexivity.
Qed.

Lemma cypher_run F cwd d xs cm cy w : has F cwd d xs w -> recorded K x (Some (AFile d xs)) = Ok (Some cm) -> algorithm K cm cy -> c_known K cy = true ->
  exists w', instance_cypher K p w = (Ok cy, w') /\ has F cwd d xs w'.
Proof.
  intros H R A Kn. destruct (meta_run _ _ _ _ _ _ H R) as (w1 & E1 & H1). exists w1. split; [|assumption].
  unfold instance_cypher, bind. rewrite E1. destruct A as [(-> & ->)| ->]; [reflexivity|]. now rewrite Kn.
Qed.

(** from the data on *)
Lemma rest_run F cwd d xs m cm w : sends_all K -> has F cwd d xs w -> recorded K x (Some (AFile d xs)) = Ok (Some cm) -> m_checksum_cypher cm = m_checksum_cypher m -> fits K m data ->
  exists w', (let! _ <- p_exists (c_object K) ;
      let! _ <- cache_set_data K p (remote_feed (r_chunks (c_remote K)) (r_break (c_remote K))) ;
      let! st <- sys_stat true p ;
      let size := match st with File d _ => Z.of_nat (length d) | _ => 0%Z end in
      if negb (py_eq (PInt size) (m_size m)) then raise ValueError
      else if existsb (str_eqb mismatch) (m_errors m) then ret tt
      else
        let! cy <- instance_cypher K p ;
        let! lc <- local_checksum K p cy ;
        if (negb (is_none (m_checksum m)) && negb (py_eq lc (m_checksum m)))%bool then
          let! nm <- lift (with_mismatch K m) ;
          cache_set K p (Some nm)
        else ret tt) w = (Ok tt, w') /\ has F cwd data xs w'.
Proof.
  intros Sa H R Ec (Es & cy & Al & Kn & Df & Ck).
  destruct (other_run _ _ _ _ w (c_object K) H) as (b & w1 & E1 & H1).
  destruct (set_data_run _ _ _ _ _ _ Sa H1 R) as (w2 & E2 & H2). rewrite <- (recorded_any d data) in R.
  destruct (stat_run _ _ _ _ _ H2) as (w3 & E3 & H3).
  assert (Al' : algorithm K cm cy) by (unfold algorithm in *; now rewrite Ec).
  destruct (cypher_run _ _ _ _ _ _ _ H3 R Al' Kn) as (w4 & E4 & H4). destruct (checksum_run _ _ _ _ _ cy H4) as (w5 & E5 & H5).
  assert (Eu : used_cypher K cy = cy).
  { unfold used_cypher. destruct (str_eqb cy default_cypher) eqn:Ed; [|reflexivity]. apply str_eqb_eq in Ed. rewrite (Df Ed). congruence. }
  rewrite Eu in E5.
  exists (if existsb (str_eqb mismatch) (m_errors m) then w3 else w5). unfold bind. rewrite E1, E2, E3. cbv beta iota zeta. rewrite Es. cbn [negb].
  destruct (existsb (str_eqb mismatch) (m_errors m)); [now split|]. rewrite E4, E5. cbv beta iota.
  destruct Ck as [Ck|Ck]; rewrite Ck; [now split|]. rewrite andb_false_r. now split.
Qed.

Lemma fetch_file_run F cwd d xs m limit w : sends_all K -> has F cwd d xs w -> recorded K x (Some (AFile d xs)) = Ok (Some m) -> m_file_id m <> PNone -> fits K m data ->
  (forall l, limit = Some l -> size_below (m_size m) l = true) ->
  exists w', fetch K p limit w = (Ok tt, w') /\ has F cwd data xs w'.
Proof.
  intros Sa H R Nf Ft Lm. unfold fetch.
  destruct (meta_run _ _ _ _ _ _ H R) as (w1 & E1 & H1). destruct (is_dir_run _ _ _ _ _ H1) as (w2 & E2 & H2). destruct (is_symlink_run _ _ _ _ _ H2) as (w3 & E3 & H3).
  destruct (rest_run _ _ _ _ _ _ _ Sa H3 R eq_refl Ft) as (w4 & E4 & H4). exists w4. split; [|assumption].
  unfold bind at 1. rewrite E1. unfold bind at 1. rewrite E2. cbv beta iota.
  replace (is_none (m_file_id m)) with false by (destruct (m_file_id m); [contradiction|..]; reflexivity). cbv beta iota.
  assert (El : match limit with None => true | Some l => size_below (m_size m) l end = true) by (destruct limit; [now apply Lm|reflexivity]).
  rewrite El. unfold p_is_broken_symlink. unfold bind at 1. unfold bind at 1. rewrite E3. exact E4.
Qed.
End File.

Lemma has_start D x fs cwd fault d xs : good_fs fs -> (forall t, fault t = None) -> look fs (D ++ [x]) = Some (AFile d xs) -> has D x fs cwd d xs (start fs cwd fault).
Proof. intros G N L. split; [exact N|]. split; [exact G|]. split; [exact L|]. split; [reflexivity|]. reflexivity. Qed.

(** Limits *)
Lemma within_below m l : within m l -> size_below (m_size m) l = true.
Proof.
  intros (n & -> & B & H). unfold size_below, to_double, mb. destruct (Z.ltb_spec n 0) as [S|S].
  - apply Z.ltb_lt. lia.
  - assert (Q : N.ltb (Z.to_N n) (2 ^ 53) = true) by (apply N.ltb_lt; change (2 ^ 53)%N with (Z.to_N (2 ^ 53)); lia).
    rewrite Q. apply Z.ltb_lt. lia.
Qed.
Lemma double_large n : (2 ^ 53 <= n)%N -> (2 ^ 53 <= to_double n)%N.
Proof.
  intro H. unfold to_double. replace (N.ltb n (2 ^ 53)) with false by (symmetry; now apply N.ltb_ge). cbv zeta.
  assert (P : (53 <= N.log2 n)%N) by (apply N.log2_le_pow2; lia).
  assert (Q : (2 ^ 52 * 2 ^ (N.log2 n - 52) <= n)%N).
  { rewrite <- N.pow_add_r. replace (52 + (N.log2 n - 52))%N with (N.log2 n) by lia. apply N.log2_spec. lia. }
  assert (R : (2 ^ 52 <= n / 2 ^ (N.log2 n - 52))%N).
  { apply N.div_le_lower_bound; [now apply N.pow_nonzero|]. rewrite N.mul_comm. exact Q. }
  assert (S : (n / 2 ^ (N.log2 n - 52) <= div_half_even n (2 ^ (N.log2 n - 52)))%N).
  { unfold div_half_even. cbv zeta. repeat match goal with |- context [if ?b then _ else _] => destruct b end; lia. }
  assert (T : (2 ^ 1 <= 2 ^ (N.log2 n - 52))%N) by (apply N.pow_le_mono_r; lia).
  transitivity (2 ^ 52 * 2 ^ 1)%N; [vm_compute; discriminate|]. apply N.mul_le_mono; lia.
Qed.
Lemma beyond_below m l : beyond m l -> size_below (m_size m) l = false.
Proof.
  intros [->|(n & -> & H & L)]; [reflexivity|]. unfold size_below, mb.
  replace (Z.ltb n 0) with false by (symmetry; apply Z.ltb_ge; lia). apply Z.ltb_ge.
  destruct (N.leb_spec (2 ^ 53) (Z.to_N n)) as [B|B].
  - apply double_large in B. change (2 ^ 53)%N with (Z.to_N (2 ^ 53)) in B. change (2 ^ 33)%N with (Z.to_N (2 ^ 33)) in L. lia.
  - unfold to_double. apply N.ltb_lt in B. rewrite B. lia.
Qed.

(** A file that has metadata is fetched. *)
Lemma fetch_completes K D x fs cwd fault d xs m limit :
  good_fs fs -> (forall t, fault t = None) -> look fs (D ++ [x]) = Some (AFile d xs) -> recorded K x (Some (AFile d xs)) = Ok (Some m) -> m_file_id m <> PNone ->
  sends_all K -> fits K m (concat (r_chunks (c_remote K))) -> (forall l, limit = Some l -> within m l) ->
  exists w', fetch K (path_of (D ++ [x])) limit (start fs cwd fault) = (Ok tt, w') /\
    look (w_fs w') (D ++ [x]) = Some (AFile (concat (r_chunks (c_remote K))) xs) /\ forall q, q <> D ++ [x] -> look (w_fs w') q = look fs q.
Proof.
  intros G N L R Nf Sa Ft Lm.
  destruct (fetch_file_run D x K fs cwd d xs m limit (start fs cwd fault) Sa (has_start _ _ _ _ _ _ _ G N L) R Nf Ft (fun l E => within_below _ _ (Lm l E))) as (w' & E & (_ & _ & H1 & _ & H2)).
  exists w'. split; [exact E|]. split; [exact H1|exact H2].
Qed.

(** However a fetch of such a file broke off, the next one completes it. *)
Lemma fetch_resumes K bad D x fs cwd fault d xs m limit r w' s cwd2 fault2 :
  good_name x -> good_fs fs -> look fs (D ++ [x]) = Some (AFile d xs) -> recorded K x (Some (AFile d xs)) = Ok (Some m) -> m_file_id m <> PNone ->
  prefix_ok (c_prefix K) -> gives_dates K -> honest fault ->
  fetch (other_end K bad) (path_of (D ++ [x])) limit (start fs cwd fault) = (r, w') -> In s (states w') ->
  sends_all K -> fits K m (concat (r_chunks (c_remote K))) -> (forall t, fault2 t = None) ->
  exists w2, fetch K (path_of (D ++ [x])) None (start s cwd2 fault2) = (Ok tt, w2) /\
    content (w_fs w2) (D ++ [x]) = Some (concat (r_chunks (c_remote K))) /\ forall q, q <> D ++ [x] -> look (w_fs w2) q = look fs q.
Proof.
  intros Hx G L R Nf Hp Gd Ho H Is Sa Ft N2.
  assert (Gs : good_fs s).
  { pose proof (fetch_run (other_end K bad) D x fs cwd fault (AFile d xs) m Hx G L I R Nf Ho limit r w' H) as [Q _]. destruct (Q s Is) as (u & _ & (Fn & _) & _). exact Fn. }
  destruct (fetch_keeps (other_end K bad) D x fs cwd fault (AFile d xs) m Hx G L I R Nf Ho d xs limit r w' eq_refl Hp H s Is) as (O & d' & xs' & Ls & _ & K1 & K2).
  destruct (K1 Gd) as (m' & R'). destruct (K2 _ R') as (m2 & E2 & Pf). injection E2 as <-. rewrite Ls in R'.
  assert (Fd : forall f v v', plain f = true -> getf (c_dateparse K) m' f = Ok v -> getf (c_dateparse K) m f = Ok v' -> v = v').
  { intros f v v' Pl A1 A2. specialize (Pf f Pl). change (c_dateparse (other_end K bad)) with (c_dateparse K) in Pf. congruence. }
  assert (Ei : m_file_id m' = m_file_id m) by (now apply (Fd Ffile_id)).
  assert (Es : m_size m' = m_size m) by (now apply (Fd Fsize)).
  assert (Ec : m_checksum m' = m_checksum m) by (now apply (Fd Fchecksum)).
  assert (Ey : m_checksum_cypher m' = m_checksum_cypher m) by (now apply (Fd Fchecksum_cypher)).
  destruct (fetch_completes K D x s cwd2 fault2 d' xs' m' None Gs N2 Ls R') as (w2 & E & Lw & Ow).
  - congruence.
  - assumption.
  - unfold fits, algorithm in *. rewrite Es, Ec, Ey. exact Ft.
  - discriminate.
  - exists w2. split; [exact E|]. split; [unfold content; now rewrite Lw|]. intros q Nq. rewrite (Ow q Nq). now apply O.
Qed.

(** ** Links *)
Section Link.
Variables (D : place) (x : str).
Notation P := (D ++ [x]).
Notation p := (path_of (D ++ [x])).

Lemma sets_file F cwd d l : forall xs w, has D x F cwd d xs w -> exists w', p_setxattrs p l w = (Ok tt, w') /\ has D x F cwd d (setall l xs) w'.
Proof.
  induction l as [|[k v] l IH]; intros xs w H; [exists w; now split|].
  pose proof H as (N & G & L & _). apply look_file in L.
  destruct (setxattr_of w P (File d xs) xs (key_text k) v N G L eq_refl) as (w1 & E1 & C1). cbn [with_xattrs] in C1.
  destruct (IH _ _ (has_put _ _ _ _ _ _ _ _ _ _ H C1)) as (w' & E & H'). exists w'. split; [|exact H'].
  unfold p_setxattrs in *. cbn [each fst snd]. unfold bind. rewrite E1. exact E.
Qed.
Lemma exists_true F cwd d xs w : has D x F cwd d xs w -> exists w', p_exists p w = (Ok true, w') /\ has D x F cwd d xs w'.
Proof.
  intro H. pose proof H as (N & G & L & _). destruct (sure_run w _ _ N (s_test D x (w_fs w) d xs G L true (fun _ => true) w (has_at _ _ _ _ _ _ w H))) as (w' & E & S).
  exists w'. split; [exact E|]. now apply (has_same _ _ _ _ _ _ _ _ H).
Qed.
Lemma set_file K F cwd d m l w : has D x F cwd d [] w -> meta_bool m = true -> as_xattrs (c_dateparse K) m (c_prefix K) = Ok l ->
  exists w', cache_set K p (Some m) w = (Ok tt, w') /\ has D x F cwd d (setall l []) w'.
Proof.
  intros H B El.
  destruct (exists_true _ _ _ _ _ H) as (w1 & E1 & H1). destruct (is_symlink_run _ _ _ _ _ _ _ H1) as (w2 & E2 & H2).
  destruct (exists_true _ _ _ _ _ H2) as (w3 & E3 & H3). destruct (is_symlink_run _ _ _ _ _ _ _ H3) as (w4 & E4 & H4).
  destruct (sets_file _ _ _ l _ _ H4) as (w5 & E5 & H5). exists w5. split; [|exact H5].
  cbn [cache_set]. rewrite B. unfold p_exists_not_symlink, eat_set, bind, lift, ret. rewrite E1, E2. cbn [negb]. rewrite E3, E4, El. exact E5.
Qed.
End Link.

Lemma fetch_link_completes K D x fs cwd fault t m xs limit :
  good_name x -> good_fs fs -> (forall n, fault n = None) -> look fs (D ++ [x]) = Some (ALink t) -> starts_with_name x t -> recorded K x (Some (ALink t)) = Ok (Some m) -> m_file_id m <> PNone ->
  storable K x m xs -> sends_all K -> fits K m (concat (r_chunks (c_remote K))) -> (forall l, limit = Some l -> within m l) ->
  exists w', fetch K (path_of (D ++ [x])) limit (start fs cwd fault) = (Ok tt, w') /\
    look (w_fs w') (D ++ [x]) = Some (AFile (concat (r_chunks (c_remote K))) xs) /\ forall q, q <> D ++ [x] -> look (w_fs w') q = look fs q.
Proof.
  intros Hx G N L Hl R Nf (l & m' & El & -> & R' & Ec) Sa Ft Lm.
  assert (Ro : from_symlink x t false false = Ok m).
  { cbn [recorded] in R. destruct (from_symlink x t false false) as [m0|[]]; try discriminate. apply Ok_inj in R. now injection R as ->. }
  set (P := D ++ [x]) in *. set (w0 := start fs cwd fault).
  assert (At : forall w, same w0 w -> no_fault w /\ at_ fs w).
  { intros w S. pose proof (no_fault_same _ _ S N) as Nw. split; [assumption|]. split; [now apply no_fault_honest|]. now destruct S as (-> & _). }
  assert (S0 : same w0 w0) by apply same_refl. destruct (At _ S0) as [N0 A0].
  destruct (sure_run w0 _ _ N0 (l_cache_meta K D x fs t m Hx G L Hl Ro w0 A0)) as (w1 & E1 & S1). destruct (At _ S1) as [N1 A1].
  destruct (sure_run w1 _ _ N1 (l_test D x fs t Hx G L Hl true (fun n => match n with Dir _ _ => true | _ => false end) w1 A1)) as (w2 & E2 & S2'). pose proof (same_trans _ _ _ S1 S2') as S2. destruct (At _ S2) as [N2 A2].
  destruct (sure_run w2 _ _ N2 (l_is_symlink D x fs t Hx G L Hl w2 A2)) as (w3 & E3 & S3'). pose proof (same_trans _ _ _ S2 S3') as S3. destruct (At _ S3) as [N3 A3].
  destruct (sure_run w3 _ _ N3 (l_exists D x fs t Hx G L Hl w3 A3)) as (w4 & E4 & S4'). pose proof (same_trans _ _ _ S3 S4') as S4. destruct (At _ S4) as [N4 A4].
  assert (F4 : w_fs w4 = fs) by (destruct S4 as (-> & _); reflexivity).
  assert (W4 : w_cwd w4 = cwd) by (destruct S4 as (_ & -> & _); reflexivity).
  assert (Dd : is_dir_at fs D) by (apply (look_above fs D x []); fold P; congruence).
  assert (Gp : get fs P = Some (Link t)) by now apply look_link.
  (* unlink *)
  destruct (sys_ok (fun fs cwd => do r <- lookup false (path_of P) fs cwd ; match snd r with Dir _ _ => fail EISDIR | _ => Ok (tt, del fs (fst r)) end) w4 tt (del fs P) N4) as (w5 & E5 & C5).
  { unfold lookup. rewrite F4, (walk_of _ _ _ _ _ G Gp); [reflexivity|discriminate]. }
  pose proof (no_fault_changed _ _ _ C5 N4) as N5. destruct C5 as (F5 & W5 & _).
  assert (PN : P <> []) by (unfold P; now destruct D).
  assert (G5 : good_fs (w_fs w5)) by (rewrite F5; now apply good_fs_del).
  assert (D5 : is_dir_at (w_fs w5) D).
  { rewrite F5. destruct Dd as (zs & Dd). exists zs. rewrite look_del_other; [assumption|]. intros (r & Er). apply (f_equal (@length _)) in Er. unfold P in Er. rewrite !app_length in Er. cbn [length] in Er. lia. }
  assert (L5 : look (w_fs w5) P = None) by (rewrite F5; apply look_del_below; [assumption|exists []; now rewrite app_nil_r]).
  (* touch *)
  destruct (ask_run (fun fs cwd => do r <- lookup true (path_of P) fs cwd ; Ok (snd r)) w5 N5) as (w6 & E6 & S6).
  assert (Wk : walk (w_fs w5) (w_cwd w5) true (path_of P) = Missing D x) by (now apply walk_of_missing).
  unfold lookup in E6. rewrite Wk in E6.
  pose proof (no_fault_same _ _ S6 N5) as N6. destruct S6 as (F6 & W6 & _).
  destruct (sys_ok (fun fs cwd => match walk fs cwd true (path_of P) with Found _ _ => Ok (tt, fs) | Missing d x => Ok (tt, put fs (d ++ [x]) (File [] [])) | Fail e => fail e end) w6 tt (put (w_fs w5) P (File [] [])) N6) as (w7 & E7 & C7).
  { rewrite F6, W6, Wk. reflexivity. }
  assert (Et : p_touch (path_of P) w5 = (Ok tt, w7)).
  { unfold p_touch, catch, bind. unfold sys_stat, lookup. rewrite E6. exact E7. }
  pose proof (no_fault_changed _ _ _ C7 N6) as N7. destruct C7 as (F7 & W7 & _).
  assert (H7 : has D x fs cwd [] [] w7).
  { split; [assumption|]. rewrite F7. split; [apply good_put_new; try assumption; constructor|].
    destruct D5 as (zs & D5). apply look_dir in D5 as (es & D5).
    destruct (plus_put (w_fs w5) D x (File [] []) (AFile [] [])) as (_ & Q1 & Q2); [eauto|now apply look_none|reflexivity|reflexivity|].
    split; [exact Q1|]. split; [congruence|]. intros q Nq. fold P in Q2, Nq. rewrite (Q2 q Nq), F5.
    destruct (below_dec P q) as [B|B]; [|now apply look_del_other]. rewrite look_del_below by assumption. symmetry.
    destruct B as (r & ->). destruct r as [|z r]; [rewrite app_nil_r in Nq; congruence|]. unfold look. rewrite get_app, Gp. reflexivity. }
  destruct (set_file D x K fs cwd [] m l w7 H7 (file_bool m Nf) El) as (w8 & E8 & H8).
  destruct (rest_run D x K fs cwd [] (setall l []) m m' w8 Sa H8 R' Ec Ft) as (w9 & E9 & H9).
  exists w9. split; [|destruct H9 as (_ & _ & Q1 & _ & Q2); split; assumption].
  unfold fetch. fold P in E1, E2, E3, E4, E8, E9. unfold bind at 1. rewrite E1. unfold bind at 1. unfold p_is_dir. rewrite E2. cbv beta iota.
  replace (is_none (m_file_id m)) with false by (destruct (m_file_id m); [contradiction|..]; reflexivity). cbv beta iota.
  assert (Elm : match limit with None => true | Some l => size_below (m_size m) l end = true) by (destruct limit; [now apply within_below, Lm|reflexivity]).
  rewrite Elm. unfold p_is_broken_symlink. unfold bind at 1. unfold bind at 1. rewrite E3. unfold bind at 1. rewrite E4. cbv beta iota. cbn [negb ret when].
  unfold bind at 1. unfold bind at 1. unfold sys_unlink. rewrite E5. unfold bind at 1. rewrite Et, E8. exact E9.
Qed.

(** ** Limits of sizes *)
Lemma bind_goes {A B} (m : M A) (f : A -> M B) w a : fst (m w) = Ok a -> bind m f w = f a (snd (m w)).
Proof. intro E. unfold bind. destruct (m w) as [r w1]. cbn [fst snd] in *. now subst r. Qed.
Lemma fetch_within K p w m l : fst (cache_meta K p w) = Ok (Some m) -> within m l -> fetch K p (Some l) w = fetch K p None w.
Proof.
  intros E H. apply within_below in H. unfold fetch. rewrite !(bind_goes _ _ _ _ E). now rewrite H.
Qed.
Lemma fetch_beyond K p w m l : fst (cache_meta K p w) = Ok (Some m) -> m_file_id m <> PNone -> beyond m l ->
  let out := fetch K p (Some l) w in
  w_fs (snd out) = w_fs w /\ w_cwd (snd out) = w_cwd w /\ w_hist (snd out) = w_hist w /\
  (no_fault w -> (forall q, opens (w_fs w) (w_cwd w) p q -> ~ is_dir_at (w_fs w) q) -> fst out = Ok tt).
Proof.
  intros E Nf H. apply beyond_below in H. cbv zeta. unfold fetch. rewrite !(bind_goes _ _ _ _ E).
  assert (S1 : same w (snd (cache_meta K p w))) by (destruct (cache_meta K p w) as [r w1] eqn:Ew; exact (quiet_cache_meta _ _ _ _ _ Ew)).
  set (w1 := snd (cache_meta K p w)) in *. clearbody w1.
  assert (N : is_none (m_file_id m) = false) by (destruct (m_file_id m); [contradiction|..]; reflexivity).
  rewrite N, H. unfold bind. destruct (p_is_dir p w1) as [r w2] eqn:Ed.
  assert (S : same w w2) by (apply (same_trans _ w1); [exact S1|exact (quiet_is_dir _ _ _ _ Ed)]).
  assert (Q : w_fs w2 = w_fs w /\ w_cwd w2 = w_cwd w /\ w_hist w2 = w_hist w) by (destruct S as (-> & -> & -> & _); repeat split).
  destruct Q as (Q1 & Q2 & Q3).
  destruct r as [[]|e]; cbn [fst snd raise ret]; repeat match goal with |- _ /\ _ => split end; try assumption; intros Nw Nd.
  - exfalso. pose proof (no_fault_same _ _ S1 Nw) as N1. apply test_honest in Ed as [_ (q & n & W & D)]; [|now apply no_fault_honest].
    destruct S1 as (F & C & _). rewrite F, C in W. destruct n as [|xs es|]; try discriminate D.
    apply (Nd q); [now exists (Dir xs es)|]. exists xs. unfold look. now rewrite (walk_found_get _ _ _ _ _ _ _ W).
  - reflexivity.
  - exfalso. pose proof (no_fault_same _ _ S1 Nw) as N1. 
    destruct (test_run true p (fun n => match n with Dir _ _ => true | _ => false end) w1 N1) as (w3 & _ & T).
    unfold p_is_dir in Ed. rewrite T in Ed. injection Ed as Ed _. destruct (walk (w_fs w1) (w_cwd w1) true p) as [q n|d y|e'] eqn:W; try discriminate Ed.
    apply walk_fail in W. change (match e' with ENOENT | ENOTDIR | ELOOP => true | _ => false end) with (ignored (OSErr e')) in Ed. rewrite W in Ed. discriminate Ed.
Qed.
Lemma fetch_no_id K p w m l l' : fst (cache_meta K p w) = Ok (Some m) -> m_file_id m = PNone -> fetch K p l w = fetch K p l' w.
Proof. intros E F. unfold fetch. rewrite !(bind_goes _ _ _ _ E). now rewrite F. Qed.
