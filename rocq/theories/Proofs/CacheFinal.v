(** * Whole runs of the methods of caches *)
From Coq Require Import String NArith ZArith Bool List Lia.
From Verif Require Import Model.Py Model.PurePath Model.Meta Model.MetaEncode Model.MetaXattr Model.MetaSymlink Model.MetaUpdate Model.Access
  Model.Fs Model.PathOps Model.Sparse Model.Copy Model.Cache
  Spec.FsSpec Spec.LoopSpec Spec.CopySpec Spec.CacheSpec Spec.XattrSpec
  Proofs.PyLemmas Proofs.FsLemmas Proofs.RunLemmas Proofs.Hoare Proofs.SlotLemmas Proofs.CacheLemmas Proofs.CacheOps
  Proofs.TrashProofs Proofs.CacheMove Proofs.UpdateProofs Proofs.CacheProofs Proofs.FetchProofs Proofs.LinkProofs.
Import ListNotations.

Lemma update_safe K D x TR fs cwd fault d xs pm f r w' :
  good_name x -> good_fs fs -> look fs (D ++ [x]) = Some (AFile d xs) -> trash_at K fs TR (D ++ [x]) -> usable_id K x (Some (AFile d xs)) ->
  confined (D ++ [x]) (c_refresh K (path_of (D ++ [x]))) -> honest fault ->
  meta_updater K (path_of (D ++ [x])) pm f (start fs cwd fault) = (r, w') ->
  forall s, In s (states w') -> content s (D ++ [x]) = Some d \/ exists y, look s (TR ++ [y]) = Some (AFile d xs).
Proof. intros Hx G L (T1 & T2 & T3) Hi Hc Ho H. now apply (nothing_lost K D x TR fs cwd fault d xs) with (pm := pm) (f := f) (r := r). Qed.

Lemma update_restored K D x TR fs cwd fault d xs pm f e w' :
  good_name x -> good_fs fs -> look fs (D ++ [x]) = Some (AFile d xs) -> trash_at K fs TR (D ++ [x]) -> usable_id K x (Some (AFile d xs)) ->
  confined (D ++ [x]) (c_refresh K (path_of (D ++ [x]))) -> honest fault ->
  r_is_dir (c_remote K) = false -> (forall t, fault t <> Some (OSErr ENAMETOOLONG)) -> fault (pred (w_tick w')) = None ->
  meta_updater K (path_of (D ++ [x])) pm f (start fs cwd fault) = (Err e, w') ->
  (forall s, In s (states w') -> content s (D ++ [x]) = Some d /\ only_at (D ++ [x]) fs s) \/
  (exists y, ~ is_dir_at fs (TR ++ [y]) /\ look (w_fs w') (TR ++ [y]) = None /\ forall q, q <> TR ++ [y] -> look (w_fs w') q = look fs q).
Proof. intros Hx G L (T1 & T2 & T3) Hi Hc Ho A B C H. now apply (restored K D x TR fs cwd fault d xs) with (pm := pm) (f := f) (e := e). Qed.

Lemma update_stays K D x TR fs cwd fault d xs pm f r w' :
  good_name x -> good_fs fs -> look fs (D ++ [x]) = Some (AFile d xs) -> trash_at K fs TR (D ++ [x]) -> usable_id K x (Some (AFile d xs)) ->
  confined (D ++ [x]) (c_refresh K (path_of (D ++ [x]))) -> honest fault ->
  f = false \/ (forall m u, recorded K x (Some (AFile d xs)) = Ok (Some m) -> update_meta (c_dateparse K) (Some m) pm <> Ok (true, u)) ->
  meta_updater K (path_of (D ++ [x])) pm f (start fs cwd fault) = (r, w') ->
  forall s, In s (states w') -> content s (D ++ [x]) = Some d /\ only_at (D ++ [x]) fs s.
Proof. intros Hx G L (T1 & T2 & T3) U C Ho Q H. now apply (stays K D x TR fs cwd fault d xs Hx T1 C G L T2 T3 U Ho pm f r w' H). Qed.

Lemma trash_keeps K D x TR fs cwd fault v r w' :
  good_name x -> good_fs fs -> look fs (D ++ [x]) = Some v -> cached_leaf x v -> trash_at K fs TR (D ++ [x]) -> honest fault ->
  crumple K (path_of (D ++ [x])) (start fs cwd fault) = (r, w') ->
  (forall s, In s (states w') -> s = fs) \/
  exists y, trash_name K x (Some v) y /\ forall s, In s (states w') -> s = fs \/
    (look s (TR ++ [y]) = Some v /\ look s (D ++ [x]) = None /\ forall q, q <> D ++ [x] -> q <> TR ++ [y] -> look s q = look fs q).
Proof.
  intros Hx G L Hv (T1 & T2 & T3) Ho H.
  assert (Hv' : match v with ADir _ => False | ALink t => starts_with_name x t | AFile _ _ => True end) by (destruct v; exact Hv).
  destruct (crumple_states K D x TR fs cwd fault v Hx T1 G L Hv' T2 T3 Ho r w' H) as [(Eh & Ew & _)|(m & i & y & Rm & Ei & Hy & Eh & _ & _ & (_ & M1 & M2 & M3))].
  - left. unfold states. rewrite Eh, Ew. intros s [<-|[<-|[]]]; reflexivity.
  - right. exists y. split; [destruct Hy as [->|(-> & _)]; [right; eauto|now left]|]. intros s Is. unfold states in Is. rewrite Eh in Is.
    assert (Q : s = w_fs w' \/ s = fs) by (destruct Is as [<-|[<-|[<-|[]]]]; tauto).
    destruct Q as [->| ->]; [right|now left]. split; [congruence|]. now split.
Qed.
Lemma trash_free K D x TR fs cwd fault v r w' :
  good_name x -> good_fs fs -> look fs (D ++ [x]) = Some v -> cached_leaf x v -> trash_at K fs TR (D ++ [x]) -> honest fault ->
  (forall y, trash_name K x (Some v) y -> look fs (TR ++ [y]) = None) ->
  crumple K (path_of (D ++ [x])) (start fs cwd fault) = (r, w') ->
  forall s q, In s (states w') -> q <> D ++ [x] -> look fs q <> None -> look s q = look fs q.
Proof.
  intros Hx G L Hv Ht Ho Hf H s q Is Nq Lq. destruct (trash_keeps K D x TR fs cwd fault v r w' Hx G L Hv Ht Ho H) as [Q|(y & Hy & Q)].
  - now rewrite (Q s Is).
  - destruct (Q s Is) as [->|(_ & _ & Q3)]; [reflexivity|]. apply Q3; [assumption|]. intros ->. apply Lq. now apply Hf.
Qed.

Lemma local_changes K D x fs cwd fault d xs old new u r w' :
  good_fs fs -> look fs (D ++ [x]) = Some (AFile d xs) -> honest fault ->
  recorded K x (Some (AFile d xs)) = Ok (Some old) -> update_meta (c_dateparse K) (Some old) (Some new) = Ok (true, Some u) ->
  truthy (m_checksum old) = true -> py_eq (PBytes (c_digest K (c_cypher K) d)) (m_checksum old) = false ->
  py_eq (PBytes (c_digest K (c_cypher K) d)) (m_checksum new) = false ->
  meta_updater K (path_of (D ++ [x])) (Some new) true (start fs cwd fault) = (r, w') ->
  (forall s, In s (states w') -> s = fs) /\ (r = Err LocalChangesError \/ exists e t, r = Err e /\ fault t = Some e).
Proof.
  intros G L Ho R Hu T1 T2 T3 H.
  assert (A : at_ fs (start fs cwd fault)) by now split.
  destruct (changes_raise K D x fs d xs G L old new u R Hu T1 T2 T3 (start fs cwd fault) A r w' H) as [(S1 & _ & S3 & _) Q].
  split; [|exact Q]. unfold states. rewrite S1, S3. intros s [<-|[<-|[]]]; reflexivity.
Qed.

Lemma move_safe K D x E y fs cwd fault d xs b r w' :
  good_name x -> good_name y -> good_fs fs -> look fs (D ++ [x]) = Some (AFile d xs) -> is_dir_at fs E ->
  D ++ [x] <> E ++ [y] -> D ++ [x] <> E ++ [$".unlink-" ++ y] -> honest fault ->
  move K (path_of (D ++ [x])) (path_of (E ++ [y])) b (start fs cwd fault) = (r, w') ->
  forall s, In s (states w') ->
    (look s (D ++ [x]) = Some (AFile d xs) \/ look s (E ++ [y]) = Some (AFile d xs)) /\
    (forall q, q <> D ++ [x] -> q <> E ++ [y] -> q <> E ++ [$".unlink-" ++ y] -> look s q = look fs q) /\
    ((forall t, look fs (E ++ [y]) <> Some (ALink t)) -> (forall t, look fs (E ++ [$".unlink-" ++ y]) <> Some (ALink t)) ->
     look s (E ++ [$".unlink-" ++ y]) = look fs (E ++ [$".unlink-" ++ y])).
Proof.
  intros Hx Hy G L He N1 N2 Ho H s Is.
  destruct (move_run K D x E y fs d xs Hx Hy G L He N1 N2 b (start fs cwd fault) r w' eq_refl Ho H) as [(_ & _ & l & El & Fl) Hr].
  assert (S0 : forall s, before D x E y fs d xs s \/ behind D x E y fs d xs s -> safe D x E y fs d xs s).
  { intros z [((_ & _ & B1 & B2 & _) & B3 & _)|((_ & _ & B1 & B2 & _) & _ & B3)]; (split; [tauto|split; assumption]). }
  assert (Sf : safe D x E y fs d xs s).
  { destruct Is as [<-|Is].
    - apply S0. destruct r as [t|e]; [destruct Hr as (_ & [Hr|(Hr & _)])|destruct Hr as [(Hr & _)|(Hr & _)]]; tauto.
    - rewrite El in Is. apply in_app_iff in Is as [Is|[<-|[]]]; [now apply (proj1 (Forall_forall _ _) Fl)|].
      split; [now left|]. split; reflexivity. }
  destruct Sf as (Q1 & Q2 & Q3). split; [assumption|]. split; [assumption|]. intros C1 C2. apply Q3. now split.
Qed.
Lemma move_moves K D x E y fs cwd d xs b r w' :
  good_name x -> good_name y -> good_fs fs -> look fs (D ++ [x]) = Some (AFile d xs) -> is_dir_at fs E ->
  D ++ [x] <> E ++ [y] -> D ++ [x] <> E ++ [$".unlink-" ++ y] -> look fs (E ++ [y]) = None -> ~ is_dir_at fs (E ++ [$".unlink-" ++ y]) ->
  move K (path_of (D ++ [x])) (path_of (E ++ [y])) b (start fs cwd (fun _ => None)) = (r, w') ->
  r = Ok (path_of (E ++ [y])) /\ look (w_fs w') (D ++ [x]) = None /\ look (w_fs w') (E ++ [y]) = Some (AFile d xs).
Proof.
  intros Hx Hy G L He N1 N2 Lt Lu H.
  assert (Ho : honest (fun _ => None)) by (intros t e Q; discriminate).
  destruct (move_run K D x E y fs d xs Hx Hy G L He N1 N2 b (start fs cwd (fun _ => None)) r w' eq_refl Ho H) as [_ Hr].
  assert (Nw : ~ why E y fs (start fs cwd (fun _ => None))).
  { intros [(k & e & Q)|[(zs & Q)|Q]]; [discriminate|congruence|contradiction]. }
  destruct r as [t|e].
  - destruct Hr as (-> & [(_ & B1 & B2)|(_ & Q)]); [now split|contradiction].
  - destruct Hr as [(_ & Q)|(_ & [Q|Q])]; congruence.
Qed.
Lemma move_keeps_other K D x E y fs cwd fault d xs b r w' mp mt :
  good_name x -> good_name y -> good_fs fs -> look fs (D ++ [x]) = Some (AFile d xs) -> is_dir_at fs E ->
  D ++ [x] <> E ++ [y] -> honest fault ->
  look fs (E ++ [y]) <> None -> (forall t, look fs (E ++ [y]) = Some (ALink t) -> starts_with_name y t) ->
  recorded K x (Some (AFile d xs)) = Ok mp -> recorded K y (look fs (E ++ [y])) = Ok mt -> py_eq (stored_id mt) (stored_id mp) = false ->
  move K (path_of (D ++ [x])) (path_of (E ++ [y])) b (start fs cwd fault) = (r, w') ->
  (exists e, r = Err e) /\ forall s, In s (states w') -> s = fs.
Proof.
  intros Hx Hy G L He N1 Ho Lt Hl Rp Rt Ne H.
  destruct (move_refuses K D x E y fs d xs Hx Hy G L He N1 b (start fs cwd fault) r w' mp mt eq_refl Ho Lt Hl Rp Rt Ne H) as [(S1 & _ & S3 & _) Q].
  split; [assumption|]. unfold states. rewrite S1, S3. intros s [<-|[<-|[]]]; reflexivity.
Qed.

Lemma fetch_valid K D x fs cwd fault v m limit w' :
  good_name x -> good_fs fs -> look fs (D ++ [x]) = Some v -> cached_leaf x v -> recorded K x (Some v) = Ok (Some m) -> m_file_id m <> PNone -> honest fault ->
  (c_cypher K = default_cypher \/ forall cm, recorded K x (look (w_fs w') (D ++ [x])) = Ok (Some cm) -> ~ algorithm K cm default_cypher) ->
  fetch K (path_of (D ++ [x])) limit (start fs cwd fault) = (Ok tt, w') ->
  (forall q, look (w_fs w') q = look fs q) \/
  exists d xs, look (w_fs w') (D ++ [x]) = Some (AFile d xs) /\ d = concat (r_chunks (c_remote K)) /\ r_break (c_remote K) = None /\
    only_at (D ++ [x]) fs (w_fs w') /\ py_eq (PInt (Z.of_nat (length d))) (m_size m) = true /\
    (says_mismatch K x (look (w_fs w') (D ++ [x])) \/
     exists cm cy, recorded K x (look (w_fs w') (D ++ [x])) = Ok (Some cm) /\ algorithm K cm cy /\
       (m_checksum m = PNone \/ py_eq (PBytes (c_digest K cy d)) (m_checksum m) = true)).
Proof.
  intros Hx G L Hv R Hf Ho Hc H.
  destruct (fetch_checked K D x fs cwd fault v m Hx G L Hv R Hf Ho limit w' H) as [(_ & Q)|(_ & xs & Q1 & Q2 & Q3 & Q4 & Q5)]; [now left|].
  right. exists (concat (r_chunks (c_remote K))), xs. split; [assumption|]. split; [reflexivity|]. split; [assumption|]. split; [assumption|]. split; [assumption|].
  destruct Q5 as [Q5|(cm & cy & Rc & Al & Q5)]; [now left|]. right. exists cm, cy. split; [assumption|]. split; [assumption|].
  destruct Q5 as [Q5|[Q5|(-> & Q5)]]; [now left|now right|]. exfalso. destruct Hc as [Hc|Hc]; [contradiction|]. now apply (Hc cm Rc).
Qed.
Lemma fetch_metadata K D x fs cwd fault d xs m limit r w' :
  good_name x -> good_fs fs -> look fs (D ++ [x]) = Some (AFile d xs) -> recorded K x (Some (AFile d xs)) = Ok (Some m) -> m_file_id m <> PNone ->
  honest fault -> prefix_ok (c_prefix K) -> gives_dates K -> fetch K (path_of (D ++ [x])) limit (start fs cwd fault) = (r, w') ->
  forall s, In s (states w') -> only_at (D ++ [x]) fs s /\ exists d' xs' m', look s (D ++ [x]) = Some (AFile d' xs') /\
    (forall k, xget k xs <> None -> xget k xs' <> None) /\ recorded K x (look s (D ++ [x])) = Ok (Some m') /\
    forall f, plain f = true -> getf (c_dateparse K) m' f = getf (c_dateparse K) m f.
Proof.
  intros Hx G L R Hf Ho Hp Hd H s Is.
  destruct (fetch_keeps K D x fs cwd fault (AFile d xs) m Hx G L I R Hf Ho d xs limit r w' eq_refl Hp H s Is) as (Q1 & d' & xs' & Q2 & Q3 & Q4 & Q5).
  split; [assumption|]. destruct (Q4 Hd) as (m' & Q6). exists d', xs', m'. split; [assumption|]. split; [assumption|]. split; [assumption|].
  destruct (Q5 _ Q6) as (m2 & E2 & Q7). now injection E2 as <-.
Qed.

Lemma set_newer K D x TR fs cwd fault t old m r w' :
  good_name x -> good_fs fs -> look fs (D ++ [x]) = Some (ALink t) -> starts_with_name x t -> trash_at K fs TR (D ++ [x]) ->
  from_symlink x t false false = Ok old -> honest fault -> (forall k, fault k <> Some (OSErr EEXIST)) ->
  cache_set K (path_of (D ++ [x])) (Some m) (start fs cwd fault) = (r, w') ->
  forall s, In s (states w') -> s = fs \/
    ((py_eq (m_id old) (m_id m) = true \/ newer K old m) /\
     (look s (D ++ [x]) = None \/ exists q, as_symlink (c_dateparse K) m (Some x) = Ok q /\ look s (D ++ [x]) = Some (ALink (pp_str q))) /\
     exists y, trash_name K x (Some (ALink t)) y /\ look s (TR ++ [y]) = Some (ALink t) /\
       forall q, q <> D ++ [x] -> q <> TR ++ [y] -> look s q = look fs q).
Proof.
  intros Hx G L Hl (T1 & T2 & T3) R Ho Ne H s Is.
  destruct (only_newer K D x TR fs t old Hx T1 G L Hl T2 T3 R cwd fault m Ho Ne r w' H s Is) as [Q|(Q1 & Q2 & i & y & Q3 & Q4 & Q5 & Q6)]; [now left|].
  right. split; [assumption|]. split; [assumption|]. exists y. split; [|now split].
  destruct Q4 as [->|(-> & _)]; [|now left]. right. exists old, i. cbn [recorded]. rewrite R. now repeat split.
Qed.
Lemma set_is_newer K D x TR fs cwd fault t old m w' :
  good_name x -> good_fs fs -> look fs (D ++ [x]) = Some (ALink t) -> starts_with_name x t -> trash_at K fs TR (D ++ [x]) ->
  from_symlink x t false false = Ok old -> honest fault -> (forall k, fault k <> Some (OSErr EEXIST)) ->
  meta_bool m = true -> meta_eq old m = Ok false -> newer K old m -> (m_size old = PNone \/ m_size m <> PNone) ->
  cache_set K (path_of (D ++ [x])) (Some m) (start fs cwd fault) = (Ok tt, w') ->
  exists q, as_symlink (c_dateparse K) m (Some x) = Ok q /\ look (w_fs w') (D ++ [x]) = Some (ALink (pp_str q)).
Proof.
  intros Hx G L Hl (T1 & T2 & T3) R Ho Ne B N1 N2 N3 H.
  now apply (newer_is_set K D x TR fs t old Hx T1 G L Hl T2 T3 R cwd fault m Ho Ne w').
Qed.

Lemma confined_raise P e : confined P (raise e).
Proof.
  intros w r w' G H. injection H as <- <-. split; [reflexivity|]. split; [reflexivity|]. exists []. split; [reflexivity|].
  intros s [<-|[]]. split; [assumption|]. split; [reflexivity|auto].
Qed.
Lemma confined_ret P : confined P (ret tt).
Proof.
  intros w r w' G H. injection H as <- <-. split; [reflexivity|]. split; [reflexivity|]. exists []. split; [reflexivity|].
  intros s [<-|[]]. split; [assumption|]. split; [reflexivity|auto].
Qed.
