(** * A program alone does what [Cache.cache_set] does *)
From Coq Require Import String NArith Bool List.
From Verif Require Import Model.Py Model.PurePath Model.Meta Model.MetaSymlink Model.Access Model.Fs Model.Cache Model.LinkRace
  Spec.FsSpec Spec.LoopSpec Spec.CopySpec Spec.CacheSpec Spec.LinkRaceSpec Proofs.PyLemmas Proofs.CacheLemmas Proofs.LinkProofs Proofs.LinkRaceProofs.
Import ListNotations.

Lemma agrees K D x TR fs cwd t old m q tr w' :
  good_name x -> good_fs fs -> look fs (D ++ [x]) = Some (ALink t) -> starts_with_name x t -> trash_at K fs TR (D ++ [x]) ->
  from_symlink x t false false = Ok old -> meta_bool m = true -> as_symlink (c_dateparse K) m (Some x) = Ok q ->
  (forall n, look fs (TR ++ [n]) = as_link (tr n)) ->
  cache_set K (path_of (D ++ [x])) (Some m) (start fs cwd (fun _ => None)) = (Ok tt, w') ->
  let d := l_disk linked (lrun linked (by_meta (may_replace K)) id_name (fun _ => (m, pp_str q))
             (l_fresh linked (mkLD linked (Some (old, t)) tr)) (repeat 0 12)) in
  look (w_fs w') (D ++ [x]) = as_link (l_path linked d) /\ forall n, look (w_fs w') (TR ++ [n]) = as_link (l_trash linked d n).
Proof.
  intros Hx Gf Lf Sw (Htr & Ht & Nb) Ro Bm Eq Tr H. cbv zeta.
  assert (P : l_pc linked (l_fresh linked (mkLD linked (Some (old, t)) tr)) 0 = LLook) by reflexivity.
  destruct (alone linked (by_meta (may_replace K)) id_name (fun _ => (m, pp_str q)) _ 0 P) as (_ & -> & _).
  unfold alone_disk. cbn [l_fresh l_disk l_path l_trash]. unfold by_meta, id_name. cbn [fst].
  assert (Np : forall n, TR ++ [n] <> D ++ [x]).
  { intros n Q. apply Nb. rewrite <- Q. exists [n]. reflexivity. }
  destruct (set_states K D x TR fs t old Hx Htr Gf Lf Sw Ht Nb Ro cwd (fun _ => None) m
              ltac:(intros k e Z; discriminate) ltac:(discriminate) _ _ H) as [(Q & Z)|(Hm & _ & Z)].
  - assert (E : w_fs w' = fs) by (apply Q; now left). rewrite E.
    destruct (may_replace K old m) as [[|]|e].
    + destruct (Z Bm eq_refl). discriminate.
    + cbn [l_path l_trash as_link option_map snd]. now split.
    + cbn [l_path l_trash as_link option_map snd]. now split.
  - rewrite Hm. destruct (Z eq_refl) as ((_ & i & y & Ei & Hy & Ly & Lo) & q' & Eq' & Lp). rewrite Ei.
    rewrite Eq in Eq'. injection Eq' as <-. destruct Hy as [->|(_ & k & Z')]; [|discriminate]. cbn [l_path l_trash].
    split; [exact Lp|]. intro n. unfold lput. destruct (str_eqb n (fs_safe_id i)) eqn:En.
    + apply str_eqb_eq in En. subst n. exact Ly.
    + rewrite Lo; [apply Tr|apply Np|]. intro Q. apply app_inj_tail in Q as [_ Q]. subst n.
      now rewrite (proj2 (str_eqb_eq _ _) eq_refl) in En.
Qed.
