(** * A program alone does what Model.Swap does *)
From Coq Require Import String Bool List Lia.
From Verif Require Import Model.Py Model.PurePath Model.Fs Model.PathOps Model.Swap Model.SwapRace
  Spec.FsSpec Spec.CopySpec Spec.SwapSpec Spec.SwapRaceSpec Proofs.SwapProofs.
Import ListNotations.

Lemma alone_run E (x y : E) ok :
  let s := wrun E (fun _ => ok) (fun _ => false) (w_fresh E x y) (repeat 0 12) in
  w_returned E s 0 /\ w_temp E s 0 = None /\ w_path E s false = Some y /\ w_path E s true = Some x.
Proof. destruct ok; vm_compute; now repeat split. Qed.

Lemma alone_swap names A B fs cwd r w' t ok x y : good_fs fs -> A <> [] -> B <> [] -> look fs A = Some x -> look fs B = Some y ->
    apart A B -> Forall good_name names -> In t names -> look fs (removelast B ++ [t]) = None ->
    p_swap_carefree names (path_of A) (path_of B) (start fs cwd (fun _ => None)) = (r, w') ->
    let s := wrun thing (fun _ => ok) (fun _ => false) (w_fresh thing x y) (repeat 0 12) in
    r = Ok tt /\ w_returned thing s 0 /\ w_temp thing s 0 = None /\ look (w_fs w') A = w_path thing s false /\ look (w_fs w') B = w_path thing s true.
Proof.
  intros G Na Nb Ha Hb Ap Gn It Lt H.
  assert (Ha' : look fs A <> None) by congruence. assert (Hb' : look fs B <> None) by congruence.
  assert (R := swap_carefree_works _ _ _ _ _ _ _ _ G Na Nb Ha' Hb' Ap Gn It Lt H). subst r.
  assert (X := swap_carefree_ok _ _ _ _ _ _ _ G Na Nb Ha' Hb' Ap Gn H). destruct X as (X1 & X2 & X3).
  assert (E1 := X1 []). assert (E2 := X2 []). rewrite ?app_nil_r in *.
  cbv zeta. split; [reflexivity|]. destruct (alone_run thing x y ok) as (R1 & R2 & R3 & R4). rewrite R3, R4. repeat split; try assumption; congruence.
Qed.
