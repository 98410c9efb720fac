From Coq Require Import String NArith ZArith Bool List Lia.
From Verif Require Import Model.Py Model.PurePath Model.Fs Model.PathOps Model.Swap Spec.FsSpec Spec.LoopSpec Spec.SwapSpec Spec.XattrSpec
  Proofs.PyLemmas Proofs.FsLemmas Proofs.RunLemmas Proofs.RmtreeProofs Proofs.MoveLemmas Proofs.MetaXattrProofs Proofs.SwapProofs.
Import ListNotations.

Lemma spelled_ok p : encodable (pp_str p) -> spelled p = fun w => (Ok tt, w).
Proof. intro E. apply enc_ok in E as (b & _ & _ & E). unfold spelled, lift. now rewrite E. Qed.
Lemma spelled_bad p : ~ encodable (pp_str p) -> spelled p = fun w => (Err UnicodeError, w).
Proof.
  intro E. unfold spelled, lift. destruct (utf8_enc (pp_str p)) eqn:K; [|reflexivity].
  elim E. apply encodable_scalar. unfold utf8_enc in K. now destruct (forallb scalar (pp_str p)).
Qed.

Lemma swap_front p q w fa na fb nb : no_fault w -> walk (w_fs w) (w_cwd w) true p = Found fa na -> walk (w_fs w) (w_cwd w) true q = Found fb nb ->
  exists u, same w u /\ p_swap p q w =
    (let! _ <- spelled p ; let! _ <- spelled q ; catch (sys_exchange fa p fb q) (fun e => raise (match e with OSErr _ => OSErr EIO | _ => e end))) u.
Proof.
  intros N Wa Wb.
  assert (Ex : forall x fx nx u, same w u -> walk (w_fs w) (w_cwd w) true x = Found fx nx -> exists v, same w v /\ p_exists x u = (Ok true, v)).
  { intros x fx nx u Su K. destruct (test_run true x (fun _ => true) u (no_fault_same _ _ Su N)) as (v & Sv & R).
    destruct Su as (F & C & Su). rewrite F, C, K in R. exists v. split; [|exact R]. apply (same_trans _ u); [now split|exact Sv]. }
  assert (Ak : forall {X} (g : place * node -> X) x fx nx u, same w u -> walk (w_fs w) (w_cwd w) true x = Found fx nx ->
     exists v, same w v /\ ask (fun fs cwd => do r <- lookup true x fs cwd ; Ok (g r)) u = (Ok (g (fx, nx)), v)).
  { intros X g x fx nx u Su K. destruct (ask_run (fun fs cwd => do r <- lookup true x fs cwd ; Ok (g r)) u (no_fault_same _ _ Su N)) as (v & R & Sv).
    destruct Su as (F & C & Su). unfold lookup at 2 in R. rewrite F, C, K in R. exists v. split; [|exact R]. apply (same_trans _ u); [now split|exact Sv]. }
  destruct (Ex p fa na w (same_refl w) Wa) as (u1 & S1 & E1). destruct (Ex q fb nb u1 S1 Wb) as (u2 & S2 & E2).
  destruct (Ak _ snd p fa na u2 S2 Wa) as (u3 & S3 & E3). destruct (Ak _ snd q fb nb u3 S3 Wb) as (u4 & S4 & E4).
  destruct (Ak _ fst p fa na u4 S4 Wa) as (u5 & S5 & E5). destruct (Ak _ fst q fb nb u5 S5 Wb) as (u6 & S6 & E6).
  exists u6. split; [exact S6|]. unfold p_swap. unfold bind at 1. rewrite E1. unfold bind at 1. rewrite E2. cbn [negb].
  unfold bind at 1, sys_stat at 1. rewrite E3. unfold bind at 1, sys_stat. rewrite E4. unfold swap_linux.
  unfold bind at 1, sys_open at 1. rewrite E5. unfold bind at 1, sys_open. rewrite E6. reflexivity.
Qed.

Lemma swap_works A B fs cwd : good_fs fs -> A <> [] -> B <> [] -> look fs A <> None -> look fs B <> None -> apart A B ->
  reaches fs cwd (path_of A) -> reaches fs cwd (path_of B) -> encodable (pp_str (path_of A)) -> encodable (pp_str (path_of B)) ->
  exists w', p_swap (path_of A) (path_of B) (start fs cwd (fun _ => None)) = (Ok tt, w') /\ exchanged fs A B (w_fs w') /\
    forall s, In s (states w') -> s = fs \/ s = w_fs w'.
Proof.
  intros G NA NB LA LB Ap (fa & na & Wa) (fb & nb & Wb) Ea Eb. destruct (look_some _ _ LA) as (nA & GA). destruct (look_some _ _ LB) as (nB & GB).
  set (w := start fs cwd (fun _ => None)). assert (N : no_fault w) by (intro t; reflexivity).
  destruct (swap_front (path_of A) (path_of B) w fa na fb nb N Wa Wb) as (u & S & R).
  rewrite (spelled_ok _ Ea), (spelled_ok _ Eb) in R. unfold bind in R.
  assert (X : exists v, sys_exchange fa (path_of A) fb (path_of B) u = (Ok tt, v)).
  { pose proof S as (F & C & _ & T). unfold sys_exchange. rewrite (not_dotdot _ _ _ G NA GA), (not_dotdot _ _ _ G NB GB). cbn [orb].
    edestruct (sys_ok (fun fs0 _ => do ra <- lookup false (path_of A) fs0 fa ; do rb <- lookup false (path_of B) fs0 fb ;
      (let (pa, na) := ra in let (pb, nb) := rb in
       match pa, pb with
       | [], _ | _, [] => fail EBUSY
       | _, _ => if list_eqb str_eqb pa pb then Ok (tt, fs0) else if (is_prefix pa pb || is_prefix pb pa)%bool then fail EINVAL else Ok (tt, put (put fs0 pa nb) pb na)
       end)) u) as (v & E & _); [now apply (no_fault_same w)| |exists v; exact E].
    rewrite F. cbn [w w_fs start]. unfold lookup. rewrite (walk_of _ _ _ _ _ G GA), (walk_of _ _ _ _ _ G GB) by discriminate. cbn [rbind].
    destruct A as [|a A]; [congruence|]; destruct B as [|b B]; [congruence|].
    destruct (list_eqb str_eqb (a :: A) (b :: B)) eqn:E; [apply list_eqb_eq in E; rewrite E in Ap; destruct Ap as [K _]; elim K; apply below_refl|].
    destruct (is_prefix (a :: A) (b :: B)) eqn:E1; [apply is_prefix_spec in E1; now destruct Ap|].
    destruct (is_prefix (b :: B) (a :: A)) eqn:E2; [apply is_prefix_spec in E2; now destruct Ap|]. reflexivity. }
  destruct X as (v & X). unfold catch in R. rewrite X in R. exists v. split; [exact R|].
  destruct (swap_run A B w (Ok tt) v nA nB G NA NB GA GB Ap R) as [(e & K & _)|(_ & C1 & C2 & C3 & C4)]; [discriminate K|].
  split; [rewrite C1; now apply exchange_exchanged|]. unfold states. rewrite C3, C1. cbn [w w_fs w_hist start].
  intros s [<-|[<-|[<-|[]]]]; auto.
Qed.

Lemma swap_spelled p q fs cwd : reaches fs cwd p -> reaches fs cwd q -> ~ encodable (pp_str p) \/ ~ encodable (pp_str q) ->
  exists w', p_swap p q (start fs cwd (fun _ => None)) = (Err UnicodeError, w') /\ forall s, In s (states w') -> s = fs.
Proof.
  intros (fa & na & Wa) (fb & nb & Wb) E. set (w := start fs cwd (fun _ => None)). assert (N : no_fault w) by (intro t; reflexivity).
  destruct (swap_front p q w fa na fb nb N Wa Wb) as (u & S & R).
  assert (K : p_swap p q w = (Err UnicodeError, u)).
  { rewrite R. unfold bind. unfold spelled at 1, lift. destruct (utf8_enc (pp_str p)) eqn:Ep; [|reflexivity].
    destruct E as [E|E]; [|now rewrite (spelled_bad _ E)].
    elim E. apply encodable_scalar. unfold utf8_enc in Ep. now destruct (forallb scalar (pp_str p)). }
  exists u. split; [exact K|]. exact (swap_atomic_fs _ _ _ _ _ _ _ K).
Qed.
Lemma swap_returned A B fs cwd fault w' : good_fs fs -> A <> [] -> B <> [] -> look fs A <> None -> look fs B <> None -> apart A B ->
  p_swap (path_of A) (path_of B) (start fs cwd fault) = (Ok tt, w') ->
  exchanged fs A B (w_fs w') /\ forall s, In s (states w') -> s = fs \/ s = w_fs w'.
Proof.
  intros G NA NB LA LB Ap R. destruct (look_some _ _ LA) as (nA & GA). destruct (look_some _ _ LB) as (nB & GB).
  destruct (swap_run A B (start fs cwd fault) (Ok tt) w' nA nB G NA NB GA GB Ap R) as [(e & K & _)|(_ & C1 & C2 & C3 & C4)]; [discriminate K|].
  split; [rewrite C1; now apply exchange_exchanged|]. unfold states. rewrite C3, C1. cbn [w_fs w_hist start].
  intros s [<-|[<-|[<-|[]]]]; auto.
Qed.
