(** * C45: metadata of local paths is fresh *)
From Coq Require Import String NArith ZArith Bool List Strings.Byte.
From Verif Require Import Model.Py Model.LocalMeta Spec.LocalMetaSpec Proofs.LocalMetaProofs.
Import ListNotations.

(** Each answer describes what is there when it is given, if whatever was there is told
    apart by its times and nothing was raised before.  Missing from the full
    statement: after something was raised ([C45_refuted]) and changes that only
    differ from the one before ([C45_clock_refuted]). *)
Theorem C45_partial :
  forall name id parent_id cypher digest l now rs now' m', told_apart (states l now) ->
    history name id parent_id cypher digest l now fresh_memo = (rs, now', m') -> all_answered rs ->
    Forall2 (fun s r => exists x, r = Ok x /\ describes name id digest s x) (asked l now) rs.
Proof. exact meta_fresh. Qed.
Print Assumptions C45_partial.
(** All are answered if there is nothing that cannot be read. *)
Theorem C45_answers :
  forall name id parent_id cypher digest l now m, readable (states l now) -> no_chunks l ->
    all_answered (fst (fst (history name id parent_id cypher digest l now m))).
Proof. exact meta_answers. Qed.
Print Assumptions C45_answers.
(** With the checksum of the data, if the metadata was never asked for without. *)
Theorem C45_checksum :
  forall name id parent_id cypher digest l now rs now' m', told_apart (states l now) -> asks_all l ->
    history name id parent_id cypher digest l now fresh_memo = (rs, now', m') -> all_answered rs ->
    Forall2 (fun s r => exists x, r = Ok x /\ forall i, s = Some i -> n_file i = true -> l_checksum x = Some (digest (n_data i))) (asked l now) rs.
Proof. exact meta_whole. Qed.
Print Assumptions C45_checksum.
(** A clock that goes forward tells everything apart. *)
Theorem C45_forward :
  forall l n, forward l (match n with Some i => Some (n_ctime i) | None => None end) -> told_apart (states l n).
Proof. exact apart_forward. Qed.
Print Assumptions C45_forward.

Definition c45_file (d : bytes) (t : Z) (e : option exn) : option inode := Some (mkInode true d (N.of_nat (length d)) e t t 33188 5 0 0).
Definition c45_run := history $"f" $"s:/f" $"s:/" $"sha256" (@rev byte).
Definition c45_sees (r : res lmeta) : res (option N * option bytes) := match r with Ok m => Ok (l_size m, l_checksum m) | Err e => Err e end.
Definition c45_answers (l : list event) : list (res (option N * option bytes)) := map c45_sees (fst (fst (c45_run l (c45_file [x61; x62] 1 None) fresh_memo))).
(** Asked twice, after a write, after it was removed, after it is there again. *)
Definition c45_events : list event :=
  [Asks true None; Asks true None; Becomes (c45_file [x63; x64; x65] 2 None); Asks true None; Becomes None; Asks true None;
   Becomes (c45_file [x61] 3 None); Asks true None].
Example C45_case :
  forward c45_events (Some 1%Z) /\ asks_all c45_events /\ readable (states c45_events (c45_file [x61; x62] 1 None)) /\ no_chunks c45_events /\
  c45_answers c45_events =
    [Ok (Some 2%N, Some [x62; x61]); Ok (Some 2%N, Some [x62; x61]); Ok (Some 3%N, Some [x65; x64; x63]); Ok (None, None); Ok (Some 1%N, Some [x61])].
Proof.
  split; [repeat split|]. split; [intros w c H; cbn in H; repeat (destruct H as [H|H]; [first [discriminate H|now injection H as <- <-]|]); now destruct H|].
  split; [intros i H; cbn in H; repeat (destruct H as [H|H]; [first [discriminate H|now injection H as <-]|]); now destruct H|].
  split; [intros w c H; cbn in H; repeat (destruct H as [H|H]; [first [discriminate H|now injection H as <- <-]|]); now destruct H|].
  vm_compute. reflexivity.
Qed.
(** The times are kept before the file is read: once reading failed, the metadata of the
    older content is given for the new. *)
Definition c45_failing : list event :=
  [Asks true None; Becomes (c45_file [x63; x64; x65] 2 (Some (OSErr EACCES))); Asks true None; Asks true None].
Theorem C45_refuted :
  ~ (forall name id parent_id cypher digest l now rs now' m', forward l (match now with Some i => Some (n_ctime i) | None => None end) -> no_chunks l ->
       history name id parent_id cypher digest l now fresh_memo = (rs, now', m') ->
       Forall2 (fun s r => forall x, r = Ok x -> describes name id digest s x) (asked l now) rs).
Proof.
  intros H. specialize (H $"f" $"s:/f" $"s:/" $"sha256" (@rev byte) c45_failing (c45_file [x61; x62] 1 None)).
  destruct (history _ _ _ _ _ _ _ _) as [[rs now'] m'] eqn:E in H. specialize (H rs now' m' ltac:(repeat split)).
  assert (N : no_chunks c45_failing).
  { intros w c K. cbn in K. repeat (destruct K as [K|K]; [first [discriminate K|now injection K as <- <-]|]). now destruct K. }
  specialize (H N eq_refl). vm_compute in E. injection E as <- <- <-. vm_compute in H. inversion H as [|? ? ? ? _ T1]. subst. inversion T1 as [|? ? ? ? _ T2]. subst. inversion T2 as [|? ? ? ? K _]. subst.
  destruct (K _ eq_refl) as (_ & _ & S & _). discriminate S.
Qed.
Print Assumptions C45_refuted.
Example C45_refuted_case :
  c45_answers c45_failing = [Ok (Some 2%N, Some [x62; x61]); Err (OSErr EACCES); Ok (Some 2%N, Some [x62; x61])].
Proof. vm_compute. reflexivity. Qed.
(** A change that takes the times back. *)
Definition c45_back : list event :=
  [Asks true None; Becomes (c45_file [x63; x64; x65] 2 None); Becomes (c45_file [x66] 1 None); Asks true None].
Theorem C45_clock_refuted :
  ~ (forall name id parent_id cypher digest l now rs now' m', stepwise l now -> readable (states l now) -> no_chunks l ->
       history name id parent_id cypher digest l now fresh_memo = (rs, now', m') ->
       Forall2 (fun s r => exists x, r = Ok x /\ describes name id digest s x) (asked l now) rs).
Proof.
  intros H. specialize (H $"f" $"s:/f" $"s:/" $"sha256" (@rev byte) c45_back (c45_file [x61; x62] 1 None)).
  destruct (history _ _ _ _ _ _ _ _) as [[rs now'] m'] eqn:E in H.
  assert (S : stepwise c45_back (c45_file [x61; x62] 1 None)) by (cbn; repeat split; left; discriminate).
  assert (R : readable (states c45_back (c45_file [x61; x62] 1 None))).
  { intros i K. cbn in K. repeat (destruct K as [K|K]; [first [discriminate K|now injection K as <-]|]). now destruct K. }
  assert (N : no_chunks c45_back).
  { intros w c K. cbn in K. repeat (destruct K as [K|K]; [first [discriminate K|now injection K as <- <-]|]). now destruct K. }
  specialize (H rs now' m' S R N eq_refl). vm_compute in E. injection E as <- <- <-. vm_compute in H. inversion H as [|? ? ? ? _ T1]. subst. inversion T1 as [|? ? ? ? (x & K & D) _]. subst.
  injection K as <-. destruct D as (_ & _ & Z & _). discriminate Z.
Qed.
Print Assumptions C45_clock_refuted.
(** Asked for without the checksum first, it stays without. *)
Theorem C45_checksum_refuted :
  ~ (forall name id parent_id cypher digest l now rs now' m', forward l (match now with Some i => Some (n_ctime i) | None => None end) ->
       history name id parent_id cypher digest (l ++ [Asks true None]) now fresh_memo = (rs, now', m') -> all_answered rs ->
       forall i, now' = Some i -> n_file i = true -> exists rs' x, rs = rs' ++ [Ok x] /\ l_checksum x = Some (digest (n_data i))).
Proof.
  intros H. specialize (H $"f" $"s:/f" $"s:/" $"sha256" (@rev byte) [Asks false None] (c45_file [x61; x62] 1 None)).
  destruct (history _ _ _ _ _ _ _ _) as [[rs now'] m'] eqn:R in H. specialize (H rs now' m' I eq_refl).
  vm_compute in R. injection R as <- <- <-.
  assert (A : forall (r1 r2 : lmeta), all_answered [Ok r1; Ok r2]) by (intros r1 r2 r [<-|[<-|[]]]; eauto).
  destruct (H (A _ _) _ eq_refl eq_refl) as (rs' & x & E & K).
  destruct rs' as [|a [|b [|c d]]]; cbn in E; try discriminate E. injection E as _ <-. discriminate K.
Qed.
Print Assumptions C45_checksum_refuted.
