(** * C01, C02, C03: the streaming etag *)
From Coq Require Import String NArith ZArith Bool List.
From Coq Require Import Init.Byte.
From Verif Require Import Model.Py Model.Meta Model.MetaEncode Model.MetaXattr Model.Etag Spec.EtagSpec Proofs.EtagProofs Proofs.EtagText.
Import ListNotations.

(** C01.  For every hash function, every positive chunk size and every history
    of updates and digests in which each digest falls on a block boundary or
    comes after the last byte, nothing fails and every digest is the etag of
    the data seen so far. *)
Theorem C01_etag_any_chunking :
  forall (md5 : bytes -> bytes) (cs : nat) (ops : list etag_op),
    0 < cs -> digests_ok cs 0 ops ->
    exists e outs,
      etag_run md5 (etag_init (Z.of_nat cs)) ops = Ok (e, outs) /\
      Forall2 (is_etag md5 cs) (data_at_digests [] ops) outs.
Proof. exact etag_run_correct. Qed.
Print Assumptions C01_etag_any_chunking.

(** Any split of the data, then any number of digests. *)
Theorem C01_etag_final_digests :
  forall (md5 : bytes -> bytes) (cs : nat) (chunks : list bytes) (n : nat),
    0 < cs ->
    exists e out,
      etag_run md5 (etag_init (Z.of_nat cs)) (map Update chunks ++ repeat Digest n)
        = Ok (e, repeat out n) /\
      is_etag md5 cs (concat chunks) out.
Proof. exact etag_final_digests. Qed.
Print Assumptions C01_etag_final_digests.

(** The specification determines the etag. *)
Theorem C01_etag_spec_unique :
  forall md5 size data o1 o2,
    is_etag md5 size data o1 -> is_etag md5 size data o2 -> o1 = o2.
Proof. exact is_etag_unique. Qed.
Print Assumptions C01_etag_spec_unique.

(** The text of a digest is the text metadata has for it, and both parts can be read from it. *)
Theorem C01_hexdigest :
  forall md5 e e1 d n, etag_digest md5 e = (e1, (d, n)) ->
    exists t, etag_hexdigest md5 e = (e1, t) /\ str_encode Fetag (PEtag d n) = Ok (PStr t) /\
      exists c k, rsplit1 (chr "-") t = Some (c, k) /\ fromhex c = Some d /\ py_int k = Some n.
Proof. exact hexdigest_text. Qed.
Print Assumptions C01_hexdigest.
Example C01_hexdigest_case :
  snd (etag_hexdigest (fun b => b) (mkEtag 3 [] [[x61; x0f]] [x62] 0)) = $"610f62-2".
Proof. vm_compute. reflexivity. Qed.

Example C01_case :
  let ops := [Update [x61; x62]; Update []; Update [x63; x64; x65; x66; x67]; Digest; Digest] in
  digests_ok 3 0 ops /\
  exists e, etag_run (fun b => b) (etag_init 3) ops
     = Ok (e, [([x61; x62; x63; x64; x65; x66; x67], 3%Z); ([x61; x62; x63; x64; x65; x66; x67], 3%Z)]).
Proof.
  split.
  - cbn. repeat split; right; intros b H; cbn in H; intuition congruence.
  - eexists. vm_compute. reflexivity.
Qed.

(** C02, the part that holds: digests on block boundaries (first disjunct of
    [digests_ok]) do not disturb the stream.  Missing for the full claim:
    digests inside a block, which the next theorem shows to be wrong. *)
Theorem C02_early_digest_partial :
  forall (md5 : bytes -> bytes) (cs : nat) (data1 data2 : bytes),
    0 < cs -> length data1 mod cs = 0 ->
    exists e d1 d2,
      etag_run md5 (etag_init (Z.of_nat cs)) [Update data1; Digest; Update data2; Digest]
        = Ok (e, [d1; d2]) /\
      is_etag md5 cs data1 d1 /\ is_etag md5 cs (data1 ++ data2) d2.
Proof. exact boundary_digest_harmless. Qed.
Print Assumptions C02_early_digest_partial.

Example C02_partial_case : length [x61; x62; x63; x64] mod 2 = 0.
Proof. reflexivity. Qed.

(** C02 is false: a digest inside a block always leaves a stray part, so the
    part count of the final etag is one too large, for every hash, every chunk
    size, every position inside a block and every non-empty continuation. *)
Theorem C02_early_digest_refuted :
  forall (md5 : bytes -> bytes) (cs : nat) (data1 data2 : bytes),
    0 < cs -> length data1 mod cs <> 0 -> data2 <> [] ->
    exists e d1 d2,
      etag_run md5 (etag_init (Z.of_nat cs)) [Update data1; Digest; Update data2; Digest]
        = Ok (e, [d1; d2]) /\
      is_etag md5 cs data1 d1 /\
      (forall d, is_etag md5 cs (data1 ++ data2) d -> snd d2 = (snd d + 1)%Z).
Proof. exact early_digest_spoils. Qed.
Print Assumptions C02_early_digest_refuted.

Example C02_refuted_case :
  exists e, etag_run (fun b => b) (etag_init 4)
    [Update [x61; x62]; Digest; Update [x63; x64]; Digest]
    = Ok (e, [([x61; x62], 1%Z); ([x61; x62; x61; x62; x63; x64], 2%Z)]).
Proof. eexists. vm_compute. reflexivity. Qed.

(** C03.  With a positive chunk size [update] returns; with any other it is
    still running after any number of iterations. *)
Theorem C03_update_terminates_iff :
  forall (md5 : bytes -> bytes) (cs : Z) (b : bytes),
    (exists fuel e, etag_update_fuel md5 fuel (etag_init cs) b = Ok e) <-> (0 < cs)%Z.
Proof. exact update_terminates_iff. Qed.
Print Assumptions C03_update_terminates_iff.

Theorem C03_update_hangs :
  forall (md5 : bytes -> bytes) (cs : Z) (b : bytes) (fuel : nat),
    (cs <= 0)%Z -> etag_update_fuel md5 fuel (etag_init cs) b = Err OutOfFuel.
Proof. exact update_oof'. Qed.
Print Assumptions C03_update_hangs.

Example C03_case : etag_update_fuel (fun b => b) 1000 (etag_init (-1)) [x61; x62] = Err OutOfFuel.
Proof. vm_compute. reflexivity. Qed.
