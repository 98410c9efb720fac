(** * C04, C05: reading file content *)
From Coq Require Import String NArith ZArith Bool List.
From Coq Require Import Init.Byte.
From Verif Require Import Model.Py Model.Etag Model.Data Spec.EtagSpec Spec.DataSpec.
From Verif Require Import Proofs.DataProofs.
Import ListNotations.

(** C04.  [data] yields the consecutive blocks of the content: non-empty, full
    except for the last, and together the content. *)
Theorem C04_data_yields_content :
  forall (content : bytes) (chunksize : nat), 0 < chunksize ->
    exists chunks, data content (Z.of_nat chunksize) = (chunks, None) /\
                   blocks_of chunksize content chunks.
Proof. exact data_blocks. Qed.
Print Assumptions C04_data_yields_content.

(** [checksum] is the hash of the content under the selected cypher, and each
    extra cypher's hash of the content, whatever the chunk size. *)
Theorem C04_checksum_is_hash_of_content :
  forall (H : nat -> bytes -> bytes) (content : bytes) (chunksize : nat)
         (cypher : nat) (cache_cypher self_cypher : option nat) (extra : list nat),
    0 < chunksize ->
    checksum H content (Z.of_nat chunksize) cypher cache_cypher self_cypher extra
    = Ok (map (fun c => H c content) (chosen cypher cache_cypher self_cypher :: extra)).
Proof. exact checksum_content. Qed.
Print Assumptions C04_checksum_is_hash_of_content.

(** [etag] of a local file is the etag of its content for every pair of data
    chunk size and etag chunk size. *)
Theorem C04_local_etag :
  forall (md5 : bytes -> bytes) (content : bytes) (data_chunksize chunksize : nat),
    0 < data_chunksize -> 0 < chunksize ->
    exists out,
      local_etag md5 content (Z.of_nat data_chunksize) (Z.of_nat chunksize) = Ok out /\
      is_etag md5 chunksize content out.
Proof. exact local_etag_correct. Qed.
Print Assumptions C04_local_etag.

Example C04_case :
  data [x61; x62; x63; x64; x65] 2 = ([[x61; x62]; [x63; x64]; [x65]], None).
Proof. vm_compute. reflexivity. Qed.

(** C05, the part that holds: every list of valid ranges, none of which asks
    for exactly one chunk, yields the requested bytes range by range, in pieces
    no longer than a chunk.  Missing for the full claim: ranges of exactly one
    chunk, see below. *)
Theorem C05_ranges_partial :
  forall (content : bytes) (chunksize : nat) (ranges : list (Z * option Z)),
    0 < chunksize -> ranges <> [] ->
    Forall (range_valid (length content)) ranges ->
    Forall (fun r => range_total r <> Some (Z.of_nat chunksize)) ranges ->
    exists pieces,
      data_ content (Z.of_nat chunksize) ranges = (concat pieces, None) /\
      Forall2 (fun r l => concat l = range_bytes content r /\
                          forall b, In b l -> length b <= chunksize) ranges pieces.
Proof. exact data_ranges_correct. Qed.
Print Assumptions C05_ranges_partial.

Theorem C05_no_range_is_whole_file :
  forall (content : bytes) (chunksize : nat), 0 < chunksize ->
    exists l, data_ content (Z.of_nat chunksize) [] = (l, None) /\
              blocks_of chunksize content l.
Proof. exact data_no_ranges. Qed.
Print Assumptions C05_no_range_is_whole_file.

Example C05_case :
  let ranges := [(1, Some 6); (-3, None); (2, Some 2); (0, Some 4)]%Z in
  let content := [x61; x62; x63; x64; x65; x66; x67] in
  Forall (range_valid (length content)) ranges /\
  Forall (fun r => range_total r <> Some 2%Z) ranges /\
  data_ content 2 ranges =
    ([[x62; x63]; [x64; x65]; [x66]; [x65; x66]; [x67]; []; [x61; x62]; [x63; x64]; []], None).
Proof.
  split; [|split].
  - repeat constructor; unfold range_offset; cbn; discriminate.
  - repeat constructor; cbn; discriminate.
  - vm_compute. reflexivity.
Qed.

(** C05 is false for ranges of exactly one chunk: as the first range they
    always raise UnboundLocalError, for every content, chunk size and start. *)
Theorem C05_one_chunk_range_refuted :
  forall (content : bytes) (chunksize : nat) (start : Z),
    0 < chunksize -> (0 <= range_offset (length content) start)%Z ->
    forall rest,
      data_ content (Z.of_nat chunksize)
        ((start, Some (start + Z.of_nat chunksize)%Z) :: rest)
      = ([], Some UnboundLocalError).
Proof. exact exact_total_fails. Qed.
Print Assumptions C05_one_chunk_range_refuted.

(** After a shorter range they silently return only as many bytes as that
    range had. *)
Theorem C05_one_chunk_range_stale_refuted :
  forall (content : bytes) (chunksize : nat) (s1 e1 s2 : Z),
    0 < chunksize ->
    range_valid (length content) (s1, Some e1) -> (e1 - s1 < Z.of_nat chunksize)%Z ->
    (0 <= range_offset (length content) s2)%Z ->
    exists l,
      data_ content (Z.of_nat chunksize)
        [(s1, Some e1); (s2, Some (s2 + Z.of_nat chunksize)%Z)] = (l, None) /\
      concat l = range_bytes content (s1, Some e1) ++
        firstn (Z.to_nat (e1 - s1))
          (range_bytes content (s2, Some (s2 + Z.of_nat chunksize)%Z)).
Proof. exact exact_total_stale. Qed.
Print Assumptions C05_one_chunk_range_stale_refuted.

Example C05_stale_case :
  data_ [x61; x62; x63; x64; x65] 4 [(0, Some 1); (0, Some 4)]%Z = ([[x61]; [x61]], None) /\
  data_ [x61; x62] 0 [(0, Some 1)]%Z = ([], Some ZeroDivisionErr).
Proof. vm_compute. split; reflexivity. Qed.

(** With a chunk size of zero a file reads as empty, an empty range has no size, and the
    others divide by zero. *)
Theorem C05_zero_refuted :
  forall (content : bytes) (start : Z) (rest : list (Z * option Z)),
    (0 <= range_offset (length content) start)%Z ->
    data_ content 0 [] = ([], None) /\
    data_ content 0 ((start, Some start) :: rest) = ([], Some UnboundLocalError) /\
    (forall e, (start < e)%Z -> data_ content 0 ((start, Some e) :: rest) = ([], Some ZeroDivisionErr)).
Proof. exact zero_chunks. Qed.
Print Assumptions C05_zero_refuted.
