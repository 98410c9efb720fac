(** * What an S3-style multipart etag is

    Independent of the implementation: a file is cut into consecutive blocks
    of a fixed size, only the last one may be shorter; the etag is the hash of
    the concatenated block hashes together with the number of blocks. *)
From Coq Require Import ZArith List.
From Verif Require Import Model.Py Model.Etag.
Import ListNotations.

Definition blocks_of (size : nat) (data : bytes) (blocks : list bytes) : Prop :=
  concat blocks = data /\
  (forall b, In b blocks -> 0 < length b <= size) /\
  (forall i, S i < length blocks -> length (nth i blocks []) = size).

Definition is_etag (md5 : bytes -> bytes) (size : nat) (data : bytes) (out : bytes * Z) : Prop :=
  exists blocks, blocks_of size data blocks /\
    out = (md5 (concat (map md5 blocks)), Z.of_nat (length blocks)).

(** The data seen by each digest call of a client. *)
Fixpoint data_at_digests (seen : bytes) (ops : list etag_op) : list bytes :=
  match ops with
  | [] => []
  | Update b :: r => data_at_digests (seen ++ b) r
  | Digest :: r => seen :: data_at_digests seen r
  end.

(** No more data arrives. *)
Definition no_more_data (ops : list etag_op) : Prop :=
  forall b, In (Update b) ops -> b = [].

(** Each digest is on a block boundary or after the last byte. *)
Fixpoint digests_ok (size : nat) (seen : nat) (ops : list etag_op) : Prop :=
  match ops with
  | [] => True
  | Update b :: r => digests_ok size (seen + length b) r
  | Digest :: r => (Nat.modulo seen size = 0 \/ no_more_data r) /\ digests_ok size seen r
  end.
