(** * What a fetch that succeeds needs *)
From Coq Require Import String Strings.Byte NArith ZArith Bool List.
From Verif Require Import Model.Py Model.PurePath Model.Meta Model.MetaXattr Model.Fs Model.Cache Spec.FsSpec Spec.CacheSpec.
Import ListNotations.

(** The same with another other end *)
Definition other_end (K : conf) (r : remote) : conf :=
  mkConf (c_dateparse K) (c_legacy K) (c_prefix K) (c_trash K) (c_object K) (c_cypher K) (c_known K) (c_digest K) r (c_refresh K).

(** The data are those that the metadata tell of: the size is right and the checksum, if
    there is one, under an algorithm that is known.  The default algorithm is not told
    apart from that of the class (core.py:802-812), so they have to be the same. *)
Definition fits (K : conf) (m : pathmeta) (data : bytes) : Prop :=
  py_eq (PInt (Z.of_nat (length data))) (m_size m) = true /\
  exists cy, algorithm K m cy /\ c_known K cy = true /\ (cy = default_cypher -> c_cypher K = default_cypher) /\
    (m_checksum m = PNone \/ py_eq (PBytes (c_digest K cy data)) (m_checksum m) = true).

(** The other end sends everything, and something. *)
Definition sends_all (K : conf) : Prop :=
  r_break (c_remote K) = None /\ r_chunks (c_remote K) <> [].

(** The metadata can be kept in the attributes of a file, and the algorithm with it. *)
Definition storable (K : conf) (name : str) (m : pathmeta) (xs : Fs.xattrs) : Prop :=
  exists l m', as_xattrs (c_dateparse K) m (c_prefix K) = Ok l /\ xs = fold_left (fun xs kv => xset ($"user." ++ key_text (fst kv)) (snd kv) xs) l [] /\
    recorded K name (Some (AFile [] xs)) = Ok (Some m') /\ m_checksum_cypher m' = m_checksum_cypher m.

(** The size that is told is less than the limit, in megabytes.  Sizes are compared as
    doubles, which tell all smaller numbers apart. *)
Definition within (m : pathmeta) (limit : N) : Prop :=
  exists n, m_size m = PSize n /\ (n < 2 ^ 53)%Z /\ (n < Z.of_N limit * 1048576)%Z.
(** The size that is told is the limit or more; or none is told. *)
Definition beyond (m : pathmeta) (limit : N) : Prop :=
  m_size m = PNone \/ exists n, m_size m = PSize n /\ (Z.of_N limit * 1048576 <= n)%Z /\ (limit <= 2 ^ 33)%N.
