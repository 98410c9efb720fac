(** * Metadata of a local path: LocalPath._meta_maker, /repo/augpathlib/core.py:1218-1299

    One path object; what is at its path changes between the calls, not during one.
    Simplified: times are the numbers [stat] gives; [created] and [updated] of the metadata
    are these numbers, not yet made into dates; sysid, the path's text and the cypher
    do not change. *)
From Coq Require Import NArith ZArith Bool List.
From Verif Require Import Model.Py.
Import ListNotations.

(** What [stat] and reading give.  [n_fails] is what reading raises. *)
Record inode : Type := mkInode {
  n_file : bool; n_data : bytes; n_size : N; n_fails : option exn;
  n_ctime : Z; n_mtime : Z; n_mode : N; n_ino : N; n_uid : N; n_gid : N }.

Record lmeta : Type := mkLmeta {
  l_name : str; l_id : str; l_parent_id : option str; l_size : option N;
  l_created : option Z; l_updated : option Z; l_checksum : option bytes; l_cypher : option str;
  l_file_id : option N; l_user_id : option N; l_gid : option N; l_mode : option N }.

(** The attributes [_meta] and [__change_tuple] of the object *)
Record memo : Type := mkMemo { m_meta : option lmeta; m_change : Z * Z }.
Definition fresh_memo : memo := mkMemo None (0, 0)%Z.

Section LocalMeta.
Variables (name id parent_id cypher_name : str) (digest : bytes -> bytes).

(** AugmentedPath.checksum, core.py:795-823; None for what is no file *)
Definition checksum (n : inode) : res (option bytes) :=
  if n_file n then match n_fails n with Some e => Err e | None => Ok (Some (digest (n_data n))) end else Ok None.

(** [chunksize]: [self.etag()] lacks its argument, core.py:1287 *)
Definition meta_maker (want_checksum : bool) (chunksize : option N) (at_path : option inode) (m : memo) : res lmeta * memo :=
  match at_path with
  | None => (Ok (mkLmeta name id None None None None None None None None None None), m)       (* 1228-1231 *)
  | Some n =>
      let change := (n_ctime n, n_mtime n) in
      match m_meta m, (fst (m_change m) =? fst change)%Z && (snd (m_change m) =? snd change)%Z with
      | Some old, true => (Ok old, m)                                                         (* 1243-1245 *)
      | _, _ =>
          let m1 := mkMemo (m_meta m) change in                                               (* 1250 *)
          match (if want_checksum then checksum n else Ok None) with                          (* 1280 *)
          | Err e => (Err e, m1)
          | Ok c =>
              match chunksize with
              | Some (Npos _) => (Err TypeError, m1)
              | _ =>
                  let new := mkLmeta name id (Some parent_id) (Some (n_size n)) (Some (n_mtime n)) (Some (n_ctime n))
                               c (match c with Some _ => Some cypher_name | None => None end)
                               (Some (n_ino n)) (Some (n_uid n)) (Some (n_gid n)) (Some (n_mode n)) in
                  (Ok new, mkMemo (Some new) change)
              end
          end
      end
  end.

(** A history: what is at the path changes, and the object is asked *)
Inductive event : Type := Becomes (n : option inode) | Asks (want_checksum : bool) (chunksize : option N).
Fixpoint history (l : list event) (now : option inode) (m : memo) : list (res lmeta) * option inode * memo :=
  match l with
  | [] => ([], now, m)
  | Becomes n :: r => history r n m
  | Asks w c :: r =>
      let '(a, m1) := meta_maker w c now m in
      let '(rest, now', m2) := history r now m1 in
      (a :: rest, now', m2)
  end.
End LocalMeta.
