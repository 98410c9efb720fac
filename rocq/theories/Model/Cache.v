(** * Caches: metadata stored with a path, /repo/augpathlib/caches.py:144-169, 535-596,
    743-757, 867-1019, 1072-1432, 1466-1495

    The configuration is that of SshCache (caches.py:1466-1470): metadata is kept in
    extended attributes of files and directories (EatCache) and in the target of a
    link where there is no file (SymlinkCache); SqliteCache keeps nothing.  A subclass
    has to say where the trash and the stored objects are (caches.py:132-135, 181-184).
    Simplified: what an object remembers ([_id], [_meta], [_remote]) is read again
    where it is asked for; log messages are not built; the remote is the same during
    a call; extended attributes are read in one call, a file is read in one call when
    its checksum is computed. *)
From Coq Require Import String NArith ZArith Bool List.
From Verif Require Import Model.Py Model.PurePath Model.Meta Model.MetaEncode Model.MetaXattr Model.MetaSymlink
  Model.MetaUpdate Model.Access Model.Fs Model.PathOps Model.Sparse Model.Copy.
Import ListNotations.

(** The other end: what it is, and the chunks of its data, which may break off. *)
Record remote : Type := mkRemote {
  r_is_dir : bool; r_is_file : bool; r_chunks : list bytes; r_break : option exn }.

Record conf : Type := mkConf {
  c_dateparse : pyval -> res pyval;            (* dateutil.parser.parse *)
  c_legacy : bytes -> res pyval;               (* see MetaXattr *)
  c_prefix : option str;                       (* xattr_prefix *)
  c_trash : ppath;                             (* trash, caches.py:132-135 *)
  c_object : ppath;                            (* local_object_cache_path, 181-184 *)
  c_cypher : str;                              (* cypher of the class *)
  c_known : str -> bool;                       (* the keys of cypher_lookup, utils.py:31 *)
  c_digest : str -> bytes -> bytes;            (* the digests of hashlib, never empty *)
  c_remote : remote;
  c_refresh : ppath -> M unit                  (* refresh, 849-865: see UpdateCache.v *)
}.

(** default_cypher, utils.py:30 *)
Definition default_cypher : str := $"blake2b".

(** ** Extended attributes
    A name of bytes is the text of the same characters. *)
Definition key_text (k : bytes) : str := map Byte.to_N k.
Definition text_key (s : str) : option bytes :=
  fold_right (fun c acc => match acc, Byte.of_N c with Some l, Some b => Some (b :: l) | _, _ => None end) (Some []) s.
(** xattrs, core.py:316-321 *)
Definition user_attrs (xs : Fs.xattrs) : MetaXattr.xattrs :=
  flat_map (fun kv => if startswith (fst kv) $"user."
                      then match text_key (skipn 5 (fst kv)) with Some k => [(k, snd kv)] | None => [] end
                      else []) xs.
Definition p_xattrs (p : ppath) : M MetaXattr.xattrs :=
  ask (fun fs cwd => do r <- lookup true p fs cwd ;
                     match node_xattrs (snd r) with Some xs => Ok (user_attrs xs) | None => fail EPERM end).
(** setxattrs, core.py:301-303 *)
Definition p_setxattrs (p : ppath) (xs : MetaXattr.xattrs) : M unit :=
  each (fun kv => p_setxattr p (key_text (fst kv)) (snd kv)) xs.

(** [touch()] (pathlib of python 3.11): sets the times, or makes the file *)
Definition sys_touch (p : ppath) : M unit :=
  sys (fun fs cwd => match walk fs cwd true p with
                     | Found _ _ => Ok (tt, fs)
                     | Missing d x => Ok (tt, put fs (d ++ [x]) (File [] []))
                     | Fail e => fail e
                     end).
Definition p_touch (p : ppath) : M unit :=
  catch (let! _ <- sys_stat true p ; ret tt)
        (fun e => match e with OSErr _ => sys_touch p | _ => raise e end).
(** [mkdir(parents=True)] (pathlib of python 3.11); [n] is the number of parts *)
Fixpoint mkdir_parents (n : nat) (exist_ok : bool) (p : ppath) : M unit :=
  let ok e := if exist_ok then let! d <- p_is_dir p ; if d then ret tt else raise e else raise e in
  catch (sys_mkdir p)
        (fun e => match e, n with
                  | OSErr ENOENT, S n' =>
                      let! _ <- mkdir_parents n' true (pp_parent p) ;
                      catch (sys_mkdir p) (fun e => match e with OSErr _ => ok e | _ => raise e end)
                  | OSErr ENOENT, O => raise e
                  | OSErr _, _ => ok e
                  | _, _ => raise e
                  end).
(** [try: m finally: f] *)
Definition finally {A} (m : M A) (f : M unit) : M A :=
  fun w => match m w with
           | (Ok a, w1) => (let! _ <- f ; ret a) w1
           | (Err e, w1) => (let! _ <- f ; raise e) w1
           end.

(** exists_not_symlink, core.py:471-472 *)
Definition p_exists_not_symlink (p : ppath) : M bool :=
  let! e <- p_exists p ;
  if e then let! l <- p_is_symlink p ; ret (negb l) else ret false.

Definition meta_true (m : option pathmeta) : bool := match m with Some x => meta_bool x | None => false end.

(** The data of the remote as it comes, caches.py:1492-1495 and remotes.py:847-858 *)
Fixpoint remote_feed (l : list bytes) (e : option exn) : feed :=
  Feed (ask (fun _ _ => match l with
                        | c :: r => Ok (Some (c, remote_feed r e))
                        | [] => match e with Some x => Err x | None => Ok None end
                        end)).
Fixpoint gather (g : feed) : M bytes :=
  match g with
  | Feed f => fun w =>
      match f w with
      | (Err e, w1) => (Err e, w1)
      | (Ok None, w1) => (Ok [], w1)
      | (Ok (Some (c, g')), w1) =>
          match gather g' w1 with (Ok d, w2) => (Ok (c ++ d), w2) | (Err e, w2) => (Err e, w2) end
      end
  end.
Definition read_all (p : ppath) : M bytes :=
  ask (fun fs cwd => do r <- lookup true p fs cwd ;
                     match snd r with File d _ => Ok d | Dir _ _ => fail EISDIR | Link _ => fail ELOOP end).

Section Cache.
Variable K : conf.

(** ** Where metadata is read *)

(** EatCache.meta, caches.py:1076-1082 *)
Definition eat_meta (p : ppath) : M (option pathmeta) :=
  let! e <- p_exists p ;
  if e then let! xs <- p_xattrs p ;
            let! m <- lift (from_xattrs (c_legacy K) xs (c_prefix K)) ; ret (Some m)
  else ret None.
(** SymlinkCache.meta, caches.py:1143-1173 *)
Definition symlink_meta (p : ppath) : M pathmeta :=
  let! l <- p_is_symlink p ;
  if l then let! e <- p_exists p ;
            if e then raise PathExistsErr
            else let! raw <- sys_readlink p ;
                 lift (from_symlink (pp_name p) raw false false)
  else raise NoCachedMetadataError.
(** PrimaryCache.meta, caches.py:1281-1312 *)
Definition cache_meta (p : ppath) : M (option pathmeta) :=
  let! e <- p_exists p ;
  if e then let! m <- eat_meta p ;
            if meta_true m then ret m else ret None
  else let! l <- p_is_symlink p ;
       if l then catch (let! m <- symlink_meta p ; ret (Some m))
                       (fun e => match e with NoCachedMetadataError => ret None | _ => raise e end)
       else ret None.
(** id, caches.py:743-757, without the id kept for the time of bootstrapping *)
Definition cache_id (p : ppath) : M pyval :=
  let! m <- cache_meta p ;
  match m with Some x => if meta_bool x then ret (m_id x) else ret PNone | None => ret PNone end.

(** ** The trash *)

(** _trashed_path, caches.py:138-146.  [fs_safe_id] of something that is not text
    is an AttributeError. *)
Definition trashed_path (p : ppath) : M ppath :=
  let! i <- cache_id p ;
  match i with
  | PStr s => ret (pp_join (c_trash K) (pp_parse (fs_safe_id s)))
  | _ => raise AttributeError
  end.
(** _trashed_path_short, caches.py:148-150 *)
Definition trashed_path_short (p : ppath) : ppath := pp_join (c_trash K) (pp_parse (pp_name p)).
(** crumple, caches.py:152-169 *)
Definition crumple (p : ppath) : M ppath :=
  let! trashed <- trashed_path p ;
  let tp := pp_parent trashed in
  let! e <- p_exists tp ;
  let! _ <- when (negb e) (mkdir_parents (length (pp_parts tp)) false tp) ;
  let! _ <- catch (sys_rename p trashed)
              (fun e => match e with
                        | OSErr ENAMETOOLONG => sys_rename p (trashed_path_short p)   (* 163-165 *)
                        | _ => raise e
                        end) ;
  ret trashed.

(** ** Where metadata is written *)

(** EatCache._meta_setter, caches.py:1084-1107.  Without a file it ends in
    _CachePath._meta_setter with [memory_only=False], 767-771. *)
Definition eat_set (p : ppath) (m : pathmeta) : M unit :=
  let! e <- p_exists p ;
  if e then let! l <- p_is_symlink p ;
            if l then raise TypeError
            else let! xs <- lift (as_xattrs (c_dateparse K) m (c_prefix K)) ;
                 p_setxattrs p xs
  else raise TypeError.

(** What SymlinkCache's setter does with the link that is there, caches.py:1188-1242:
    [true] is going on to replace it, [false] is returning. *)
Definition may_replace (meta pathmeta : pathmeta) : res bool :=
  do same <- meta_eq meta pathmeta ;                                     (* 1190-1192 *)
  if same then Ok false else
  do go <- (if negb (py_eq (m_id meta) (m_id pathmeta)) then             (* 1194 *)
              do u <- get_updated (c_dateparse K) meta ;
              do v <- get_updated (c_dateparse K) pathmeta ;
              if (is_none u && is_none v)%bool then Ok false             (* 1204-1206 *)
              else do gt <- py_lt v u ;
                   if gt then Ok false                                   (* 1208-1210 *)
                   else do lt <- py_lt u v ;
                        if lt then Ok true                               (* 1211-1213 *)
                        else do c <- get_created (c_dateparse K) meta ;
                             do d <- get_created (c_dateparse K) pathmeta ;
                             match is_none c, is_none d with
                             | false, false =>                           (* 1216-1225 *)
                                 do cgt <- py_lt d c ;
                                 if cgt then Ok false
                                 else py_lt c d
                             | false, true => Ok false                   (* 1226-1228 *)
                             | true, false => Err MetadataIdMismatchError (* 1229-1232 *)
                             | true, true => Ok false                    (* 1233-1236 *)
                             end
            else Ok true) ;
  if go then Ok (negb (negb (is_none (m_size meta)) && is_none (m_size pathmeta)))%bool  (* 1240-1242 *)
  else Ok false.

(** SymlinkCache.meta setter, caches.py:1184-1274 *)
Definition symlink_set (p : ppath) (m : pathmeta) : M unit :=
  let! e <- p_exists p ;
  if e then raise PathExistsErr                                          (* 1273-1274 *)
  else
    let! l <- p_is_symlink p ;
    let! go <- (if l then let! old <- symlink_meta p ;
                          let! go <- lift (may_replace old m) ;
                          if go then
                            let! _ <- catch (let! _ <- crumple p ; ret tt)
                              (fun e => match e with
                                        | OSErr EEXIST => sys_unlink p   (* 1256-1259 *)
                                        | _ => raise e
                                        end) ;
                            ret true
                          else ret false
                else ret true) ;
    if go then let! t <- lift (as_symlink (c_dateparse K) m (Some (pp_name p))) ;   (* 1270 *)
               sys_symlink (pp_str t) p                                  (* 1271 *)
    else ret tt.

(** _bootstrap_prepare_filesystem, caches.py:535-570, for [parents=False,
    fetch_data=False, sparse=False] *)
Definition prepare (p : ppath) : M unit :=
  let! d <- ask (fun _ _ => Ok (r_is_dir (c_remote K))) ;
  if d then let! e <- p_exists p ; when (negb e) (sys_mkdir p)
  else let! f <- ask (fun _ _ => Ok (r_is_file (c_remote K))) ;
       if f then let! e <- p_exists (pp_parent p) ; when (negb e) (sys_mkdir (pp_parent p))
       else raise RuntimeErr.                                            (* BaseException, 570 *)

(** PrimaryCache._meta_setter, caches.py:1314-1345 *)
Definition cache_set (p : ppath) (m : option pathmeta) : M unit :=
  match m with
  | Some x =>
      if meta_bool x then
        let! e <- p_exists_not_symlink p ;
        if e then eat_set p x
        else let! _ <- prepare p ;
             let! e <- p_exists p ;
             if e then eat_set p x else symlink_set p x
      else ret tt                                                        (* 1316-1318 *)
  | None => ret tt
  end.

(** ** Checksums *)

(** _instance_cypher, caches.py:586-596.  A class without metadata is an
    AttributeError. *)
Definition instance_cypher (p : ppath) : M str :=
  let! m <- cache_meta p ;
  match m with
  | None => raise AttributeError
  | Some x => match m_checksum_cypher x with
              | PNone => ret (c_cypher K)
              | PStr s => if c_known K s then ret s else raise NotImplementedExn
              | _ => raise NotImplementedExn
              end
  end.
(** Which algorithm checksum() uses when asked for one, core.py:802-812: the default
    one is taken for "not said" *)
Definition used_cypher (cy : str) : str := if str_eqb cy default_cypher then c_cypher K else cy.
(** checksum, core.py:796-823; what is not a file has none *)
Definition local_checksum (p : ppath) (cy : str) : M pyval :=
  let! f <- p_is_file p ;
  if f then let! d <- read_all p ; ret (PBytes (c_digest K (used_cypher cy) d)) else ret PNone.
(** [local.meta.checksum], core.py:1226-1300, of a file that exists *)
Definition local_meta_checksum (p : ppath) : M pyval :=
  let! _ <- p_exists p ;
  let! _ <- sys_stat true p ;
  local_checksum p (c_cypher K).
(** checksum of the cache, caches.py:1480: that of the data of the remote *)
Definition cache_checksum (p : ppath) : M pyval :=
  let! f <- p_is_file p ;
  if f then let! d <- gather (remote_feed (r_chunks (c_remote K)) (r_break (c_remote K))) ;
            ret (PBytes (c_digest K (c_cypher K) d))
  else ret PNone.
(** LocalPath.content_different, core.py:1475-1484, of a file.  The checksum of the
    file is not empty, so only meta.py:119-120 is reached. *)
Definition p_content_different (p : ppath) : M bool :=
  let! m <- cache_meta p ;
  match m with
  | None => raise AttributeError
  | Some cmeta =>
      if truthy (m_checksum cmeta)
      then let! c <- local_meta_checksum p ; ret (negb (py_eq c (m_checksum cmeta)))
      else let! a <- local_checksum p default_cypher ;
           let! b <- cache_checksum p ;
           ret (negb (py_eq a b))
  end.

(** ** Getting the data *)

(** The setter of [data] for a path with a cache, core.py:1376-1402.  [cache.meta]
    has no setter (1396). *)
Definition cache_set_data (p : ppath) (g : feed) : M unit :=
  let! _ <- cache_meta p ;
  let! _ <- write_chunks p g ;
  let! m <- cache_meta p ;
  if meta_true m then
    let! m <- cache_meta p ;
    if meta_true m then
      let! m <- cache_meta p ;
      if meta_true m then ret tt else raise AssertionError
    else raise AssertionError
  else raise AttributeError.

Definition mismatch : str := $"checksum-mismatch".
(** caches.py:925-927 *)
Definition with_mismatch (m : pathmeta) : res pathmeta :=
  do l <- items (c_dateparse K) m ;
  meta_init (set_arg Ferrors (PStrs (m_errors m ++ [mismatch])) (item_args l)).

(** [meta.size.mb] against a limit; the quotient is rounded to a double. *)
Definition mb : N := 1048576.
Definition size_below (v : pyval) (limit : N) : bool :=
  match v with PSize z | PInt z => Z.ltb (if Z.ltb z 0 then z else Z.of_N (to_double (Z.to_N z))) (Z.of_N (limit * mb))
  | _ => false end.

(** fetch, caches.py:867-930; [limit] in megabytes *)
Definition fetch (p : ppath) (limit : option N) : M unit :=
  let! m <- cache_meta p ;
  let! d <- p_is_dir p ;
  if d then raise NotImplementedExn                                      (* 870-872 *)
  else match m with
  | None => raise NoCachedMetadataError                                  (* 873-884 *)
  | Some meta =>
    if is_none (m_file_id meta) then c_refresh K p                       (* 885-888 *)
    else if match limit with None => true | Some l => size_below (m_size meta) l end then   (* 890-893 *)
      let! b <- p_is_broken_symlink p ;
      let! _ <- when b (let! _ <- sys_unlink p ;                         (* 894-898 *)
                        let! _ <- p_touch p ;
                        cache_set p (Some meta)) ;
      let! _ <- p_exists (c_object K) ;                                  (* 904 *)
      let! _ <- cache_set_data p (remote_feed (r_chunks (c_remote K)) (r_break (c_remote K))) ;
      let! st <- sys_stat true p ;                                       (* 906 *)
      let size := match st with File d _ => Z.of_nat (length d) | _ => 0%Z end in
      if negb (py_eq (PInt size) (m_size meta)) then raise ValueError
      else if existsb (str_eqb mismatch) (m_errors meta) then ret tt     (* 912-915 *)
      else
        let! cy <- instance_cypher p ;
        let! lc <- local_checksum p cy ;
        if (negb (is_none (m_checksum meta)) && negb (py_eq lc (m_checksum meta)))%bool then  (* 918 *)
          let! nm <- lift (with_mismatch meta) ;
          cache_set p (Some nm)
        else ret tt
    else ret tt
  end.

(** ** Updating metadata *)

(** PrimaryCache._meta_updater, caches.py:1401-1432 *)
Definition meta_updater (p : ppath) (pathmeta : option pathmeta) (fetch_ : bool) : M bool :=
  let! original <- cache_meta p ;
  let! r <- lift (update_meta (c_dateparse K) original pathmeta) ;
  let (different, updated) := r in
  let! must <- (if different then let! f <- p_is_file p ;
                                  if f then let! e <- p_exists p ; ret (e && fetch_)%bool else ret false
                else ret false) ;
  let! trashed <- (if must then
      let! _ <- catch
        (let! cd <- p_content_different p ;
         if cd then let! c <- local_meta_checksum p ;
                    match pathmeta with
                    | None => raise AttributeError
                    | Some pm => if py_eq c (m_checksum pm) then ret tt else raise LocalChangesError
                    end
         else ret tt)
        (fun e => match e with NoRemoteFileErr => ret tt | _ => raise e end) ;
      let! t <- crumple p ; ret (Some t)
    else ret None) ;
  let! _ <- catch
    (let! _ <- cache_set p updated ;
     when must (fetch p None))
    (fun e => let! _ <- match trashed with Some t => sys_rename t p | None => ret tt end ;
              raise e) ;
  ret different.

(** ** Moving *)

(** move, caches.py:932-1019, with a target of the same class whose directory
    exists.  [has_remote]: whether a remote was given. *)
Definition move (self target : ppath) (has_remote : bool) : M ppath :=
  if pp_eqb self target then ret target                                  (* 946-948 *)
  else
    let! e <- p_exists target ;
    let! there <- (if e then ret true else p_is_broken_symlink target) ;
    let! _ <- when there
      (let! a <- cache_id target ;
       let! b <- cache_id self ;
       if py_eq a b then
         let! l <- p_is_broken_symlink self ;
         when l (let! m <- cache_meta self ; let! _ <- meta_updater target m true ; ret tt)
       else
         let! l <- p_is_broken_symlink target ;
         if l then raise (if has_remote then WhyDidntThisGetMovedErr else AttributeError)  (* 991-993 *)
         else raise PathExistsErr) ;                                     (* 994-995 *)
    let! e <- p_exists self ;
    if e then
      let safe_unlink := child (pp_parent target) ($".unlink-" ++ pp_name target) in
      let! _ <- finally
        (catch (let! l <- p_is_broken_symlink target ;
                let! _ <- when l (sys_rename target safe_unlink) ;
                sys_rename self target)
               (fun _ => let! l <- p_is_broken_symlink safe_unlink ;
                         when l (sys_rename safe_unlink target)))
        (let! l <- p_is_broken_symlink safe_unlink ; when l (sys_unlink safe_unlink)) ;
      ret target
    else
      let! l <- p_is_broken_symlink self ;
      let! _ <- when l (sys_unlink self) ;
      ret target.
End Cache.
