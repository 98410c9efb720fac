(** * Attributes on Windows and on posix: /repo/augpathlib/core.py:139-277, 281-321, 1352-1374

    On Windows the attributes of a file are its named streams.  The file system of
    Windows is not part of the package: what is assumed of it is written here as
    definitions on a [disk].  Names of files and of streams are looked up with the
    table [up] of the volume and keep the letters they were made with; [legal] says
    which names of streams the volume takes; [order] is the order in which streams
    are found.  There are no links.  Lengths of names, times and permissions are not
    modelled. *)
From Coq Require Import String NArith ZArith Bool List.
From Verif Require Import Model.Py Model.PurePath Model.Fs Model.PathOps Model.Sparse Model.MetaXattr Model.Copy Model.Cache.
Import ListNotations.

(** The name of an attribute: text or bytes *)
Inductive key := KText (s : str) | KBytes (b : bytes).
(** The value: bytes, or something else *)
Inductive value := VBytes (b : bytes) | VOther.
(** The calls, with the namespace of core.py:45 and 52 *)
Inductive op :=
| OSet (k : key) (v : value)
| OGet (k : key)
| ODel (k : key) (fail : bool)
| OAll
| OWrite (chunks : list bytes).
Inductive reply := RNone | RBytes (b : bytes) | RAll (l : list (bytes * bytes)).

Definition bytes_key_eqb (k : bytes) (e : bytes * bytes) : bool := bytes_eqb (fst e) k.
(** [d[k] = v] for a dict *)
Fixpoint dset (k v : bytes) (d : list (bytes * bytes)) : list (bytes * bytes) :=
  match d with
  | [] => [(k, v)]
  | (k', v') :: r => if bytes_eqb k' k then (k', v) :: r else (k', v') :: dset k v r
  end.
Fixpoint sset (k : str) (v : bytes) (d : list (str * bytes)) : list (str * bytes) :=
  match d with
  | [] => [(k, v)]
  | (k', v') :: r => if str_eqb k' k then (k', v) :: r else (k', v') :: sset k v r
  end.

(** ** posix *)

(** pyxattr takes text as UTF-8; the kernel refuses an empty name *)
Definition px_name (k : key) : res str :=
  match k with
  | KText s => match utf8_enc s with Some b => Ok (key_text b) | None => Err UnicodeError end
  | KBytes b => Ok (key_text b)
  end.
(** XattrHelper, core.py:286-321, and _write_chunks_posix, core.py:1365-1371 *)
Fixpoint list_feed (l : list bytes) : feed :=
  match l with
  | [] => Feed (ret None)
  | c :: r => Feed (ret (Some (c, list_feed r)))
  end.
Definition px_step (p : ppath) (o : op) : M reply :=
  match o with
  | OSet _ VOther => raise TypeError                                                    (* 294-296 *)
  | OSet k (VBytes v) =>
      let! n <- lift (px_name k) ;
      match n with
      | [] => raise (OSErr EINVAL)
      | _ => let! _ <- p_setxattr p n v ; ret RNone
      end
  | OGet k =>
      let! n <- lift (px_name k) ;
      match n with
      | [] => raise AttributeError                                                      (* EINVAL, 311 *)
      | _ => let! v <- p_getxattr p n ; ret (RBytes v)
      end
  | ODel k f =>
      let! n <- lift (px_name k) ;
      match n with
      | [] => raise (OSErr EINVAL)
      | _ => let! _ <- p_delxattr p n f ; ret RNone
      end
  | OAll => let! l <- p_xattrs p ; ret (RAll l)
  | OWrite l => let! _ <- write_chunks p (list_feed l) ; ret RNone
  end.
Fixpoint px_run (p : ppath) (ops : list op) (w : world) : list (res reply) * world :=
  match ops with
  | [] => ([], w)
  | o :: r => let (a, w1) := px_step p o w in let (l, w2) := px_run p r w1 in (a :: l, w2)
  end.

(** ** Windows *)

(** A file with its content, or a directory, and its named streams *)
Record wfile := mkW { w_data : option bytes; w_streams : list (str * bytes) }.
(** What is at each absolute path; the first part of it is a drive, ["C:\"] *)
Definition disk := list (list str * wfile).
(** A path, by its [parts] *)
Record wpath := mkWP { wp_abs : bool; wp_parts : list str }.

Section Volume.
Variable up : N -> N.
Variable legal : str -> bool.
Variable order : list (str * bytes) -> list (str * bytes).

Definition alike (a b : str) : bool := str_eqb (map up a) (map up b).
Definition alike_place : list str -> list str -> bool := list_eqb alike.
Definition find_file (d : disk) (q : list str) : option wfile :=
  match find (fun e => alike_place (fst e) q) d with Some (_, f) => Some f | None => None end.
Fixpoint put_file (q : list str) (f : wfile) (d : disk) : disk :=
  match d with
  | [] => [(q, f)]
  | (q', f') :: r => if alike_place q' q then (q', f) :: r else (q', f') :: put_file q f r
  end.
Definition drop_file (q : list str) (d : disk) : disk := filter (fun e => negb (alike_place (fst e) q)) d.
Definition find_stream (s : str) (l : list (str * bytes)) : option bytes :=
  match find (fun e => alike (fst e) s) l with Some (_, v) => Some v | None => None end.
Fixpoint put_stream (s : str) (v : bytes) (l : list (str * bytes)) : list (str * bytes) :=
  match l with
  | [] => [(s, v)]
  | (s', v') :: r => if alike s' s then (s', v) :: r else (s', v') :: put_stream s v r
  end.
Definition drop_stream (s : str) (l : list (str * bytes)) : list (str * bytes) :=
  filter (fun e => negb (alike (fst e) s)) l.

(** *** The calls of Windows *)

(** [".."] is taken out of a path as text *)
Fixpoint climb (acc l : list str) : list str :=
  match l with
  | [] => rev acc
  | x :: r => if str_eqb x $".." then climb (match acc with [_] => acc | _ :: t => t | [] => [] end) r
              else climb (x :: acc) r
  end.
Definition full (cwd : list str) (p : wpath) : list str :=
  climb [] (if wp_abs p then wp_parts p else cwd ++ wp_parts p).
(** What comes before and after the first [c] *)
Fixpoint cut (c : N) (s : str) : str * option str :=
  match s with
  | [] => ([], None)
  | x :: r => if N.eqb x c then ([], Some r) else let (a, b) := cut c r in (x :: a, b)
  end.
(** The last part of a path: a file, or a stream of it: [name], [name:stream],
    [name:stream:$DATA] *)
Definition stream_of (last : str) : res (str * option str) :=
  match cut (chr ":") last with
  | ([], _) => Err (OSErr EINVAL)
  | (b, None) => Ok (b, None)
  | (b, Some r) =>
      match cut (chr ":") r with
      | ([], None) => Err (OSErr EINVAL)
      | (s, None) => if legal s then Ok (b, Some s) else Err (OSErr EINVAL)
      | (s, Some t) => if alike t $"$DATA"
                       then match s with
                            | [] => Ok (b, None)
                            | _ => if legal s then Ok (b, Some s) else Err (OSErr EINVAL)
                            end
                       else Err (OSErr EINVAL)
      end
  end.
(** The file and the stream that a path names; a colon in a directory is refused *)
Definition aim (cwd : list str) (p : wpath) : res (list str * option str) :=
  let l := full cwd p in
  do r <- stream_of (last l []) ;
  if existsb (has (chr ":")) (tl (removelast l)) then Err (OSErr EINVAL)
  else Ok (removelast l ++ [fst r], snd r).
Definition is_folder (d : disk) (q : list str) : bool :=
  match find_file d q with Some f => match w_data f with None => true | Some _ => false end | None => false end.

(** [open(p, 'wb')] and one write: a stream is replaced; a file loses its streams
    (the comment in core.py:1353-1355); what is missing is made, with its file *)
Definition win_write (cwd : list str) (p : wpath) (v : bytes) (d : disk) : res unit * disk :=
  match aim cwd p with
  | Err e => (Err e, d)
  | Ok (q, s) =>
      match find_file d q with
      | None => if is_folder d (removelast q)
                then (Ok tt, put_file q (match s with Some s => mkW (Some []) [(s, v)] | None => mkW (Some v) [] end) d)
                else (Err (OSErr ENOENT), d)
      | Some f => match s with
                  | Some s => (Ok tt, put_file q (mkW (w_data f) (put_stream s v (w_streams f))) d)
                  | None => match w_data f with
                            | Some _ => (Ok tt, put_file q (mkW (Some v) []) d)
                            | None => (Err (OSErr EACCES), d)
                            end
                  end
      end
  end.
(** [open(p, 'rb')] and a read to the end *)
Definition win_read (cwd : list str) (p : wpath) (d : disk) : res bytes :=
  do qs <- aim cwd p ;
  match find_file d (fst qs) with
  | None => Err (OSErr ENOENT)
  | Some f => match snd qs with
              | Some s => match find_stream s (w_streams f) with Some v => Ok v | None => Err (OSErr ENOENT) end
              | None => match w_data f with Some v => Ok v | None => Err (OSErr EACCES) end
              end
  end.
(** [p.unlink()] *)
Definition win_unlink (cwd : list str) (p : wpath) (d : disk) : res unit * disk :=
  match aim cwd p with
  | Err e => (Err e, d)
  | Ok (q, s) =>
      match find_file d q with
      | None => (Err (OSErr ENOENT), d)
      | Some f => match s with
                  | Some s => match find_stream s (w_streams f) with
                              | Some _ => (Ok tt, put_file q (mkW (w_data f) (drop_stream s (w_streams f))) d)
                              | None => (Err (OSErr ENOENT), d)
                              end
                  | None => match w_data f with Some _ => (Ok tt, drop_file q d) | None => (Err (OSErr EACCES), d) end
                  end
      end
  end.
(** FindFirstStreamW and FindNextStreamW: the names with their types; nothing is
    found when nothing is there *)
Definition win_streams (cwd : list str) (p : wpath) (d : disk) : list str :=
  match find_file d (full cwd p) with
  | None => []
  | Some f => (match w_data f with Some _ => [$"::$DATA"] | None => [] end) ++
              map (fun e => $":" ++ fst e ++ $":$DATA") (order (w_streams f))
  end.

(** *** ADSHelper *)

(** _key_convention, core.py:146-148: text and bytes do not add up *)
Definition key_convention (k : key) (ns : str) : res str :=
  match k with KText s => Ok (ns ++ $"." ++ s) | KBytes _ => Err TypeError end.

(** The parts of a relative path of pathlib, by both separators of Windows *)
Definition win_parts (s : str) : list str :=
  filter (fun x => negb (str_eqb x [] || str_eqb x $".")) (split 92 (replace1 47 92 s)).
(** _stream, core.py:150-160: the unpacking fails for no parts *)
Definition a_stream (self : wpath) (name : str) : res wpath :=
  match rev (wp_parts self) with
  | [] => Err ValueError
  | last :: tr =>
      if (match tr with [] => true | _ => false end && Nat.eqb (length last) 1)%bool then Err ValueError
      else Ok (mkWP (wp_abs self) (rev tr ++ win_parts ($"./" ++ last ++ $":" ++ name)))
  end.
(** _streamname, core.py:162-166: the arguments of [split] are the wrong way round *)
Definition a_streamname (self : wpath) : res (option str) :=
  match rev (wp_parts self) with
  | [] => Err ValueError
  | last :: _ => if has (chr ":") last then Err TypeError else Ok None
  end.

(** [s.strip(':')], [sub in s], [s.rsplit(':$', 1)] *)
Fixpoint lcolon (s : str) : str := match s with c :: r => if N.eqb c (chr ":") then lcolon r else s | [] => [] end.
Definition strip_colon (s : str) : str := rev (lcolon (rev (lcolon s))).
Fixpoint within (sub s : str) : bool :=
  (startswith s sub || match s with [] => false | _ :: r => within sub r end)%bool.
Fixpoint rcut (s : str) : option (str * str) :=
  match s with
  | [] => None
  | c :: r => match rcut r with
              | Some (a, b) => Some (c :: a, b)
              | None => if startswith s $":$" then Some ([], skipn 2 s) else None
              end
  end.
(** _streams, core.py:168-205: the unpacking of [rsplit] fails when there is no [":$"] *)
Definition a_streams (cwd : list str) (self : wpath) (d : disk) : res (list wpath) :=
  rmap (fun n => match rcut (strip_colon n) with
                 | Some (cleaned, _) => a_stream self cleaned
                 | None => Err ValueError
                 end)
       (filter (fun n => negb (within $"::$DATA" n)) (win_streams cwd self d)).

(** delxattr, core.py:207-214 *)
Definition a_del (cwd : list str) (self : wpath) (k : key) (f : bool) (ns : str) (d : disk) : res unit * disk :=
  match (do name <- key_convention k ns ; a_stream self name) with
  | Err e => (Err e, d)
  | Ok stream => match win_unlink cwd stream d with
                 | (Err (OSErr ENOENT), d') => (if f then Err NoStreamErr else Ok tt, d')
                 | r => r
                 end
  end.
(** setxattr, core.py:216-232 *)
Definition a_set (cwd : list str) (self : wpath) (k : key) (v : value) (ns : str) (d : disk) : res unit * disk :=
  match v with
  | VOther => (Err TypeError, d)
  | VBytes v =>
      match (do k <- match k with                                                       (* 223-224 *)
                     | KBytes b => match utf8_dec b with Some s => Ok (KText s) | None => Err UnicodeError end
                     | _ => Ok k
                     end ;
             do name <- key_convention k ns ; a_stream self name) with
      | Err e => (Err e, d)
      | Ok stream => win_write cwd stream v d
      end
  end.
(** getxattr, core.py:239-247: [_stream] is called inside the [try] *)
Definition a_get (cwd : list str) (self : wpath) (k : key) (ns : str) (d : disk) : res bytes :=
  do name <- key_convention k ns ;
  match (do stream <- a_stream self name ; win_read cwd stream d) with
  | Err (OSErr ENOENT) => Err NoStreamErr
  | r => r
  end.
(** _xattrs, core.py:249-267 *)
Definition a_all_raw (cwd : list str) (self : wpath) (d : disk) : res (list (str * bytes)) :=
  let self := if wp_abs self then self else mkWP true (full cwd self) in                (* 250-256 *)
  do streams <- a_streams cwd self d ;
  do l <- rmap (fun s => match cut (chr ":") (last (wp_parts s) []) with
                         | (_, None) => Err ValueError                                  (* 260 *)
                         | (_, Some k) => do v <- win_read cwd s d ; Ok (k, v)
                         end) streams ;
  Ok (fold_left (fun out kv => sset (fst kv) (snd kv) out) l []).
(** xattrs, core.py:269-277.  A stream that went away in between is not modelled. *)
Definition a_all (cwd : list str) (self : wpath) (ns : str) (d : disk) : res (list (bytes * bytes)) :=
  do raw <- a_all_raw cwd self d ;
  do l <- rmap (fun kv => match utf8_enc (skipn (length ns + 1) (fst kv)) with
                          | Some k => Ok (k, snd kv)
                          | None => Err UnicodeError
                          end) (filter (fun kv => startswith (fst kv) ns) raw) ;
  Ok (fold_left (fun out kv => dset (fst kv) (snd kv) out) l []).

(** _write_chunks_ntfs, core.py:1352-1362: a file opened to append and cut keeps its streams *)
Definition a_write (cwd : list str) (self : wpath) (chunks : list bytes) (d : disk) : res unit * disk :=
  match chunks with
  | [] => (Err StopIteration, d)
  | _ =>
      match aim cwd self with
      | Err e => (Err e, d)
      | Ok (_, Some _) => (Err NotImplementedExn, d)       (* a path that names a stream: not modelled *)
      | Ok (q, None) =>
          match find_file d q with
          | None => if is_folder d (removelast q) then (Ok tt, put_file q (mkW (Some (concat chunks)) []) d)
                    else (Err (OSErr ENOENT), d)
          | Some f => match w_data f with
                      | Some _ => (Ok tt, put_file q (mkW (Some (concat chunks)) (w_streams f)) d)
                      | None => (Err (OSErr EACCES), d)
                      end
          end
      end
  end.

Definition said (r : res unit * disk) : res reply * disk := ((do _ <- fst r ; Ok RNone), snd r).
Definition a_step (cwd : list str) (self : wpath) (o : op) (d : disk) : res reply * disk :=
  match o with
  | OSet k v => said (a_set cwd self k v $"user" d)
  | OGet k => ((do v <- a_get cwd self k $"user" d ; Ok (RBytes v)), d)
  | ODel k f => said (a_del cwd self k f $"user" d)
  | OAll => ((do l <- a_all cwd self $"user" d ; Ok (RAll l)), d)
  | OWrite l => said (a_write cwd self l d)
  end.
Fixpoint a_run (cwd : list str) (self : wpath) (ops : list op) (d : disk) : list (res reply) * disk :=
  match ops with
  | [] => ([], d)
  | o :: r => let (a, d1) := a_step cwd self o d in let (l, d2) := a_run cwd self r d1 in (a :: l, d2)
  end.
End Volume.
