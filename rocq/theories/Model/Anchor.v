(** * Anchors: where the local tree of a remote is *)
From Coq Require Import String NArith Bool List.
From Verif Require Import Model.Py Model.PurePath Model.Meta Model.MetaUpdate Model.Fs Model.PathOps Model.Listing Model.Cache Model.DataDir.
Import ListNotations.

(** The exceptions of exceptions.py that are caught in remotes.py:142-160, and others. *)
Inductive aexn : Type := AE (e : exn) | CacheExists | NotEmpty | AlreadyAnchored.
Inductive ares (A : Type) : Type := AOk (a : A) | AErr (e : aexn).
Arguments AOk {A}. Arguments AErr {A}.

(** What the classes remember: [_cache_anchor] and [root] of the remote class (the api
    is bound together with it, remotes.py:67-75), [_remote_root] of it, [_anchor] of the
    cache class. *)
Record classes : Type := mkClasses {
  k_remote : option ppath; k_root : option pyval; k_remote_root : option pyval; k_cache : option ppath }.

Definition act (A : Type) : Type := classes -> world -> ares A * (classes * world).
Definition aret {A} (a : A) : act A := fun k w => (AOk a, (k, w)).
Definition araise {A} (e : aexn) : act A := fun k w => (AErr e, (k, w)).
Definition abind {A B} (m : act A) (f : A -> act B) : act B :=
  fun k w => match m k w with
             | (AOk a, (k1, w1)) => f a k1 w1
             | (AErr e, kw) => (AErr e, kw)
             end.
Definition acatch {A} (m : act A) (h : aexn -> act A) : act A :=
  fun k w => match m k w with
             | (AOk a, kw) => (AOk a, kw)
             | (AErr e, (k1, w1)) => h e k1 w1
             end.
(** a step on the file system *)
Definition onfs {A} (m : M A) : act A :=
  fun k w => match m w with (Ok a, w1) => (AOk a, (k, w1)) | (Err e, w1) => (AErr (AE e), (k, w1)) end.
Definition now : act classes := fun k w => (AOk k, (k, w)).
Definition become (k : classes) : act unit := fun _ w => (AOk tt, (k, w)).

Notation "'let*' x <- a ; b" := (abind a (fun x => b)) (at level 200, x pattern, a at level 100, b at level 200, right associativity).

Definition with_remote (p : option ppath) (k : classes) : classes := mkClasses p (k_root k) (k_remote_root k) (k_cache k).
Definition with_cache (p : option ppath) (k : classes) : classes := mkClasses (k_remote k) (k_root k) (k_remote_root k) p.
Definition with_root (r : pyval) (k : classes) : classes := mkClasses (k_remote k) (Some r) (k_remote_root k) (k_cache k).

Section Anchor.
Variable K : conf.
Variable flavoured : bool.                            (* python before 3.12 *)
Variable far : node -> place -> ppath -> res ppath.   (* see DataDir *)
Variable trash : ppath -> option ppath.               (* trash of a cache anchored there *)
Variable api : pyval -> res pyval.                    (* [_api_class(identifier).root] *)
Variable root_name : pyval -> res str.                (* [cls(cls.root).name] *)
Variable root_kind : pyval -> res (option bool).      (* a directory, a file, neither *)

(** anchorToCache, remotes.py:77-95 *)
Definition anchorToCache (c : ppath) (init : bool) : act ppath :=
  let* k <- now ;
  match k_remote k with
  | Some _ => araise (AE ValueError)
  | None =>
      let* _ <- (if init then match k_root k with
                              | None => let* i <- onfs (cache_id K c) ;
                                        let* r <- onfs (lift (api i)) ;
                                        become (with_root r k)
                              | Some _ => aret tt
                              end
                 else aret tt) ;
      let* k1 <- now ;
      let* _ <- match k_root k1 with
                | None => aret tt
                | Some r =>
                    let* i <- onfs (cache_id K c) ;
                    if py_eq r i then aret tt
                    else match k_remote_root k1 with
                         | Some rr => if py_eq rr i then aret tt else araise (AE ValueError)
                         | None => araise (AE ValueError)
                         end
                end ;
      let* _ <- become (with_remote (Some c) k1) ;
      aret c
  end.

(** anchorClassHere, caches.py:75-88.  The test of 82 looks for the anchor in the class
    of the instance, which before python 3.12 is the subclass for the system
    (core.py:344-357), and 83 sets it on the class above: it never finds one. *)
Definition anchorClassHere (c : ppath) : act unit :=
  let* k <- now ;
  let* _ <- (if flavoured then aret tt else match k_cache k with Some _ => araise (AE ValueError) | None => aret tt end) ;
  let* _ <- become (with_cache (Some c) k) ;
  let* _ <- onfs (local_data_dir_init far c (trash c) true None) ;
  let* _ <- anchorToCache c true ;
  aret tt.

(** cache_init with an id, core.py:1042-1062; the cache is made by CachePath.__init__,
    caches.py:1033-1046 *)
Definition cache_init (p : ppath) (id : pyval) (anchor : bool) : act ppath :=
  let* m <- onfs (cache_meta K p) ;
  if meta_true m then araise CacheExists
  else
    let* e <- onfs (p_exists p) ;
    if negb e then araise (AE ValueError)
    else
      let* n <- onfs (lift (meta_init (set_arg Fid id no_args))) ;
      let* _ <- (if meta_bool n then let* _ <- onfs (meta_updater K p (Some n) true) ; aret tt
                 else match m with None => araise (AE NoCachedMetadataError) | Some _ => aret tt end) ;
      let* _ <- (if anchor then anchorClassHere p else aret tt) ;
      aret p.

(** _get_local_root_path, remotes.py:125-134 *)
Definition local_root_path (parent : option ppath) : act (pyval * ppath) :=
  let* d <- match parent with Some d => aret d | None => onfs (ask (fun _ cwd => Ok (mkPP true cwd))) end ;
  let* k <- now ;
  match k_root k with
  | None => araise (AE AttributeError)
  | Some r => let* n <- onfs (lift (root_name r)) ; aret (r, child d n)
  end.

(** dropAnchor, remotes.py:162-196 *)
Definition dropAnchor (parent : option ppath) : act ppath :=
  let* k <- now ;
  match k_remote k with
  | Some _ => araise AlreadyAnchored
  | None =>
      let* rp <- local_root_path parent ;
      let (r, path) := rp in
      let* e <- onfs (p_exists path) ;
      let* _ <- (if negb e then
                   let* what <- onfs (lift (root_kind r)) ;
                   match what with
                   | Some true => onfs (sys_mkdir path)
                   | _ => araise (AE NotImplementedExn)
                   end
                 else
                   let* m <- onfs (cache_meta K path) ;
                   let* cs <- onfs (p_children (fun _ => match m with Some _ => true | None => false end) (k_cache k) path) ;
                   match cs with [] => aret tt | _ => araise NotEmpty end) ;
      let* c <- cache_init path r true ;
      let* k1 <- now ;
      let* _ <- become (with_remote (Some c) k1) ;
      aret c
  end.

(** smartAnchor, remotes.py:136-160 *)
Definition smartAnchor (parent : option ppath) : act ppath :=
  let cached (path : ppath) : act bool := let* m <- onfs (cache_meta K path) ; aret (match m with Some _ => true | None => false end) in
  acatch (dropAnchor parent)
    (fun e => match e with
     | AlreadyAnchored =>
         let* rp <- local_root_path parent ;
         let* h <- cached (snd rp) ;
         let* k <- now ;
         match k_remote k with
         | Some a => if (h && pp_eqb a (snd rp))%bool then aret a else araise e
         | None => araise (AE AttributeError)
         end
     | CacheExists | NotEmpty =>        (* 151 does not ask: there was a cache just before *)
         let* rp <- local_root_path parent ;
         let* h <- cached (snd rp) ;
         if h then let* k <- now ; let* _ <- become (with_remote (Some (snd rp)) k) ; aret (snd rp)
         else araise e
     | AE _ => araise e
     end).

(** anchorTo a local path, remotes.py:97-123; the root is an id, so that the message of
    115-116 is never made *)
Definition anchorTo (path : ppath) (create : bool) : act ppath :=
  let* m <- onfs (cache_meta K path) ;
  match m with
  | Some _ => anchorToCache path true
  | None =>
      let* k <- now ;
      match k_root k with
      | None => araise (AE AttributeError)
      | Some r =>
          let* n <- onfs (lift (root_name r)) ;
          if str_eqb (pp_name path) n
          then if create then dropAnchor (Some (pp_parent path)) else araise (AE ValueError)
          else araise (AE AttributeError)
      end
  end.

(** weighAnchor of the remote class, remotes.py:198-213, and of the cache class,
    caches.py:65-73 *)
Definition weighRemote : act unit := let* k <- now ; become (with_remote None k).
Definition weighCache : act unit := let* k <- now ; become (with_cache None k).

(** The calls *)
Inductive call : Type :=
| Drop (parent : option ppath)
| Smart (parent : option ppath)
| ToCache (c : ppath) (init : bool)
| To (path : ppath) (create : bool)
| Here (c : ppath)
| Init (p : ppath) (id : pyval) (anchor : bool)
| WeighRemote
| WeighCache.
Definition nothing {A} (m : act A) : act (option ppath) := let* _ <- m ; aret None.
Definition perform (c : call) : act (option ppath) :=
  match c with
  | Drop d => let* p <- dropAnchor d ; aret (Some p)
  | Smart d => let* p <- smartAnchor d ; aret (Some p)
  | ToCache c i => let* p <- anchorToCache c i ; aret (Some p)
  | To p c => let* p <- anchorTo p c ; aret (Some p)
  | Here c => nothing (anchorClassHere c)
  | Init p i a => nothing (cache_init p i a)
  | WeighRemote => nothing weighRemote
  | WeighCache => nothing weighCache
  end.
End Anchor.
