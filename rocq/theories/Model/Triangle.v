(** * Local paths, caches and remotes as objects: /repo/augpathlib/core.py:1010-1036,
    1042-1062; caches.py:97-124, 230-231, 632-685, 743-757, 1033-1052; remotes.py:233-341, 407-409

    The three classes keep references to each other and to ids.  On disk there is only
    which paths have metadata, and the id in it.  Simplified: metadata without an id,
    paths that lead to the same place by links or [".."], and the branch of 664-668 for
    classes with [_api_class] are not modelled; the working directory stays. *)
From Coq Require Import String NArith Bool List.
From Verif Require Import Model.Py Model.PurePath.
Import ListNotations.

(** A local path and [_cache]; a cache with [_remote], [_cache_parent], [_id] and
    [_bootstrapping_id], and whether it is a CachePath (caches.py:1032) or one of the
    helpers, which are not; a remote with [_id] and [_c_cache].  References are places
    in the lists of the heap. *)
Record lobj := mkL { l_path : ppath; l_cache : option nat }.
Record cobj := mkC { c_path : ppath; c_primary : bool; c_parent : option nat; c_remote : option nat;
                     c_id : option str; c_boot : option str }.
Record robj := mkR { r_id : str; r_cache : option nat }.
Record heap := mkH { h_locals : list lobj; h_caches : list cobj; h_remotes : list robj;
                     h_disk : list str -> option str }.

Fixpoint upd {A} (n : nat) (f : A -> A) (l : list A) : list A :=
  match n, l with
  | O, x :: r => f x :: r
  | S m, x :: r => x :: upd m f r
  | _, [] => []
  end.
Definition with_local (n : nat) (f : lobj -> lobj) (h : heap) : heap :=
  mkH (upd n f (h_locals h)) (h_caches h) (h_remotes h) (h_disk h).
Definition with_cache (n : nat) (f : cobj -> cobj) (h : heap) : heap :=
  mkH (h_locals h) (upd n f (h_caches h)) (h_remotes h) (h_disk h).
Definition with_far (n : nat) (f : robj -> robj) (h : heap) : heap :=
  mkH (h_locals h) (h_caches h) (upd n f (h_remotes h)) (h_disk h).
Definition with_disk (q : list str) (v : option str) (h : heap) : heap :=
  mkH (h_locals h) (h_caches h) (h_remotes h) (fun q' => if list_eqb str_eqb q' q then v else h_disk h q').
Definition new_local (o : lobj) (h : heap) : nat * heap :=
  (length (h_locals h), mkH (h_locals h ++ [o]) (h_caches h) (h_remotes h) (h_disk h)).
Definition new_cache (o : cobj) (h : heap) : nat * heap :=
  (length (h_caches h), mkH (h_locals h) (h_caches h ++ [o]) (h_remotes h) (h_disk h)).
Definition new_far (o : robj) (h : heap) : nat * heap :=
  (length (h_remotes h), mkH (h_locals h) (h_caches h) (h_remotes h ++ [o]) (h_disk h)).

Definition set_l_cache (c : nat) (o : lobj) := mkL (l_path o) (Some c).
Definition set_c_remote (r : nat) (o : cobj) := mkC (c_path o) (c_primary o) (c_parent o) (Some r) (c_id o) (c_boot o).
Definition set_c_id (i : option str) (o : cobj) := mkC (c_path o) (c_primary o) (c_parent o) (c_remote o) i (c_boot o).
Definition set_c_boot (i : option str) (o : cobj) := mkC (c_path o) (c_primary o) (c_parent o) (c_remote o) (c_id o) i.
Definition set_r_cache (c : option nat) (o : robj) := mkR (r_id o) c.

(** What a call gives *)
Inductive answer := ALocal (l : nat) | ACache (c : nat) | ARemote (r : nat) | AText (s : str) | ANone
| ANull.   (* the class NullCache of remotes.py:269-288 *)

Section Triangle.
Variable cwd : list str.
(** The rule for [anchor] gives one (caches.py:126-130 leaves it to the user); there is a
    remote class or a factory for it (caches.py:652-655); the remote class has
    [_cache_anchor] (remotes.py:263) *)
Variables anchored configured rc_anchor : bool.

Definition place (p : ppath) : list str := if pp_abs p then pp_parts p else cwd ++ pp_parts p.

(** cache, core.py:1014-1036, and CachePath.__init__ of a local path, caches.py:1043-1050 *)
Definition local_cache (l : nat) (h : heap) : res answer * heap :=
  match nth_error (h_locals h) l with
  | None => (Err NameError, h)
  | Some o =>
      match l_cache o with
      | Some c => (Ok (ACache c), h)
      | None =>
          match h_disk h (place (l_path o)) with
          | None => (Ok ANone, h)
          | Some _ =>
              let (c, h1) := new_cache (mkC (l_path o) true None None None None) h in
              (Ok (ACache c), with_local l (set_l_cache c) h1)
          end
      end
  end.

(** id, caches.py:743-757 *)
Definition cache_id (c : nat) (o : cobj) (h : heap) : option str * heap :=
  match c_id o with
  | Some i => (Some i, h)
  | None =>
      match h_disk h (place (c_path o)) with
      | Some i => (Some i, with_cache c (set_c_id (Some i)) h)
      | None =>
          match c_boot o with
          | Some i => (Some i, with_cache c (set_c_boot None) h)
          | None => (None, h)
          end
      end
  end.

(** RemotePath.__init__ with a cache, remotes.py:233-256, and caches.py:652-675; without
    an anchor [self.cache] of 254 is not the cache, but caches.py:673 sets it, too *)
Definition make_remote (c : nat) (i : str) (h : heap) : option nat * heap :=
  if configured then
    let (r, h1) := new_far (mkR i (Some c)) h in
    (Some r, with_cache c (set_c_remote r) h1)
  else (None, h).

(** remote, caches.py:632-675.  One unit of fuel for each cache it goes to. *)
Fixpoint cache_remote (fuel : nat) (c : nat) (h : heap) : res (option nat) * heap :=
  match fuel with
  | O => (Err OutOfFuel, h)
  | S f =>
      match nth_error (h_caches h) c with
      | None => (Err NameError, h)
      | Some o =>
          match c_remote o, c_parent o with
          | Some r, _ => (Ok (Some r), h)                                 (* 633-634 *)
          | None, Some p => cache_remote f p h                            (* 636-637 *)
          | None, None =>
              let (i, h1) := cache_id c o h in                            (* 639-641 *)
              match i with
              | None => (Ok None, h1)
              | Some i =>
                  if anchored then let (r, h2) := make_remote c i h1 in (Ok r, h2)
                  else if pp_abs (c_path o)
                       then let (r, h2) := make_remote c i (with_cache c (set_c_boot (Some i)) h1) in (Ok r, h2)
                       else if (c_primary o && match h_disk h1 cwd with None => true | Some _ => false end)%bool
                       then (Err NoCachedMetadataError, h1)               (* [absolute] makes a cache for the working directory *)
                       else                                               (* 646-649 *)
                         let (c', h2) := new_cache (mkC (mkPP true (place (c_path o))) (c_primary o) None None None None) h1 in
                         cache_remote f c' h2
              end
          end
      end
  end.
Definition fuel_for (h : heap) : nat := S (S (length (h_caches h))).
Definition far (r : option nat) : answer := match r with Some r => ARemote r | None => ANone end.
Definition as_far (x : res (option nat) * heap) : res answer * heap := ((do r <- fst x ; Ok (far r)), snd x).

(** local, caches.py:677-685 *)
Definition cache_local (c : nat) (h : heap) : res answer * heap :=
  match nth_error (h_caches h) c with
  | None => (Err NameError, h)
  | Some o =>
      let (l, h1) := new_local (mkL (c_path o) (Some (match c_parent o with Some p => p | None => c end))) h in
      (Ok (ALocal l), h1)
  end.

(** cache of a remote, remotes.py:262-289, 306-313 *)
Definition remote_cache (r : nat) (h : heap) : res answer :=
  match nth_error (h_remotes h) r with
  | None => Err NameError
  | Some o => if rc_anchor then Ok (match r_cache o with Some c => ACache c | None => ANone end) else Ok ANull
  end.

(** What becomes of [_meta_updater] in [_cache_setter], remotes.py:328-341: it is not called;
    it is; it raises *)
Inductive update := NoUpdate | Updates | Raises.

Inductive call :=
| NewLocal (p : ppath) | LCache (l : nat) | LRemote (l : nat) | LInit (l : nat) (i : str) (there : bool)
| CLocal (c : nat) | CRemote (c : nat) | CId (c : nat) | CHelper (c : nat) | CCopy (c : nat)
| CSet (c : nat) (i : str) (there : bool)
| NewRemote (i : str) | RCache (r : nat) | RLocal (r : nat) | RId (r : nat) | RBind (r c : nat) (u : update)
| Outside (q : list str) (v : option str).   (* what others do to the metadata *)

(** PrimaryCache._meta_setter, caches.py:1314-1346: the metadata is on disk then, and the id
    is read again *)
Definition set_meta (c : nat) (o : cobj) (i : str) (there : bool) (h : heap) : heap :=
  let h1 := if there then h
            else match c_remote o with None => with_cache c (set_c_boot (Some i)) h | Some _ => h end in
  with_cache c (set_c_id None) (with_disk (place (c_path o)) (Some i) h1).

Definition step (k : call) (h : heap) : res answer * heap :=
  match k with
  | NewLocal p => let (l, h1) := new_local (mkL p None) h in (Ok (ALocal l), h1)
  | LCache l => local_cache l h
  | LRemote l =>                                                          (* core.py:1010-1012 *)
      match local_cache l h with
      | (Ok (ACache c), h1) => as_far (cache_remote (fuel_for h1) c h1)
      | (Ok _, h1) => (Err AttributeError, h1)
      | (Err e, h1) => (Err e, h1)
      end
  | LInit l i there =>                                                    (* core.py:1042-1062, without [anchor] *)
      match nth_error (h_locals h) l, local_cache l h with
      | Some o, (Ok a, h1) =>
          let q := place (l_path o) in
          match a, h_disk h1 q with
          | ACache _, Some _ => (Err CacheExistsErr, h1)
          | _, _ =>
              if negb there then (Err ValueError, h1)
              else let (c, h2) := new_cache (mkC (l_path o) true None None None None) h1 in
                   (Ok (ACache c), with_disk q (Some i) h2)
          end
      | _, (Err e, h1) => (Err e, h1)
      | None, (_, h1) => (Err NameError, h1)
      end
  | CLocal c => cache_local c h
  | CRemote c => as_far (cache_remote (fuel_for h) c h)
  | CId c => match nth_error (h_caches h) c with
             | None => (Err NameError, h)
             | Some o => let (i, h1) := cache_id c o h in
                         (Ok (match i with Some i => AText i | None => ANone end), h1)
             end
  | CHelper c =>                                                          (* SymlinkCache(cache): 97-124 *)
      match nth_error (h_caches h) c with
      | None => (Err NameError, h)
      | Some o =>
          let (c', h1) := new_cache (mkC (c_path o) false (if c_primary o then Some c else None) None None None) h in
          (Ok (ACache c'), h1)
      end
  | CCopy c =>                                                            (* Cache(cache): 97-124, 1043-1046 *)
      match nth_error (h_caches h) c with
      | None => (Err NameError, h)
      | Some o =>
          match h_disk h (place (c_path o)) with
          | None => (Err NoCachedMetadataError, h)
          | Some _ =>
              let (c', h1) := new_cache (mkC (c_path o) true (if c_primary o then Some c else None) None None None) h in
              (Ok (ACache c'), h1)
          end
      end
  | CSet c i there =>
      match nth_error (h_caches h) c with
      | None => (Err NameError, h)
      | Some o => if c_primary o then (Ok ANone, set_meta c o i there h)
                  else (Err TypeError, h)                                 (* caches.py:774-776 *)
      end
  | NewRemote i => let (r, h1) := new_far (mkR i None) h in (Ok (ARemote r), h1)
  | RCache r => (remote_cache r h, h)
  | RLocal r =>                                                           (* remotes.py:407-409 *)
      match remote_cache r h with
      | Ok (ACache c) => cache_local c h
      | Ok ANull => (Err TypeError, h)                                    (* 270-272 *)
      | Ok _ => (Err AttributeError, h)
      | Err e => (Err e, h)
      end
  | RId r => match nth_error (h_remotes h) r with
             | None => (Err NameError, h)
             | Some o => (Ok (AText (r_id o)), h)
             end
  | RBind r c u =>                                                        (* remotes.py:328-341 *)
      match nth_error (h_remotes h) r, nth_error (h_caches h) c with
      | Some o, Some k =>
          let h1 := with_cache c (set_c_remote r) h in
          if negb (c_primary k) then (Err AugPathlibErr, h1)              (* 319-322 *)
          else
            let h2 := with_far r (set_r_cache (Some c)) h1 in
            match u with
            | NoUpdate => (Ok ANone, h2)
            | Updates => (Ok ANone, with_cache c (set_c_id None) (with_disk (place (c_path k)) (Some (r_id o)) h2))
            | Raises => (Err RemoteFail, with_far r (set_r_cache None) h2)
            end
      | _, _ => (Err NameError, h)
      end
  | Outside q v => (Ok ANone, with_disk q v h)
  end.
Fixpoint run (ks : list call) (h : heap) : list (res answer) * heap :=
  match ks with
  | [] => ([], h)
  | k :: r => let (a, h1) := step k h in let (l, h2) := run r h1 in (a :: l, h2)
  end.
End Triangle.
Definition empty_heap (disk : list str -> option str) : heap := mkH [] [] [] disk.
