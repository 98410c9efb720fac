(** * A POSIX file system and the system calls augpathlib makes

    None of this is augpathlib code: it is the trusted account of the operating
    system (Linux) on which the models of augpathlib's file operations run.
    Simplifications: no hard links, devices, permissions, times or special files;
    file names and paths are text (the file system encoding is not modelled); a
    call that fails has no effect.  Failures that need those features (EACCES,
    EXDEV, EIO, ...) can be produced by the schedule [w_fault] at every call. *)
From Coq Require Import String NArith ZArith Bool List.
From Verif Require Import Model.Py Model.PurePath.
Import ListNotations.

Definition xattrs := list (str * bytes).

(** The order of [ents] is the order in which a directory is listed. *)
Inductive node : Type :=
| File (data : bytes) (xs : xattrs)
| Dir (xs : xattrs) (ents : list (str * node))
| Link (target : str).

(** A place: the names on the way down from the root, no links on the way. *)
Definition place := list str.

Definition entry (x : str) (es : list (str * node)) : option node :=
  match find (fun e => str_eqb (fst e) x) es with Some (_, n) => Some n | None => None end.

Fixpoint get (n : node) (p : place) : option node :=
  match p with
  | [] => Some n
  | x :: r =>
      match n with
      | Dir _ es => match entry x es with Some c => get c r | None => None end
      | _ => None
      end
  end.

(** put an entry in place of the one of that name, or after the others *)
Fixpoint set_entry (x : str) (v : node) (es : list (str * node)) : list (str * node) :=
  match es with
  | [] => [(x, v)]
  | (y, c) :: r => if str_eqb y x then (x, v) :: r else (y, c) :: set_entry x v r
  end.
Definition del_entry (x : str) (es : list (str * node)) : list (str * node) :=
  filter (fun e => negb (str_eqb (fst e) x)) es.

(** put [v] at a place; nothing happens unless its directory exists *)
Fixpoint put (n : node) (p : place) (v : node) : node :=
  match p with
  | [] => v
  | x :: r =>
      match n with
      | Dir xs es =>
          match r with
          | [] => Dir xs (set_entry x v es)
          | _ => match entry x es with
                 | Some c => Dir xs (set_entry x (put c r v) es)
                 | None => n
                 end
          end
      | _ => n
      end
  end.

(** remove what is at a place *)
Fixpoint del (n : node) (p : place) : node :=
  match p with
  | [] => n
  | x :: r =>
      match n with
      | Dir xs es =>
          match r with
          | [] => Dir xs (del_entry x es)
          | _ => match entry x es with
                 | Some c => Dir xs (set_entry x (del c r) es)
                 | None => n
                 end
          end
      | _ => n
      end
  end.

(** ** Path lookup *)

(** Components of a link target; a slash at the end asks for a directory. *)
Definition kcomps (s : str) : list str :=
  filter (fun c => negb (str_eqb c [])) (split (chr "/") s)
  ++ (if match rev s with c :: _ => N.eqb c (chr "/") | [] => false end then [$"."] else []).

Inductive found : Type :=
| Found (p : place) (n : node)
| Missing (dir : place) (name : str)      (* only the last component is not there *)
| Fail (e : errno).

(** path_resolution(7): [cur] is the directory reached, [budget] the number of
    links that may still be followed, [follow] whether a link at the very end is. *)
Fixpoint walk_from (root : node) (follow : bool) (budget : nat) : place -> list str -> found :=
  fix go (cur : place) (comps : list str) {struct comps} : found :=
    match get root cur with
    | None => Fail ENOENT
    | Some n =>
        match comps with
        | [] => Found cur n
        | c :: rest =>
            match n with
            | Dir _ es =>
                if str_eqb c $"." then go cur rest
                else if str_eqb c $".." then go (removelast cur) rest
                else match entry c es with
                     | None => match rest with [] => Missing cur c | _ => Fail ENOENT end
                     | Some (Link t) =>
                         if (match rest with [] => negb follow | _ => false end)
                         then Found (cur ++ [c]) (Link t)
                         else match budget with
                              | O => Fail ELOOP
                              | S b =>
                                  match t with
                                  | [] => Fail ENOENT
                                  | _ => walk_from root follow b
                                           (if startswith t $"/" then [] else cur) (kcomps t ++ rest)
                                  end
                              end
                     | Some _ => go (cur ++ [c]) rest
                     end
            | _ => Fail ENOTDIR
            end
        end
    end.

(** Linux follows up to 40 links. *)
Definition max_links : nat := 40.
Definition walk (root : node) (cwd : place) (follow : bool) (p : ppath) : found :=
  walk_from root follow max_links (if pp_abs p then [] else cwd) (pp_parts p).

(** ** Running: file system, current directory, history, faults *)
Record world : Type := mkWorld {
  w_fs : node;
  w_cwd : place;
  w_hist : list node;             (* every state of the file system so far, the newest first *)
  w_tick : nat;                   (* number of system calls made *)
  w_fault : nat -> option exn     (* calls that fail, and how *)
}.

Definition M (A : Type) : Type := world -> res A * world.
Definition ret {A} (a : A) : M A := fun w => (Ok a, w).
Definition raise {A} (e : exn) : M A := fun w => (Err e, w).
Definition bind {A B} (m : M A) (f : A -> M B) : M B :=
  fun w => match m w with
           | (Ok a, w') => f a w'
           | (Err e, w') => (Err e, w')
           end.
Notation "'let!' x <- a ; b" := (bind a (fun x => b))
  (at level 200, x pattern, a at level 100, b at level 200).
(** [try: m except BaseException as e: h e] *)
Definition catch {A} (m : M A) (h : exn -> M A) : M A :=
  fun w => match m w with
           | (Ok a, w') => (Ok a, w')
           | (Err e, w') => h e w'
           end.
(** [for x in l: f x] *)
Fixpoint each {A} (f : A -> M unit) (l : list A) : M unit :=
  match l with
  | [] => ret tt
  | x :: r => let! _ <- f x ; each f r
  end.
Definition when (b : bool) (m : M unit) : M unit := if b then m else ret tt.
Definition lift {A} (x : res A) : M A := fun w => (x, w).

(** A system call: fails as scheduled, or does [f]. *)
Definition sys {A} (f : node -> place -> res (A * node)) : M A :=
  fun w =>
    let w1 := mkWorld (w_fs w) (w_cwd w) (w_hist w) (S (w_tick w)) (w_fault w) in
    match w_fault w (w_tick w) with
    | Some e => (Err e, w1)
    | None =>
        match f (w_fs w) (w_cwd w) with
        | Err e => (Err e, w1)
        | Ok (a, fs) => (Ok a, mkWorld fs (w_cwd w) (fs :: w_hist w) (S (w_tick w)) (w_fault w))
        end
    end.
(** one that does not change the file system *)
Definition ask {A} (f : node -> place -> res A) : M A :=
  fun w =>
    let w1 := mkWorld (w_fs w) (w_cwd w) (w_hist w) (S (w_tick w)) (w_fault w) in
    match w_fault w (w_tick w) with
    | Some e => (Err e, w1)
    | None => (f (w_fs w) (w_cwd w), w1)
    end.

Definition fail {A} (e : errno) : res A := Err (OSErr e).

(** The thing a path leads to. *)
Definition lookup (follow : bool) (p : ppath) (fs : node) (cwd : place) : res (place * node) :=
  match walk fs cwd follow p with
  | Found q n => Ok (q, n)
  | Missing _ _ => fail ENOENT
  | Fail e => fail e
  end.

(** stat(2), lstat(2) *)
Definition sys_stat (follow : bool) (p : ppath) : M node :=
  ask (fun fs cwd => do r <- lookup follow p fs cwd ; Ok (snd r)).

(** readlink(2) *)
Definition sys_readlink (p : ppath) : M str :=
  ask (fun fs cwd => do r <- lookup false p fs cwd ;
                     match snd r with Link t => Ok t | _ => fail EINVAL end).

(** [os.listdir] *)
Definition sys_listdir (p : ppath) : M (list str) :=
  ask (fun fs cwd => do r <- lookup true p fs cwd ;
                     match snd r with Dir _ es => Ok (map fst es) | _ => fail ENOTDIR end).

(** [os.getcwd]: fails when the directory has been removed *)
Definition sys_getcwd : M ppath :=
  ask (fun fs cwd => match get fs cwd with
                     | Some (Dir _ _) => Ok (mkPP true cwd)
                     | _ => fail ENOENT
                     end).

(** unlink(2) *)
Definition sys_unlink (p : ppath) : M unit :=
  sys (fun fs cwd => do r <- lookup false p fs cwd ;
                     match snd r with Dir _ _ => fail EISDIR | _ => Ok (tt, del fs (fst r)) end).

(** rmdir(2); "." and ".." at the end are refused *)
Definition sys_rmdir (p : ppath) : M unit :=
  sys (fun fs cwd =>
    match pp_parts p with
    | [] => if pp_abs p then fail EBUSY else fail EINVAL
    | l => if str_eqb (last l []) $".." then fail ENOTEMPTY else
        do r <- lookup false p fs cwd ;
        match snd r with
        | Dir _ [] => match fst r with [] => fail EBUSY | _ => Ok (tt, del fs (fst r)) end
        | Dir _ _ => fail ENOTEMPTY
        | _ => fail ENOTDIR
        end
    end).

(** mkdir(2) *)
Definition sys_mkdir (p : ppath) : M unit :=
  sys (fun fs cwd => match walk fs cwd false p with
                     | Found _ _ => fail EEXIST
                     | Missing d x => Ok (tt, put fs (d ++ [x]) (Dir [] []))
                     | Fail e => fail e
                     end).

(** symlink(2) *)
Definition sys_symlink (target : str) (p : ppath) : M unit :=
  sys (fun fs cwd => match target with
                     | [] => fail ENOENT
                     | _ => match walk fs cwd false p with
                            | Found _ _ => fail EEXIST
                            | Missing d x => Ok (tt, put fs (d ++ [x]) (Link target))
                            | Fail e => fail e
                            end
                     end).

Definition is_prefix (a b : place) : bool := prefixb str_eqb a b.

(** "." (the root too) or ".." at the end *)
Definition dot_end (p : ppath) : bool :=
  match pp_parts p with [] => true | l => str_eqb (last l []) $".." end.

(** rename(2) *)
Definition sys_rename (a b : ppath) : M unit :=
  sys (fun fs cwd =>
    if (dot_end a || dot_end b)%bool then fail EBUSY else
    do r <- lookup false a fs cwd ;
    let (pa, na) := r in
    match pa with [] => fail EBUSY | _ =>
    match walk fs cwd false b with
    | Fail e => fail e
    | Missing d x =>
        if is_prefix pa (d ++ [x]) then fail EINVAL
        else Ok (tt, put (del fs pa) (d ++ [x]) na)
    | Found pb nb =>
        if list_eqb str_eqb pa pb then Ok (tt, fs)
        else match na, nb with
             | Dir _ _, Dir _ es =>
                 if is_prefix pa pb then fail EINVAL
                 else match es with
                      | [] => match pb with [] => fail EBUSY | _ => Ok (tt, put (del fs pa) pb na) end
                      | _ => fail ENOTEMPTY
                      end
             | Dir _ _, _ => fail ENOTDIR
             | _, Dir _ _ => fail EISDIR
             | _, _ => Ok (tt, put (del fs pa) pb na)
             end
    end end).

(** [open(p, 'wb')]: a new empty file, or the file a path leads to emptied *)
Definition sys_create (p : ppath) : M place :=
  sys (fun fs cwd => match walk fs cwd true p with
                     | Found q (File _ xs) => Ok (q, put fs q (File [] xs))
                     | Found _ (Dir _ _) => fail EISDIR
                     | Found _ (Link _) => fail ELOOP
                     | Missing d x => Ok (d ++ [x], put fs (d ++ [x]) (File [] []))
                     | Fail e => fail e
                     end).

(** write(2) at the end of an open file *)
Definition sys_append (q : place) (b : bytes) : M unit :=
  sys (fun fs _ => match get fs q with
                   | Some (File d xs) => Ok (tt, put fs q (File (d ++ b) xs))
                   | _ => fail EIO
                   end).

(** chdir(2) *)
Definition sys_chdir (p : ppath) : M unit :=
  fun w => match ask (fun fs cwd => do r <- lookup true p fs cwd ;
                                    match snd r with Dir _ _ => Ok (fst r) | _ => fail ENOTDIR end) w with
           | (Ok q, w') => (Ok tt, mkWorld (w_fs w') q (w_hist w') (w_tick w') (w_fault w'))
           | (Err e, w') => (Err e, w')
           end.

(** getxattr(2), setxattr(2), removexattr(2), listxattr(2); links cannot have user attributes *)
Definition node_xattrs (n : node) : option xattrs :=
  match n with File _ xs => Some xs | Dir xs _ => Some xs | Link _ => None end.
Definition with_xattrs (n : node) (xs : xattrs) : node :=
  match n with File d _ => File d xs | Dir _ es => Dir xs es | Link t => Link t end.
Definition xget (k : str) (xs : xattrs) : option bytes :=
  match find (fun e => str_eqb (fst e) k) xs with Some (_, v) => Some v | None => None end.
Fixpoint xset (k : str) (v : bytes) (xs : xattrs) : xattrs :=
  match xs with
  | [] => [(k, v)]
  | (k', v') :: r => if str_eqb k' k then (k, v) :: r else (k', v') :: xset k v r
  end.
Definition xdel (k : str) (xs : xattrs) : xattrs := filter (fun e => negb (str_eqb (fst e) k)) xs.

Definition sys_getxattr (p : ppath) (k : str) : M bytes :=
  ask (fun fs cwd => do r <- lookup true p fs cwd ;
    match node_xattrs (snd r) with
    | Some xs => match xget k xs with Some v => Ok v | None => fail ENODATA end
    | None => fail EPERM
    end).
Definition sys_setxattr (p : ppath) (k : str) (v : bytes) : M unit :=
  sys (fun fs cwd => do r <- lookup true p fs cwd ;
    match node_xattrs (snd r) with
    | Some xs => Ok (tt, put fs (fst r) (with_xattrs (snd r) (xset k v xs)))
    | None => fail EPERM
    end).
Definition sys_removexattr (p : ppath) (k : str) : M unit :=
  sys (fun fs cwd => do r <- lookup true p fs cwd ;
    match node_xattrs (snd r) with
    | Some xs => match xget k xs with
                 | Some _ => Ok (tt, put fs (fst r) (with_xattrs (snd r) (xdel k xs)))
                 | None => fail ENODATA
                 end
    | None => fail EPERM
    end).
Definition sys_listxattr (p : ppath) : M (list str) :=
  ask (fun fs cwd => do r <- lookup true p fs cwd ;
    match node_xattrs (snd r) with Some xs => Ok (map fst xs) | None => fail EPERM end).
