(** * Writing and copying files: /repo/augpathlib/core.py:825-850, 1342-1437 *)
From Coq Require Import String NArith ZArith Bool List.
From Verif Require Import Model.Py Model.PurePath Model.Fs Model.PathOps.
Import ListNotations.

(** A generator of chunks; it ends after finitely many steps.  [pull] is [next]: the
    end ([None]), a chunk and what is left of the generator, or an exception. *)
Inductive feed : Type := Feed (f : world -> res (option (bytes * feed)) * world).
Definition pull (g : feed) : M (option (bytes * feed)) := match g with Feed f => f end.

(** [open(p, 'rb')] *)
Definition sys_open_read (p : ppath) : M place :=
  ask (fun fs cwd => do r <- lookup true p fs cwd ;
                     match snd r with File _ _ => Ok (fst r) | Dir _ _ => fail EISDIR | Link _ => fail ELOOP end).
(** [f.read(n)] from a position of an open file.  Simplified: there is no buffer, the
    file is read and written when it is asked for. *)
Definition sys_read (q : place) (pos n : nat) : M bytes :=
  ask (fun fs _ => match get fs q with Some (File d _) => Ok (firstn n (skipn pos d)) | _ => fail EIO end).

(** core.py:1345-1350, the file is open.  [fuel] bounds the number of chunks. *)
Fixpoint read_feed (fuel : nat) (chunksize : nat) (q : place) (pos : nat) : feed :=
  Feed (match fuel with
        | O => raise OutOfFuel
        | S f => let! d <- sys_read q pos chunksize ;
                 match d with
                 | [] => ret None                                        (* 1347-1348 *)
                 | _ => ret (Some (d, read_feed f chunksize q (pos + length d)))
                 end
        end).
(** LocalPath.data, core.py:1342-1350: the file is opened when the first chunk is
    asked for.  [chunksize] is positive (974). *)
Definition data_feed (fuel : nat) (chunksize : nat) (p : ppath) : feed :=
  Feed (let! q <- sys_open_read p ; pull (read_feed fuel chunksize q 0)).

(** [for chunk in generator: f.write(chunk)] *)
Fixpoint drain (q : place) (g : feed) : M unit :=
  match g with
  | Feed f => fun w =>
      match f w with
      | (Err e, w1) => (Err e, w1)
      | (Ok None, w1) => (Ok tt, w1)
      | (Ok (Some (c, g')), w1) =>
          match sys_append q c w1 with
          | (Err e, w2) => (Err e, w2)
          | (Ok _, w2) => drain q g' w2
          end
      end
  end.

(** _write_chunks_posix, core.py:1364-1371 *)
Definition write_chunks (p : ppath) (g : feed) : M unit :=
  let! first <- pull g ;
  match first with
  | None => raise StopIteration                                          (* 1365 *)
  | Some (c, g') =>
      let! q <- sys_create p ;
      let! _ <- sys_append q c ;
      drain q g'
  end.

(** The setter of [data], core.py:1376-1402, for a path without a cache *)
Definition set_data (p : ppath) (g : feed) : M unit := write_chunks p g.

(** LocalPath.copy_to, core.py:1418-1430, for paths without caches *)
Definition p_copy_to (fuel chunksize : nat) (self target : ppath) (force : bool) : M unit :=
  let! e <- p_exists target ;
  let! go <- (if e then ret force
              else let! l <- p_is_symlink target ; ret (if l then force else true)) ;
  if go then set_data target (data_feed fuel chunksize self) else raise PathExistsErr.

(** copy_outto, core.py:841-850 *)
Definition p_copy_outto (fuel chunksize : nat) (self target : ppath) (force : bool) : M ppath :=
  let! d <- p_is_dir target ;
  if negb d then raise (OSErr ENOTDIR)
  else let target_file := child target (pp_name self) in
       let! _ <- p_copy_to fuel chunksize self target_file force ;
       ret target_file.
