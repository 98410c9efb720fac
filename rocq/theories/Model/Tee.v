(** * Writing a file in a chain of generators: /repo/augpathlib/core.py:1404-1416

    Simplified: a write(2) writes all of what it is given or nothing, and closing a
    descriptor does not fail.  A generator is held by the one that pulls from it and by
    nothing else, so that it is closed when that one is done with (CPython). *)
From Coq Require Import String NArith ZArith Bool List.
From Verif Require Import Model.Py Model.PurePath Model.Fs Model.PathOps Model.Copy.
Import ListNotations.

(** A generator of chunks: [next], which gives the end ([None]), a chunk and the generator
    as it is then, or raises and is at its end; and [close]. *)
Inductive gen : Type := Gen (n : world -> res (option (bytes * gen)) * world) (c : world -> res unit * world).
Definition next (g : gen) : M (option (bytes * gen)) := match g with Gen n _ => n end.
Definition close (g : gen) : M unit := match g with Gen _ c => c end.
(** A generator that nothing holds is closed, and what that raises is dropped. *)
Definition forget (g : gen) : M unit := fun w => (Ok tt, snd (close g w)).

(** LocalPath.data, core.py:1342-1350 *)
Fixpoint read_gen (fuel chunksize : nat) (q : place) (pos : nat) : gen :=
  Gen (match fuel with
       | O => raise OutOfFuel
       | S f => let! d <- sys_read q pos chunksize ;
                match d with
                | [] => ret None
                | _ => ret (Some (d, read_gen f chunksize q (pos + length d)))
                end
       end) (ret tt).
Definition data_gen (fuel chunksize : nat) (p : ppath) : gen :=
  Gen (let! q <- sys_open_read p ; next (read_gen fuel chunksize q 0)) (ret tt).

(** open(p, 'ab') *)
Definition sys_open_append (p : ppath) : M place :=
  sys (fun fs cwd => match walk fs cwd true p with
                     | Found q (File _ _) => Ok (q, fs)
                     | Found _ (Dir _ _) => fail EISDIR
                     | Found _ (Link _) => fail ELOOP
                     | Missing d x => Ok (d ++ [x], put fs (d ++ [x]) (File [] []))
                     | Fail e => fail e
                     end).
Definition open_write (append : bool) (p : ppath) : M place := if append then sys_open_append p else sys_create p.

(** The buffer of a file that is open for writing (io.BufferedWriter): what fits is kept,
    else the buffer is written out, and what is greater than the buffer goes past it.
    [flush] is also what [f.close()] does, which is tried once more after a failure. *)
Definition flush (q : place) (buf : bytes) : M unit := match buf with [] => ret tt | _ => sys_append q buf end.
Definition write (size : nat) (q : place) (buf c : bytes) : world -> (res unit * bytes) * world :=
  fun w =>
    if Nat.leb (length buf + length c) size then ((Ok tt, buf ++ c), w)
    else match flush q buf w with
         | (Err e, w1) => ((Err e, buf), w1)
         | (Ok _, w1) =>
             if Nat.leb (length c) size then ((Ok tt, c), w1)
             else match sys_append q c w1 with
                  | (Err e, w2) => ((Err e, []), w2)
                  | (Ok _, w2) => ((Ok tt, []), w2)
                  end
         end.
(** leaving the [with] because of [e] *)
Definition leave {A} (q : place) (buf : bytes) (e : exn) : M A :=
  fun w => match flush q buf w with
           | (Err e', w') => (Err e', w')
           | (Ok _, w') => (Err e, w')
           end.
(** [f.write(c)] and [yield c], 1411-1416; [k] is what comes after *)
Definition pass (size : nat) (q : place) (buf c : bytes) (g : gen) (k : bytes -> gen) : M (option (bytes * gen)) :=
  fun w => match write size q buf c w with
           | ((Ok _, buf'), w1) => (Ok (Some (c, k buf')), w1)
           | ((Err e, buf'), w1) => let '(r, w2) := leave q buf' e w1 in (r, snd (forget g w2))
           end.

(** 1413-1416 with the file open at [q] *)
Fixpoint tee_open (size : nat) (q : place) (buf : bytes) (g : gen) {struct g} : gen :=
  match g with
  | Gen n c =>
      Gen (fun w => match n w with
                    | (Err e, w1) => leave q buf e w1
                    | (Ok None, w1) => match flush q buf w1 with
                                       | (Ok _, w2) => (Ok None, w2)
                                       | (Err e, w2) => (Err e, w2)
                                       end
                    | (Ok (Some (b, g')), w1) => pass size q buf b g' (fun buf' => tee_open size q buf' g') w1
                    end)
          (fun w => match flush q buf w with
                    | (r, w1) => (r, snd (c w1))
                    end)
  end.
(** _data_setter, core.py:1404-1416.  A generator out of which StopIteration comes
    raises RuntimeError (PEP 479). *)
Definition tee (size : nat) (p : ppath) (append : bool) (g : gen) : gen :=
  Gen (fun w => match next g w with
                | (Err e, w1) => (Err e, w1)
                | (Ok None, w1) => (Err RuntimeErr, w1)                  (* 1409 *)
                | (Ok (Some (b, g')), w1) =>
                    match open_write append p w1 with                    (* 1410 *)
                    | (Err e, w2) => (Err e, snd (forget g' w2))
                    | (Ok q, w2) => pass size q [] b g' (fun buf' => tee_open size q buf' g') w2
                    end
                end)
      (forget g).
Definition chain (size : nat) (ps : list (ppath * bool)) (g : gen) : gen :=
  fold_right (fun pa g => tee size (fst pa) (snd pa) g) g ps.

(** One that takes all, or so many chunks and then closes the generator: what it got,
    and how it ended. *)
Fixpoint consume (k : option nat) (g : gen) {struct g} : world -> (list bytes * res unit) * world :=
  match g with
  | Gen n c => fun w =>
      match k with
      | Some O => let '(r, w1) := c w in (([], r), w1)
      | _ => match n w with
             | (Err e, w1) => (([], Err e), w1)
             | (Ok None, w1) => (([], Ok tt), w1)
             | (Ok (Some (b, g')), w1) =>
                 let '((bs, r), w2) := consume (match k with Some (S j) => Some j | _ => None end) g' w1 in ((b :: bs, r), w2)
             end
      end
  end.
