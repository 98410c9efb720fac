(** * Reading file content: /repo/augpathlib/core.py:796-823, 1306-1350, 1517-1530 *)
From Coq Require Import String NArith ZArith Bool List.
From Verif Require Import Model.Py Model.Etag.
Import ListNotations.
Local Open Scope Z_scope.

(** [f.read(n)] on a binary file opened for reading with the given content and
    position; the new position is returned too.  -1 reads to the end, other
    negative sizes are a ValueError. *)
Definition fread (content : bytes) (pos : nat) (n : Z) : res (bytes * nat) :=
  let rest := skipn pos content in
  if n =? -1 then Ok (rest, (pos + length rest)%nat)
  else if n <? 0 then Err ValueError
  else let d := firstn (Z.to_nat n) rest in Ok (d, (pos + length d)%nat).

(** [f.seek(start, 2 if start < 0 else 0)], core.py:1321 *)
Definition fseek (content : bytes) (start : Z) : res nat :=
  if start <? 0
  then let p := Z.of_nat (length content) + start in
       if p <? 0 then Err (OSErr EINVAL) else Ok (Z.to_nat p)
  else Ok (Z.to_nat start).

(** A generator run to its end: the values it yielded and the exception, if
    any, that ended it. *)
Definition gen : Type := (list bytes * option exn)%type.

Definition gapp (a : list bytes) (g : gen) : gen := (a ++ fst g, snd g).

(** The loop [while True: data = f.read(chunksize); if not data: break; yield data],
    core.py:1335-1340 and 1345-1350.  One unit of fuel per iteration. *)
Fixpoint read_all (fuel : nat) (content : bytes) (pos : nat) (chunksize : Z) : gen :=
  match fuel with
  | O => ([], Some OutOfFuel)
  | S fuel' =>
      match fread content pos chunksize with
      | Err e => ([], Some e)
      | Ok ([], _) => ([], None)
      | Ok (d, pos') => gapp [d] (read_all fuel' content pos' chunksize)
      end
  end.

(** The property [data], core.py:1342-1350. *)
Definition data (content : bytes) (chunksize : Z) : gen :=
  read_all (length content + 2) content 0 chunksize.

(** [for _ in range(nchunks): yield f.read(chunksize)] then
    [yield f.read(last_chunksize)], core.py:1329-1332 *)
Fixpoint read_n (content : bytes) (pos : nat) (chunksize : Z) (n : nat) (last : Z)
  : gen * nat :=
  match n with
  | O => match fread content pos last with
         | Err e => (([], Some e), pos)
         | Ok (d, pos') => (([d], None), pos')
         end
  | S n' =>
      match fread content pos chunksize with
      | Err e => (([], Some e), pos)
      | Ok (d, pos') =>
          let (g, p) := read_n content pos' chunksize n' last in (gapp [d] g, p)
      end
  end.

(** The body of [for start, end in ranges], core.py:1320-1340.  [vars] are the
    Python locals nchunks and last_chunksize, which survive from one range to
    the next; [None] means not yet bound. *)
Fixpoint data_ranges (content : bytes) (chunksize : Z) (vars : option (Z * Z))
  (ranges : list (Z * option Z)) : gen :=
  match ranges with
  | [] => ([], None)
  | (start, end_) :: rest =>
      match fseek content start with                                   (* 1321 *)
      | Err e => ([], Some e)
      | Ok pos =>
          match end_ with
          | Some e =>                                                  (* 1322 *)
              let total := e - start in                                (* 1323 *)
              if ((chunksize =? 0) && (0 <? total))%bool then ([], Some ZeroDivisionErr)   (* 1327 *)
              else
              let vars' :=
                if total <? chunksize then Some (0, total)             (* 1324-1326 *)
                else if chunksize <? total
                     then Some (total / chunksize, total mod chunksize)(* 1327-1328 *)
                     else vars in
              match vars' with
              | None => ([], Some UnboundLocalError)                   (* 1330 *)
              | Some (nchunks, last) =>
                  match read_n content pos chunksize (Z.to_nat nchunks) last with
                  | ((l, Some ex), _) => (l, Some ex)
                  | ((l, None), _) => gapp l (data_ranges content chunksize vars' rest)
                  end
              end
          | None =>                                                    (* 1334-1340 *)
              match read_all (length content + 2) content pos chunksize with
              | (l, Some ex) => (l, Some ex)
              | (l, None) => gapp l (data_ranges content chunksize vars rest)
              end
          end
      end
  end.

(** [_data], core.py:1306-1340.  [chunksize] is the resolved value. *)
Definition data_ (content : bytes) (chunksize : Z) (ranges : list (Z * option Z)) : gen :=
  data_ranges content chunksize None
    (match ranges with [] => [(0, None)] | _ => ranges end).

(** ** checksum, core.py:796-823

    A cypher is a hash on complete messages, named by a number; number 0 is
    [default_cypher] (utils.py:30).  Feeding chunks to a hash object and then
    calling digest is the hash of their concatenation. *)
Section Checksum.
Variable H : nat -> bytes -> bytes.

(** core.py:802-812; [cache_cypher] and [self_cypher] are the optional class
    attributes. *)
Definition pick_cypher (cypher : nat) (cache_cypher self_cypher : option nat) : nat :=
  if negb (Nat.eqb cypher 0) then cypher
  else match cache_cypher with
       | Some c => if negb (Nat.eqb c cypher) then c
                   else match self_cypher with
                        | Some s => if negb (Nat.eqb s cypher) then s else cypher
                        | None => cypher
                        end
       | None => match self_cypher with
                 | Some s => if negb (Nat.eqb s cypher) then s else cypher
                 | None => cypher
                 end
       end.

(** core.py:814-823: the main digest and those of extra_cyphers, in order. *)
Definition digests (cypher : nat) (extra : list nat) (g : gen) : res (list bytes) :=
  match snd g with
  | Some e => Err e
  | None => Ok (map (fun c => H c (fold_left (fun acc chunk => acc ++ chunk) (fst g) []))
                    (cypher :: extra))
  end.

Definition checksum (content : bytes) (chunksize : Z) (cypher : nat)
  (cache_cypher self_cypher : option nat) (extra : list nat) : res (list bytes) :=
  digests (pick_cypher cypher cache_cypher self_cypher) extra (data content chunksize).
End Checksum.

(** ** LocalPath.etag, core.py:1517-1528 (path is a file) *)
Definition local_etag (md5 : bytes -> bytes) (content : bytes) (data_chunksize chunksize : Z)
  : res (bytes * Z) :=
  match data content data_chunksize with
  | (_, Some e) => Err e
  | (chunks, None) =>
      do x <- etag_run md5 (etag_init chunksize) (map Update chunks ++ [Digest]) ;
      match snd x with
      | d :: _ => Ok d
      | [] => Err RuntimeErr
      end
  end.
