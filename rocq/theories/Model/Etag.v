(** * The streaming etag object: /repo/augpathlib/utils.py:199-256 *)
From Coq Require Import String NArith ZArith Bool List.
From Verif Require Import Model.Py.
Import ListNotations.
Local Open Scope Z_scope.

Section Etag.
(** [hashlib.md5] on a complete message (utils.py:201).  The hash object
    [self._m] is modelled by the bytes fed to it so far; [m.digest()] is
    [md5] of them and does not reset the object. *)
Variable md5 : bytes -> bytes.

(** Instance attributes, utils.py:203-208. *)
Record etag : Type := mkEtag {
  e_chunksize : Z;
  e_m : bytes;
  e_parts : list bytes;
  e_remainder : bytes;
  e_last : Z }.

(** utils.py:203-208 *)
Definition etag_init (chunksize : Z) : etag := mkEtag chunksize [] [] [] 0.

(** [BytesIO.read(n)]: everything when n is negative; returns data and rest. *)
Definition bread (n : Z) (bio : bytes) : bytes * bytes :=
  if n <? 0 then (bio, []) else (firstn (Z.to_nat n) bio, skipn (Z.to_nat n) bio).

(** [self._parts[-1] = digest], utils.py:239 *)
Definition set_last (l : list bytes) (d : bytes) : res (list bytes) :=
  match l with
  | [] => Err IndexError
  | _ => Ok (removelast l ++ [d])
  end.

(** The [while True] loop of [update], utils.py:213-241.  One unit of fuel is
    one iteration. *)
Fixpoint etag_loop (fuel : nat) (e : etag) (bio : bytes) : res etag :=
  match fuel with
  | O => Err OutOfFuel
  | S fuel' =>
      let restart := negb (e_last e =? 0) in                         (* 214 *)
      let chunksize := if restart then e_chunksize e - e_last e      (* 218 *)
                       else e_chunksize e in                         (* 221 *)
      let chunk := e_remainder e in                                  (* 223 *)
      let (remainder, bio') := bread chunksize bio in                (* 224 *)
      if (match remainder with [] => true | _ => false end
          && (Z.of_nat (length chunk) <? chunksize))%bool            (* 225, 228 *)
      then Ok (mkEtag (e_chunksize e) (e_m e) (e_parts e) chunk 0)   (* 219, 229-230 *)
      else
        match chunk with
        | [] => etag_loop fuel'
                  (mkEtag (e_chunksize e) (e_m e) (e_parts e) remainder 0) bio'
        | _ =>
            let digest := md5 (e_m e ++ chunk) in                    (* 233-234 *)
            do parts <- (if chunksize <? e_chunksize e
                         then set_last (e_parts e) digest            (* 236-239 *)
                         else Ok (e_parts e ++ [digest])) ;          (* 241 *)
            etag_loop fuel' (mkEtag (e_chunksize e) [] parts remainder 0) bio'
        end
  end.

(** utils.py:210-241.  [fuel] bounds the number of loop iterations. *)
Definition etag_update_fuel (fuel : nat) (e : etag) (b : bytes) : res etag :=
  etag_loop fuel
    (mkEtag (e_chunksize e) (e_m e) (e_parts e) [] (e_last e))       (* 211 *)
    (e_remainder e ++ b).                                            (* 212 *)

(** Enough fuel for every positive chunk size, see Proofs/EtagProofs.v. *)
Definition etag_update (e : etag) (b : bytes) : res etag :=
  etag_update_fuel (length (e_remainder e ++ b) + 3) e b.

(** utils.py:243-252 *)
Definition etag_digest (e : etag) : etag * (bytes * Z) :=
  let e' :=
    match e_remainder e with
    | [] => e
    | r => mkEtag (e_chunksize e) (e_m e ++ r)
             (e_parts e ++ [md5 (e_m e ++ r)]) [] (Z.of_nat (length r))
    end in
  (e', (md5 (concat (e_parts e')), Z.of_nat (length (e_parts e')))).

(** utils.py:254-256 *)
Definition etag_hexdigest (e : etag) : etag * str :=
  let '(e', (digest, count)) := etag_digest e in
  (e', hex digest ++ $"-" ++ dec_Z count).

(** A client of the object: a sequence of method calls. *)
Inductive etag_op : Type :=
| Update (b : bytes)
| Digest.

Fixpoint etag_run (e : etag) (ops : list etag_op) : res (etag * list (bytes * Z)) :=
  match ops with
  | [] => Ok (e, [])
  | Update b :: r =>
      do e' <- etag_update e b ; etag_run e' r
  | Digest :: r =>
      let (e', d) := etag_digest e in
      do x <- etag_run e' r ;
      let (e'', ds) := x in Ok (e'', d :: ds)
  end.

End Etag.
