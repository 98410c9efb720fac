(** * What reading a byte range means *)
From Coq Require Import ZArith List.
From Verif Require Import Model.Py.
Import ListNotations.
Local Open Scope Z_scope.

(** Offset at which a range starts: negative starts count from the end. *)
Definition range_offset (len : nat) (start : Z) : Z :=
  if start <? 0 then Z.of_nat len + start else start.

(** The bytes of the file a range asks for. *)
Definition range_bytes (content : bytes) (r : Z * option Z) : bytes :=
  let p := Z.to_nat (range_offset (length content) (fst r)) in
  match snd r with
  | None => skipn p content
  | Some e => firstn (Z.to_nat (e - fst r)) (skipn p content)
  end.

(** A range that lies after the start of the file and does not run backwards. *)
Definition range_valid (len : nat) (r : Z * option Z) : Prop :=
  0 <= range_offset len (fst r) /\
  match snd r with None => True | Some e => fst r <= e end.

(** Number of bytes asked for, when bounded. *)
Definition range_total (r : Z * option Z) : option Z :=
  match snd r with None => None | Some e => Some (e - fst r) end.

(** The cypher of a checksum: the first that is not the default (number 0) among
    the requested one, that of the cache class and the path's own. *)
Definition chosen (requested : nat) (cache own : option nat) : nat :=
  let list_of (o : option nat) := match o with Some c => [c] | None => [] end in
  hd 0%nat (filter (fun c => negb (Nat.eqb c 0%nat)) (requested :: list_of cache ++ list_of own)).
