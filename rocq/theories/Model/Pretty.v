(** * The side by side diff of metadata: /repo/augpathlib/meta.py:624-808

    The texts in the cells (encode) and the table drawn by terminaltables3 are not
    modelled: a row is the field and value on each side, [None] for blanks. *)
From Coq Require Import String NArith ZArith Bool List.
From Verif Require Import Model.Py Model.Meta.
Import ListNotations.

Section Dates.
(** parsing of dates, see Meta.v *)
Variable dateparse : pyval -> res pyval.

(** meta.py:629-645 *)
Definition pretty_fields : list field :=
  [Fsize; Fcreated; Fupdated; Fchecksum; Fchecksum_cypher; Fetag; Fchunksize; Fparent_id; Fid;
   Ffile_id; Fgid; Fuser_id; Fmode; Fname; Fold_id; Fmulti; Ferrors].

(** meta.py:691-694: not None, and not an empty tuple *)
Definition in_rows (v : pyval) : bool :=
  (negb (is_none v) && match v with PStrs [] => false | _ => true end)%bool.

(** rows, meta.py:681-695.  The keys are distinct, so sorting by the position in
    [fields] lists the items in the order of [fields]. *)
Definition rows (m : pathmeta) : res (list (field * pyval)) :=
  do l <- items dateparse m ;
  Ok (flat_map (fun f => filter (fun kv => (field_eqb (fst kv) f && in_rows (snd kv))%bool) l) pretty_fields).

(** [l.index(k)] *)
Fixpoint index_of (k : field) (l : list field) : option nat :=
  match l with
  | [] => None
  | x :: r => if field_eqb x k then Some O else option_map S (index_of k r)
  end.

(** [l[i]], negative indices count from the end *)
Definition py_nth {A} (l : list A) (i : Z) : res A :=
  let i' := if Z.ltb i 0 then (Z.of_nat (length l) + i)%Z else i in
  if Z.ltb i' 0 then Err IndexError
  else match nth_error l (Z.to_nat i') with Some x => Ok x | None => Err IndexError end.

(** An entry of kind and okind, meta.py:758-763: the shift for a common key. *)
Definition kinds (keys others : list field) : list (option Z * field) :=
  map (fun '(i, k) => (option_map (fun j => (Z.of_nat j - Z.of_nat i)%Z) (index_of k others), k))
      (combine (seq 0 (length keys)) keys).

(** meta.py:770-788; [i0] is the index of the loop. *)
Fixpoint align (short : list field) (long : list (option Z * field)) (i0 : nat) (started : bool)
  (offset : Z) : res (list field) :=
  match long with
  | [] => Ok []
  | (kv, av) :: rest =>
      let i := (Z.of_nat i0 - offset)%Z in
      match kv with
      | None =>
          if started then do l <- align short rest (S i0) started offset ; Ok (av :: l)   (* 787-788 *)
          else do x <- py_nth short i ;                                 (* 772-774 *)
               do l <- align short rest (S i0) started offset ; Ok (av :: x :: l)
      | Some v =>
          if Z.leb v 0 then do l <- align short rest (S i0) true offset ; Ok (av :: l)    (* 776-778 *)
          else do xs <- rmap (fun j => py_nth short (i + Z.of_nat j)%Z) (seq 0 (Z.to_nat v)) ;  (* 780-781 *)
               do l <- align short rest (S i0) started (offset + v)%Z ;
               Ok (xs ++ av :: l)
      end
  end.

(** [kv[k] if k in kv else blanks]; the last one wins in a dict, the keys are distinct *)
Definition lookup (k : field) (l : list (field * pyval)) : option (field * pyval) :=
  find (fun kv => field_eqb (fst kv) k) l.

(** merge, meta.py:756-798 *)
Definition merge_rows (a b : list (field * pyval))
  : res (list (option (field * pyval) * option (field * pyval))) :=
  let keys := map fst a in
  let okeys := map fst b in
  do aligned <- (if Nat.ltb (length okeys) (length keys)                (* 764-766 *)
                 then align okeys (kinds keys okeys) 0 false 0
                 else align keys (kinds okeys keys) 0 false 0) ;
  match a, b with                                                       (* 791-792 *)
  | _ :: _, _ :: _ => Ok (map (fun k => (lookup k a, lookup k b)) aligned)
  | _, _ => Err IndexError
  end.

(** as_pretty_diff, meta.py:743-808, the rows below the header *)
Definition pretty_diff (m other : pathmeta)
  : res (list (option (field * pyval) * option (field * pyval))) :=
  do _ <- content_different dateparse m other ;                                   (* 752 *)
  do a <- rows m ;
  do b <- rows other ;
  merge_rows a b.
End Dates.
