(** * What is asked once, and what is asked again *)
From Coq Require Import String NArith Bool List.
From Verif Require Import Model.Py Model.PurePath Model.PackageMemo.
Import ListNotations.

Section Spec.
Variable J : Type.
Notation reading := (reading J).
Notation value := (value J).

(** An answer: a value, but not the None of a request that failed *)
Definition answered (a : attr) (v : value) (x : reading) : Prop :=
  x_attr _ x = a /\ x_value _ x = Ok v /\ v <> VJson _ None.

Definition is_setup (q : question) : bool := match q with ToSetup => true | _ => false end.
Definition is_pypi (q : question) : bool := match q with ToPypi _ => true | _ => false end.
Definition is_github (q : question) : bool := match q with ToGithub _ => true | _ => false end.
(** How many such questions there were *)
Definition asked (f : question -> bool) (t : list reading) : nat :=
  length (filter f (flat_map (x_asked _) t)).

(** What an answer of PyPI means, and one of GitHub *)
Definition of_pypi (r : res (response J)) : res value :=
  do r <- r ; if r_ok _ r then do j <- r_json _ r ; Ok (VJson _ (Some j)) else Ok (VJson _ None).
Definition of_github (r : res (response J)) : res value :=
  do r <- r ;
  if r_ok _ r then do j <- r_json _ r ; Ok (VJson _ (Some j))
  else if N.eqb (r_status _ r) 403 then do _ <- r_json _ r ; Ok (VJson _ None) else Ok (VJson _ None).

(** What [setup.py] says of the package, read in the way of [sk]: the name and the packages *)
Definition said (sk : bool) (o : outcome) : option (str * list str) :=
  match sk, o with
  | true, OTriple k => match k_name k, k_packages k with Some n, Some (Some l) => Some (n, l) | _, _ => None end
  | false, ODist d => match d_packages d with Some l => Some (d_name d, l) | None => None end
  | _, _ => None
  end.
(** A run that is of no use for [sk]: it raised, or gave the other kind of result *)
Definition useless (sk : bool) (r : res outcome) : Prop :=
  match r with Err _ => True | Ok o => match sk, o with true, ODist _ => True | _, _ => False end end.
(** The attribute for the other kind of result *)
Definition foreign (sk : bool) : attr := if sk then ADist else AKwargs.
End Spec.
