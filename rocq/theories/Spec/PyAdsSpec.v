(** * The streams of a file as a dictionary *)
From Coq Require Import String NArith ZArith Bool List.
From Verif Require Import Model.Py Model.PurePath Model.Fs Model.Ads Model.PyAds Spec.AdsSpec.
Import ListNotations.

(** A value for some names. *)
Definition dict := str -> option bytes.
(** What is to be found under a name in the current directory: nothing, a directory,
    or a file with some content. *)
Definition around := str -> option (option bytes).

(** Adding never replaces: True for a new name, False for one that is there. *)
Definition adds (D : dict) (k : str) (v : bytes) (r : res answer) (D' : dict) : Prop :=
  match D k with
  | Some _ => r = Ok (AnBool false) /\ forall k', D' k' = D k'
  | None => r = Ok (AnBool true) /\ D' k = Some v /\ forall k', k' <> k -> D' k' = D k'
  end.
(** What one call may answer, and what it leaves. *)
Definition answers (A : around) (D : dict) (c : call) (r : res answer) (D' : dict) : Prop :=
  match c with
  | CAdd k v => adds D k v r D'
  | CFile k => match A k with
               | None => r = Ok (AnBool false) /\ forall k', D' k' = D k'
               | Some None => r = Err (OSErr EACCES) /\ forall k', D' k' = D k'
               | Some (Some v) => adds D k v r D'
               end
  | CDelete k => r = Ok (AnBool (match D k with Some _ => true | None => false end)) /\ D' k = None /\
                 forall k', k' <> k -> D' k' = D k'
  | CGet k => r = match D k with Some v => Ok (AnBytes v) | None => Err (OSErr ENOENT) end /\ forall k', D' k' = D k'
  | CIter => (exists l, r = Ok (AnNames l) /\ NoDup l /\ forall k, In k l <-> D k <> None) /\ forall k', D' k' = D k'
  | CHas => (exists b, r = Ok (AnBool b) /\ (b = true <-> exists k, D k <> None)) /\ forall k', D' k' = D k'
  end.
Inductive told (A : around) : dict -> list call -> list (res answer) -> dict -> Prop :=
| told_nil D : told A D [] [] D
| told_cons D c r D1 cs rs D2 : answers A D c r D1 -> told A D1 cs rs D2 -> told A D (c :: cs) (r :: rs) D2.

(** Names that a volume takes and tells apart. *)
Definition proper (up : N -> N) (legal : str -> bool) (K : str -> Prop) : Prop :=
  (forall k, K k -> good_part k /\ legal k = true) /\ (forall k k', K k -> K k' -> folded up k k' -> k = k').
Definition asks (K : str -> Prop) (c : call) : Prop :=
  match c with CAdd k _ | CFile k | CDelete k | CGet k => K k | CIter | CHas => True end.

(** The streams of what is at a place are the dictionary, all with names from [K]. *)
Definition stored (up : N -> N) (K : str -> Prop) (D : dict) (d : disk) (q : list str) (data : option bytes) : Prop :=
  exists f, find_file up d q = Some f /\ w_data f = data /\ NoDup (map fst (w_streams f)) /\
    (forall k v, D k = Some v <-> In (k, v) (w_streams f)) /\ (forall n v, In (n, v) (w_streams f) -> K n).
(** The current directory, and what is in it. *)
Definition working (cwd : list str) : Prop := exists drive r, cwd = drive :: r /\ drive <> $".." /\ Forall good_part r.
Definition in_cwd (up : N -> N) (cwd : list str) (d : disk) : around :=
  fun k => match find_file up d (cwd ++ [k]) with Some f => Some (w_data f) | None => None end.

(** An object for the path [p] of the place [q] that lists what is there. *)
Definition agree (up : N -> N) (p : wpath) (q : list str) (K : str -> Prop) (D : dict) (a : ads) (d : disk) (data : option bytes) : Prop :=
  stored up K D d q data /\ ads_file a = p /\ NoDup (ads_streams a) /\ forall k, In k (ads_streams a) <-> D k <> None.
