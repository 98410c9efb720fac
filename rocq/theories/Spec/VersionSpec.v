(** * The order of versions (PEP 440) and the phases, independently of next_version *)
From Coq Require Import String NArith ZArith Bool List.
From Verif Require Import Model.Py Model.Version.
Import ListNotations.

(** Release numbers are compared component by component, the shorter one padded
    with zeros. *)
Fixpoint comps_cmp (n : nat) (a b : list N) : comparison :=
  match n with
  | O => Eq
  | S n' => match N.compare (hd 0%N a) (hd 0%N b) with
            | Eq => comps_cmp n' (tl a) (tl b) | c => c end
  end.
Definition rel_cmp (a b : list N) : comparison := comps_cmp (max (length a) (length b)) a b.

Definition letter_rank (l : letter) : N := match l with La => 0 | Lb => 1 | Lrc => 2 end%N.

(** A value that may be minus or plus infinity. *)
Inductive inf (A : Type) : Type := MinusInf | Fin (a : A) | PlusInf.
Arguments MinusInf {A}. Arguments Fin {A} _. Arguments PlusInf {A}.
Definition inf_cmp {A} (c : A -> A -> comparison) (a b : inf A) : comparison :=
  match a, b with
  | MinusInf, MinusInf | PlusInf, PlusInf => Eq
  | MinusInf, _ | _, PlusInf => Lt
  | PlusInf, _ | _, MinusInf => Gt
  | Fin x, Fin y => c x y
  end.

(** A development release of a final version comes before its pre-releases; a
    final version after them. *)
Definition pre_key (v : version) : inf (letter * N) :=
  match v_pre v, v_post v, v_dev v with
  | Some p, _, _ => Fin p
  | None, None, Some _ => MinusInf
  | None, _, _ => PlusInf
  end.
Definition pre_cmp (a b : letter * N) : comparison :=
  match N.compare (letter_rank (fst a)) (letter_rank (fst b)) with
  | Eq => N.compare (snd a) (snd b) | c => c end.
Definition post_key (v : version) : inf N :=
  match v_post v with None => MinusInf | Some n => Fin n end.
Definition dev_key (v : version) : inf N :=
  match v_dev v with None => PlusInf | Some n => Fin n end.

(** Local parts: numbers after texts, otherwise in their order; a longer one
    after its prefixes. *)
Fixpoint str_cmp (a b : str) : comparison :=
  match a, b with
  | [], [] => Eq | [], _ => Lt | _, [] => Gt
  | x :: a', y :: b' => match N.compare x y with Eq => str_cmp a' b' | c => c end
  end.
Definition seg_cmp (a b : segment) : comparison :=
  match a, b with
  | SNum x, SNum y => N.compare x y
  | SNum _, SText _ => Gt | SText _, SNum _ => Lt
  | SText x, SText y => str_cmp x y
  end.
Fixpoint segs_cmp (a b : list segment) : comparison :=
  match a, b with
  | [], [] => Eq | [], _ => Lt | _, [] => Gt
  | x :: a', y :: b' => match seg_cmp x y with Eq => segs_cmp a' b' | c => c end
  end.
Definition local_key (v : version) : inf (list segment) :=
  match v_local v with None => MinusInf | Some l => Fin l end.

Definition then_ (a b : comparison) : comparison := match a with Eq => b | c => c end.

Definition version_cmp (a b : version) : comparison :=
  then_ (N.compare (v_epoch a) (v_epoch b))
  (then_ (rel_cmp (v_release a) (v_release b))
  (then_ (inf_cmp pre_cmp (pre_key a) (pre_key b))
  (then_ (inf_cmp N.compare (post_key a) (post_key b))
  (then_ (inf_cmp N.compare (dev_key a) (dev_key b))
         (inf_cmp segs_cmp (local_key a) (local_key b)))))).

Definition newer (a b : version) : Prop := version_cmp b a = Lt.

(** A component of the release number. *)
Inductive component : Set := Last | Nth (i : nat).
(** [b] is [a] one step up in the component: what comes before is kept, what
    comes after is zero, the length is kept. *)
Definition one_step (c : component) (a b : list N) : Prop :=
  exists before n after,
    a = before ++ n :: after /\ b = before ++ (n + 1)%N :: repeat 0%N (length after) /\
    match c with Last => after = [] | Nth i => length before = i end.

Definition comp_of (p : phase) : option component :=
  match p with
  | Release => Some Last | Major => Some (Nth 0) | Minor => Some (Nth 1) | Micro => Some (Nth 2)
  | _ => None
  end.

(** The kinds of version. *)
Definition final (v : version) : Prop :=
  v_pre v = None /\ v_post v = None /\ v_dev v = None /\ v_local v = None.
Definition is_dev (v : version) : Prop :=
  v_pre v = None /\ v_post v = None /\ v_dev v <> None /\ v_local v = None.
Definition is_pre (l : letter) (v : version) : Prop :=
  (exists n, v_pre v = Some (l, n)) /\ v_post v = None /\ v_local v = None.
Definition is_post (v : version) : Prop := v_post v <> None /\ v_local v = None.
Definition is_local (v : version) : Prop := v_local v <> None.

Definition next_letter (v : version) : letter :=
  match v_pre v with
  | Some (La, _) => Lb | Some _ => Lrc | None => La end.

(** What a requested phase asks for, starting from [v]. *)
Definition in_phase (v : version) (p : phase) (v' : version) : Prop :=
  match p with
  | Current => (is_dev v -> is_dev v') /\ (forall l, is_pre l v -> is_pre l v') /\
               (is_post v -> is_post v') /\ (final v -> final v')
  | Dev => is_dev v'
  | Pre => if match v_local v, v_post v with None, None => true | _, _ => false end
           then is_pre (next_letter v) v' else is_pre La v'
  | PhA => is_pre La v' | PhB => is_pre Lb v' | PhRc => is_pre Lrc v'
  | Release | Major | Minor | Micro => final v'
  | Post => is_post v'
  | Local => is_local v'
  | OtherPhase => False
  end.

(** The requests that are refused, for a version in the given state with [n]
    components in its release number. *)
Definition needs (d : phase) : nat := match d with Minor => 2 | Micro => 3 | _ => 1 end.
Definition refuses (state : phase) (n : nat) (p c : phase) : Prop :=
  match state, p with
  | _, OtherPhase => True
  | (PhA | PhB | PhRc), Dev => True                      (* no way back *)
  | PhB, PhA | PhRc, (PhA | PhB) => True
  | (Dev | PhA | PhB | PhRc | Post | Local), Post => True (* post follows a release *)
  | Local, (Current | Local) => True
  | _, (Minor | Micro) => n < needs p                    (* no such component *)
  | (Release | Post | Local), (Dev | Pre | PhA | PhB | PhRc) => n < needs c
  | PhA, (PhA | PhB | PhRc) | PhB, (PhB | PhRc) | PhRc, PhRc => n < needs c
  | _, _ => False
  end.
