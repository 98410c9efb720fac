(** * Reading a version: [packaging.version.Version.__init__], which
    /repo/augpathlib/package.py:154, 253, 261, 271, 296, 331, 336, 338 call

    The regular expression VERSION_PATTERN of [packaging] (not in /repo), matched from the
    left; no alternative of it is tried again, since each begins with characters that the
    others cannot begin with.  Simplified: letters and blanks of ASCII. *)
From Coq Require Import String NArith ZArith Bool List.
From Verif Require Import Model.Py Model.Version.
Import ListNotations.

Definition blank_c (c : N) : bool := ((N.leb 28 c && N.leb c 32) || (N.leb 9 c && N.leb c 13))%bool.
Definition low_c (c : N) : N := if (N.leb 65 c && N.leb c 90)%bool then (c + 32)%N else c.
Definition sep_c (c : N) : bool := existsb (N.eqb c) $"-_.".
Definition alnum_c (c : N) : bool := (is_digit c || (N.leb 97 c && N.leb c 122))%bool.
Definition num (d : str) : N := match pnat d with Some n => n | None => 0%N end.

Fixpoint lead (f : N -> bool) (s : str) : str * str :=
  match s with
  | c :: r => if f c then let (a, b) := lead f r in (c :: a, b) else ([], s)
  | [] => ([], [])
  end.
Definition opt_sep (s : str) : str := match s with c :: r => if sep_c c then r else s | [] => [] end.
Fixpoint pick {A} (labels : list (str * A)) (s : str) : option (A * str) :=
  match labels with
  | [] => None
  | (l, a) :: more => if startswith s l then Some (a, skipn (length l) s) else pick more s
  end.
(** A separator, a label, a separator, a number, which is 0 where it is missing *)
Definition labelled {A} (labels : list (str * A)) (s : str) : option (A * N) * str :=
  match pick labels (opt_sep s) with
  | None => (None, s)
  | Some (a, r) => let (d, r') := lead is_digit (opt_sep r) in (Some (a, num d), r')
  end.
Definition pre_labels : list (str * letter) :=
  [($"alpha", La); ($"a", La); ($"beta", Lb); ($"b", Lb); ($"preview", Lrc); ($"pre", Lrc); ($"c", Lrc); ($"rc", Lrc)].
Definition post_labels : list (str * unit) := [($"post", tt); ($"rev", tt); ($"r", tt)].
Definition dev_labels : list (str * unit) := [($"dev", tt)].

Definition epoch_part (s : str) : N * str :=
  match lead is_digit s with
  | ((_ :: _) as d, c :: r) => if N.eqb c (chr "!") then (num d, r) else (0%N, s)
  | _ => (0%N, s)
  end.
Fixpoint more_release (fuel : nat) (s : str) : list N * str :=
  match fuel, s with
  | S f, c :: r =>
      if N.eqb c (chr ".") then
        match lead is_digit r with
        | ([], _) => ([], s)
        | (d, r') => let (l, r2) := more_release f r' in (num d :: l, r2)
        end
      else ([], s)
  | _, _ => ([], s)
  end.
Definition release_part (s : str) : option (list N * str) :=
  match lead is_digit s with
  | ([], _) => None
  | (d, r) => let (l, r') := more_release (length r) r in Some (num d :: l, r')
  end.
Definition post_part (s : str) : option N * str :=
  match s with
  | c :: r =>
      match (if N.eqb c (chr "-") then lead is_digit r else ([], [])) with
      | ([], _) => let (o, r') := labelled post_labels s in (option_map snd o, r')
      | (d, r') => (Some (num d), r')
      end
  | [] => (None, [])
  end.
Definition segment_of (d : str) : segment := if forallb is_digit d then SNum (num d) else SText d.
Fixpoint more_local (fuel : nat) (s : str) : list segment * str :=
  match fuel, s with
  | S f, c :: r =>
      if sep_c c then
        match lead alnum_c r with
        | ([], _) => ([], s)
        | (d, r') => let (l, r2) := more_local f r' in (segment_of d :: l, r2)
        end
      else ([], s)
  | _, _ => ([], s)
  end.
Definition local_part (s : str) : option (list segment) * str :=
  match s with
  | c :: r =>
      if N.eqb c (chr "+") then
        match lead alnum_c r with
        | ([], _) => (None, s)
        | (d, r') => let (l, r2) := more_local (length r') r' in (Some (segment_of d :: l), r2)
        end
      else (None, s)
  | [] => (None, [])
  end.

(** None is InvalidVersion. *)
Definition read_version (text : str) : option version :=
  let s := snd (lead blank_c (map low_c text)) in
  let s := match s with c :: r => if N.eqb c (chr "v") then r else s | [] => [] end in
  let (e, s) := epoch_part s in
  match release_part s with
  | None => None
  | Some (l, s) =>
      let (pre, s) := labelled pre_labels s in
      let (post, s) := post_part s in
      let (dev, s) := labelled dev_labels s in
      let (loc, s) := local_part s in
      if forallb blank_c s then Some (mkV e l pre post (option_map snd dev) loc) else None
  end.
