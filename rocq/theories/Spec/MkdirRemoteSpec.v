(** * What making a directory on both sides may do *)
From Coq Require Import String Strings.Byte NArith Bool List.
From Verif Require Import Model.Py Model.PurePath Model.Meta Model.MetaXattr Model.Fs Model.Cache Model.MkdirRemote
  Spec.FsSpec Spec.DataDirSpec Spec.MetaSpec Spec.XattrSpec Spec.CacheSpec Spec.MkdirCacheSpec Spec.AnchorSpec.
Import ListNotations.

(** [p] is the path or one above it. *)
Definition on_way (self p : ppath) : Prop := pp_abs p = pp_abs self /\ exists r, pp_parts self = pp_parts p ++ r.

(** What was made at the remote has its place here. *)
Definition its_place (self : ppath) (s : node) (cwd : place) (b : made) (q : place) : Prop :=
  exists p, on_way self p /\ pp_name p = b_name b /\ leads s cwd p q.

(** Here nothing changed but that there are directories for those made at the remote, new
    or there before, which have more attributes, all from the metadata of these. *)
Definition only_made (K : conf) (self : ppath) (new : list made) (cwd : place) (fs s : node) : Prop :=
  forall q, look s q = look fs q \/
    (free_or_dir fs q /\ (exists b, In b new /\ its_place self s cwd b q) /\
     exists xs, look s q = Some (ADir xs) /\
       forall kv, In kv xs -> (exists ys, look fs q = Some (ADir ys) /\ In kv ys) \/
         exists b, In b new /\ its_place self s cwd b q /\ says K (Ok (Some (b_meta b))) kv).

(** Nothing is stored with [p]. *)
Definition none_at (K : conf) (fs : node) (cwd : place) (p : ppath) : Prop :=
  exists w, cache_meta K p (start fs cwd (fun _ => None)) = (Ok None, w).

(** Where the remote directories are made: the first is in the one whose id is stored
    with the nearest path above that has one, the names are those below it in order. *)
Definition in_order (K : conf) (self : ppath) (fs : node) (cwd : place) (up : bool) (new : list made) : Prop :=
  forall b rest, new = b :: rest ->
    exists A r, pp_parts self = A ++ b_name b :: r /\ (up = false -> r = []) /\ map b_name rest = firstn (length rest) r /\
      id_at K fs cwd (mkPP (pp_abs self) A) (b_in b) /\
      forall l c, r = l ++ c -> c <> [] -> none_at K fs cwd (mkPP (pp_abs self) (A ++ b_name b :: l)).

(** Metadata with that id, of values that attributes can hold *)
Definition told (m : pathmeta) (a : args) : Prop := meta_init a = Ok m /\ typed a /\ xattr_safe a /\ blank (a Fid) = false.

(** What the remote answers when it is asked to make [names], each in the one before and
    the first in that with the id: [new] come to be. *)
Inductive answers (child_far : list made -> pyval -> str -> res pathmeta) : list made -> pyval -> list str -> list made -> Prop :=
| answers_end l i : answers child_far l i [] []
| answers_next l i x m a names new : child_far l i x = Ok m -> told m a ->
    answers child_far (l ++ [mkMade i x m]) (a Fid) names new -> answers child_far l i (x :: names) (mkMade i x m :: new).

(** Nothing, or a directory without attributes *)
Definition clear (fs : node) (q : place) : Prop := look fs q = None \/ look fs q = Some (ADir []).
(** At [names] below [D] and on the way there *)
Definition clear_way (fs : node) (D : place) (names : list str) : Prop :=
  forall pre post, names = pre ++ post -> pre <> [] -> clear fs (D ++ pre).

(** Below [D] there are the directories with what is known of those made at the remote. *)
Definition placed (K : conf) (D : place) (new : list made) (s : node) : Prop :=
  forall pre b post, new = pre ++ b :: post ->
    exists xs, look s (D ++ map b_name (pre ++ [b])) = Some (ADir xs) /\
      forall a, told (b_meta b) a -> exists m', recorded K (b_name b) (Some (ADir xs)) = Ok (Some m') /\ carries m' (shown a).

(** The directory [D] has metadata with that id. *)
Definition dir_id (K : conf) (fs : node) (D : place) (i : pyval) : Prop :=
  exists xs m name, look fs D = Some (ADir xs) /\ recorded K name (Some (ADir xs)) = Ok (Some m) /\ m_id m = i /\ i <> PNone.

(** Nothing is different but at [names] below [D] and on the way there. *)
Definition else_same (D : place) (names : list str) (fs s : node) : Prop :=
  forall q, (forall pre post, names = pre ++ post -> pre <> [] -> q <> D ++ pre) -> look s q = look fs q.
