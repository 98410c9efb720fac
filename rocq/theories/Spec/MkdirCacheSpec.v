(** * What making directories with metadata may do *)
From Coq Require Import String Strings.Byte NArith Bool List.
From Verif Require Import Model.Py Model.PurePath Model.Meta Model.MetaXattr Model.Fs Model.Cache Model.MkdirCache Spec.FsSpec Spec.MetaSpec Spec.XattrSpec.
Import ListNotations.

(** An attribute that says something of that metadata *)
Definition says (K : conf) (m : res (option pathmeta)) (kv : str * bytes) : Prop :=
  exists x l b, m = Ok (Some x) /\ as_xattrs (c_dateparse K) x (c_prefix K) = Ok l /\ In (b, snd kv) l /\ fst kv = $"user." ++ key_text b.

(** Nothing changed but that there are new directories, at the paths of the parents, each
    with attributes of the metadata of that one only. *)
Definition only_parents (K : conf) (anchor : ppath) (parents : list above) (cwd : place) (fs s : node) : Prop :=
  forall q, look s q = look fs q \/
    (look fs q = None /\ exists xs u, look s q = Some (ADir xs) /\ In u parents /\
       leads s cwd (up_local anchor u) q /\ Forall (says K (u_meta u)) xs).

(** The beginnings of a list, the shortest first *)
Fixpoint tops (done l : list str) : list (list str) :=
  done :: match l with [] => [] | x :: r => tops (done ++ [x]) r end.

(** A parent that has metadata, with an id, of values that attributes can hold *)
Definition tells (u : above) (a : args) : Prop :=
  exists m, u_meta u = Ok (Some m) /\ meta_init a = Ok m /\ typed a /\ xattr_safe a /\ blank (a Fid) = false.
