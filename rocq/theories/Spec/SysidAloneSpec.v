(** * The two files of Model.SysidRace in a file system *)
From Coq Require Import String Strings.Byte NArith ZArith Bool List.
From Verif Require Import Model.Py Model.PurePath Model.Fs Model.SysidRace Spec.SysidSpec.
Import ListNotations.

(** /var/tmp/machine-id is the file [f], or none that could be made *)
Definition own_is (fs : node) (cwd : place) (f : file) : Prop :=
  match f with
  | Some b => exists T xs, walk fs cwd true own_file = Found T (File b xs)
  | None => exists d x, walk fs cwd true own_file = Missing d x
  end.
(** /etc/machine-id can be used and has these bytes, or it cannot be used *)
Definition system_is (readable : ppath -> bool) (dirsize : nat) (fs : node) (cwd : place) (e : option bytes) : Prop :=
  match e with
  | Some b => gives readable dirsize fs cwd system_file /\ exists T xs, walk fs cwd true system_file = Found T (File b xs)
  | None => ~ gives readable dirsize fs cwd system_file
  end.
