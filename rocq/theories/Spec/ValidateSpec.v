(** * Which of two caches is the newer one *)
From Coq Require Import String NArith ZArith Bool List.
From Verif Require Import Model.Py Model.Meta Model.Validate.
Import ListNotations.

(** In this order: the time of the metadata, the time of the local file (no file is
    earliest), whether there is a size. *)
Definition before (a b : pyval) : Prop := py_lt a b = Ok true.
Definition same_time (a b : pyval) : Prop := py_lt a b = Ok false /\ py_lt b a = Ok false.
Definition local_before (a b : pyval) : Prop := (a = PNone /\ b <> PNone) \/ (a <> PNone /\ b <> PNone /\ before a b).
Definition local_same (a b : pyval) : Prop := (a = PNone /\ b = PNone) \/ (a <> PNone /\ b <> PNone /\ same_time a b).
Definition older (dateparse : pyval -> res pyval) (x y : side) : Prop :=
  exists a b u v, d_meta x = Some a /\ d_meta y = Some b /\ get_updated dateparse a = Ok u /\ get_updated dateparse b = Ok v /\
    (before u v \/ same_time u v /\
      (local_before (d_local x) (d_local y) \/
       d_local x <> PNone /\ local_same (d_local x) (d_local y) /\ m_size a = PNone /\ m_size b <> PNone)).

Definition won (x : pick) (a b : side) : side := match x with Mine => a | Theirs => b end.
Definition lost (x : pick) (a b : side) : side := match x with Mine => b | Theirs => a end.
