(** * The next version of a package: /repo/augpathlib/package.py:200-215, 249-263,
    286-296, 334-339, 468-473

    [packaging]'s parser is an argument, and so is its order, which [==] and [sorted]
    follow.  [PyPI] answers each request as it likes.  Simplified: of its answer only the
    version and the names of the releases; [setup.py] is the version it gives. *)
From Coq Require Import String NArith ZArith Bool List.
From Verif Require Import Model.Py Model.Version.
Import ListNotations.

(** An answer that is ok: [info.version] and the keys of [releases] *)
Record pypi : Type := mkPypi { y_version : str; y_releases : list str }.

Section Package.
Variable parse_version : str -> res version.
Variable cmp : version -> version -> comparison.
(** the answers to the requests in their order; None where it is not ok, an error where
    the request raises *)
Variable answers : nat -> res (option pypi).
(** the version in setup.py, 334-339 *)
Variable version_repo : res version.

Definition v_eq (a b : version) : bool := match cmp a b with Eq => true | _ => false end.

(** What the object remembers, and how many requests were made *)
Record pstate : Type := mkPS { p_kept : option pypi; p_asked : nat }.

(** pypi_json, 200-215 *)
Definition pypi_json (s : pstate) : res (option pypi) * pstate :=
  match p_kept s with
  | Some j => (Ok (Some j), s)
  | None =>
      match answers (p_asked s) with
      | Err e => (Err e, mkPS None (S (p_asked s)))
      | Ok None => (Ok None, mkPS None (S (p_asked s)))                  (* 205-207 *)
      | Ok (Some j) => (Ok (Some j), mkPS (Some j) (S (p_asked s)))
      end
  end.

(** version_latest_pypi, 249-254 *)
Definition version_latest_pypi (s : pstate) : res (option version) * pstate :=
  match pypi_json s with
  | (Err e, s1) => (Err e, s1)
  | (Ok None, s1) => (Ok None, s1)
  | (Ok (Some j), s1) => (do v <- parse_version (y_version j) ; Ok (Some v), s1)
  end.

(** [sorted], which is stable *)
Fixpoint insert_v (x : version) (l : list version) : list version :=
  match l with
  | [] => [x]
  | y :: r => match cmp x y with Lt => x :: l | _ => y :: insert_v x r end
  end.
Definition sorted_v (l : list version) : list version := fold_left (fun acc x => insert_v x acc) l [].

(** version_latest_released, 256-263 *)
Definition version_latest_released (s : pstate) : res (option version) * pstate :=
  match pypi_json s with
  | (Err e, s1) => (Err e, s1)
  | (Ok None, s1) => (Ok None, s1)
  | (Ok (Some j), s1) =>
      (do vs <- rmap parse_version (y_releases j) ;
       match rev (sorted_v vs) with [] => Err IndexError | v :: _ => Ok (Some v) end, s1)
  end.

(** version_next, 286-296.  A [Version] is always true, so the default of line 296 is
    never reached. *)
Definition version_next (next_phase rel_comp : phase) (s : pstate) : res version * pstate :=
  match version_latest_pypi s with
  | (Err e, s1) => (Err e, s1)
  | (Ok vlp, s1) =>
      match version_latest_released s1 with
      | (Err e, s2) => (Err e, s2)
      | (Ok vlr, s2) =>
          if negb (match vlp, vlr with Some a, Some b => v_eq a b | None, None => true | _, _ => false end)
          then (Err AssertionError, s2)                                  (* 290 *)
          else match vlp with
               | Some v => (next_version v next_phase rel_comp, s2)
               | None => (version_repo, s2)
               end
      end
  end.

(** What bump, 468-473, finds before the change would be made. *)
Inductive finding : Type := AlreadyReleased (v : version) | AlreadyBumped (v : version) | Fresh (v : version).
Definition bump (next_phase rel_comp : phase) (s : pstate) : res finding * pstate :=
  match version_next next_phase rel_comp s with
  | (Err e, s1) => (Err e, s1)
  | (Ok nv, s1) =>
      match version_latest_released s1 with
      | (Err e, s2) => (Err e, s2)
      | (Ok vlr, s2) =>
          if match vlr with Some w => v_eq nv w | None => false end then (Ok (AlreadyReleased nv), s2)   (* 470-471 *)
          else (do vr <- version_repo ;
                Ok (if v_eq nv vr then AlreadyBumped nv else Fresh nv), s2)
      end
  end.
End Package.
