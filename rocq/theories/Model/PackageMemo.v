(** * What a package path asks once: /repo/augpathlib/package.py:159, 178-215, 235-247, 394-412, 448-453

    One path object; what [setup.py], PyPI and GitHub answer may be different each time.
    [J] are the values of JSON.  Simplified: [requests] can be imported (195-198), nobody
    logs in to GitHub (217-233); the folder (C69) and the remote of the repository (C70) stay the same;
    of a Distribution and of the arguments of [setup] there are the name and the packages. *)
From Coq Require Import String NArith ZArith Bool List.
From Verif Require Import Model.Py Model.PurePath.
Import ListNotations.

(** A Distribution, with what [get_name] gives; the arguments of [setup], where a missing
    one is None *)
Record dist : Type := mkDist { d_name : str; d_packages : option (list str) }.
Record kwargs : Type := mkKwargs { k_name : option str; k_packages : option (option (list str)) }.
(** What [setupfu] (162-176) gives: it depends on [setup_use_kwargs] at that time, 15. *)
Inductive outcome : Type := ODist (d : dist) | OTriple (k : kwargs).

Section Memo.
Variable J : Type.
(** [requests.Response]: [ok], [status_code], [json()] *)
Record response : Type := mkResponse { r_ok : bool; r_status : N; r_json : res J }.

Variable sk : bool.                       (* [_sk], 159: setup_use_kwargs when the module was imported *)
Variable runs : nat -> res outcome.       (* the first run of setup.py, the second, ... *)
Variable pypi : nat -> res response.      (* the answers of PyPI *)
Variable github : nat -> res response.    (* those of GitHub *)
Variable folder : res ppath.
Variable uri_api : res str.               (* [remote_uri_api('/releases')] *)

(** The attributes of the object ([hasattr] is Some), and how often it asked *)
Record mstate : Type := mkMS {
  s_dist : option outcome; s_kwargs : option kwargs; s_pypi : option J; s_github : option J;
  n_runs : nat; n_pypi : nat; n_github : nat }.
Definition new : mstate := mkMS None None None None 0 0 0.
(** What is asked of others: setup.py, PyPI for a name, GitHub at an address *)
Inductive question : Type := ToSetup | ToPypi (name : str) | ToGithub (uri : str).
Definition Q (A : Type) : Type := mstate -> res A * mstate * list question.
Definition qret {A} (a : A) : Q A := fun s => (Ok a, s, []).
Definition qraise {A} (e : exn) : Q A := fun s => (Err e, s, []).
Definition qbind {A B} (m : Q A) (f : A -> Q B) : Q B := fun s =>
  match m s with
  | (Ok a, s1, l1) => let '(r, s2, l2) := f a s1 in (r, s2, l1 ++ l2)
  | (Err e, s1, l1) => (Err e, s1, l1)
  end.
Definition qlift {A} (r : res A) : Q A := fun s => (r, s, []).

(** [self.setupfu], 181 and 190 *)
Definition run_setup : Q outcome := fun s =>
  (runs (n_runs s), mkMS (s_dist s) (s_kwargs s) (s_pypi s) (s_github s) (S (n_runs s)) (n_pypi s) (n_github s), [ToSetup]).
(** [self._requests.get], 204 *)
Definition get_pypi (name : str) : Q response := fun s =>
  (pypi (n_pypi s), mkMS (s_dist s) (s_kwargs s) (s_pypi s) (s_github s) (n_runs s) (S (n_pypi s)) (n_github s), [ToPypi name]).
(** [session.get], 239 *)
Definition get_github (uri : str) : Q response := fun s =>
  (github (n_github s), mkMS (s_dist s) (s_kwargs s) (s_pypi s) (s_github s) (n_runs s) (n_pypi s) (S (n_github s)), [ToGithub uri]).
(** what is set on the object: 182, 191, 209, 245 *)
Definition keep_dist (o : outcome) : Q outcome := fun s =>
  (Ok o, mkMS (Some o) (s_kwargs s) (s_pypi s) (s_github s) (n_runs s) (n_pypi s) (n_github s), []).
Definition keep_kwargs (k : kwargs) : Q kwargs := fun s =>
  (Ok k, mkMS (s_dist s) (Some k) (s_pypi s) (s_github s) (n_runs s) (n_pypi s) (n_github s), []).
Definition keep_pypi (j : J) : Q (option J) := fun s =>
  (Ok (Some j), mkMS (s_dist s) (s_kwargs s) (Some j) (s_github s) (n_runs s) (n_pypi s) (n_github s), []).
Definition keep_github (j : J) : Q (option J) := fun s =>
  (Ok (Some j), mkMS (s_dist s) (s_kwargs s) (s_pypi s) (Some j) (n_runs s) (n_pypi s) (n_github s), []).

(** setup_dist, 178-184 *)
Definition setup_dist : Q outcome := fun s =>
  match s_dist s with
  | Some o => qret o s
  | None => qbind run_setup keep_dist s
  end.
(** setup_kwargs, 186-193; a Distribution cannot be taken apart, 190 *)
Definition setup_kwargs : Q kwargs := fun s =>
  match s_kwargs s with
  | Some k => qret k s
  | None => qbind run_setup (fun o => match o with OTriple k => keep_kwargs k | ODist _ => qraise TypeError end) s
  end.
(** arg_packagename, 448-453 *)
Definition arg_packagename : Q str :=
  if sk then qbind setup_kwargs (fun k => qlift (match k_name k with Some n => Ok n | None => Err KeyError end))
  else qbind setup_dist (fun o => qlift (match o with ODist d => Ok (d_name d) | OTriple _ => Err AttributeError end)).

(** pypi_json, 200-215 *)
Definition pypi_json : Q (option J) := fun s =>
  match s_pypi s with
  | Some j => qret (Some j) s
  | None =>
      qbind arg_packagename (fun name =>
      qbind (get_pypi name) (fun r =>
      if r_ok r then qbind (qlift (r_json r)) keep_pypi                   (* 209 *)
      else qret None)) s                                                  (* 205-207 *)
  end.
(** github_json, 235-247 *)
Definition github_json : Q (option J) := fun s =>
  match s_github s with
  | Some j => qret (Some j) s
  | None =>
      qbind (qlift uri_api) (fun uri =>
      qbind (get_github uri) (fun r =>
      if r_ok r then qbind (qlift (r_json r)) keep_github                 (* 245 *)
      else if N.eqb (r_status r) 403 then qbind (qlift (r_json r)) (fun _ => qret None)   (* 241-243: for the log *)
      else qret None)) s
  end.

(** [for package in packages], 408-412; None cannot be gone through *)
Definition module_of (name : str) (packages : option (list str)) : Q ppath :=
  match packages with
  | None => qraise TypeError
  | Some l => if existsb (fun p => str_eqb p name) l
              then qbind (qlift folder) (fun f => qret (pp_join f (pp_parse name)))
              else qraise NotImplementedExn
  end.
(** module, 398-412 *)
Definition module : Q ppath :=
  if sk then
    qbind setup_kwargs (fun k =>
      match k_name k, k_packages k with
      | None, _ | _, None => qraise KeyError
      | Some n, Some l => module_of n l
      end)
  else
    qbind arg_packagename (fun n =>
    qbind setup_dist (fun o =>
      match o with
      | ODist d => module_of n (d_packages d)
      | OTriple _ => qraise AttributeError
      end)).
(** module_init_file, 394-396 *)
Definition module_init_file : Q ppath := qbind module (fun m => qret (pp_join m (pp_parse $"__init__.py"))).

(** The attributes a user reads, and the answers *)
Inductive attr : Set := ADist | AKwargs | AName | AModule | AInit | APypi | AGithub.
Inductive value : Type :=
| VDist (o : outcome) | VKwargs (k : kwargs) | VName (n : str) | VPath (p : ppath) | VJson (j : option J).
Definition qmap {A} (f : A -> value) (m : Q A) : Q value := qbind m (fun a => qret (f a)).
Definition read (a : attr) : Q value :=
  match a with
  | ADist => qmap VDist setup_dist
  | AKwargs => qmap VKwargs setup_kwargs
  | AName => qmap VName arg_packagename
  | AModule => qmap VPath module
  | AInit => qmap VPath module_init_file
  | APypi => qmap VJson pypi_json
  | AGithub => qmap VJson github_json
  end.
(** One after the other: what was read, the answer, and what was asked for it *)
Record reading : Type := mkReading { x_attr : attr; x_value : res value; x_asked : list question }.
Fixpoint readings (l : list attr) (s : mstate) : list reading :=
  match l with
  | [] => []
  | a :: r => let '(v, s1, q) := read a s in mkReading a v q :: readings r s1
  end.
End Memo.
