(** * What an ssh remote is called: /repo/augpathlib/remotes.py:527-569, 632-745

    Of python before 3.12.  Simplified: of the object only the path is kept; the cache that
    [parent] hands on, the session and the class are not. *)
From Coq Require Import String NArith ZArith Bool List.
From Verif Require Import Model.Py Model.PurePath Model.RemoteTree.
Import ListNotations.

(** [s.split(c, 1)]: [None] when the separator does not occur *)
Fixpoint split1 (c : N) (s : str) : option (str * str) :=
  match s with
  | [] => None
  | x :: r => if N.eqb x c then Some ([], r)
              else match split1 c r with Some (a, b) => Some (x :: a, b) | None => None end
  end.

(** init, 670-682: the host and the anchor of "host:path" *)
Definition ssh_init (host_path : str) : res (str * ppath) :=
  match split1 (chr ":") host_path with
  | Some (host, path) => Ok (host, pp_parse path)
  | None => Err ValueError
  end.

(** What a remote is made of: a text, or a path of any class *)
Inductive naming : Type := NText (s : str) | NPath (p : ppath).

(** __new__, 632-645 *)
Definition ssh_new (host : str) (a : naming) : ppath :=
  match a with
  | NText s =>
      if startswith s (host ++ $":") then
        match split1 (chr ":") s with Some (_, r) => pp_parse r | None => pp_parse s end
      else pp_parse s
  | NPath p => p
  end.

(** id, 744-745, with rpath, 754-780 *)
Definition ssh_id (host : str) (anchor self : ppath) : str := host ++ $":" ++ pp_str (ssh_rpath anchor self).
(** parent, 726-741 *)
Definition ssh_parent (self : ppath) : ppath :=
  if str_eqb (pp_str (pp_parent self)) (pp_str self) then self else pp_parent self.

(** What a remote can be compared with: another remote, something that is false, something
    without an id *)
Inductive other : Type := ORemote (host : str) (anchor p : ppath) | OFalse | ONoId.
(** __eq__, 565-566 *)
Definition ssh_eq (host : str) (anchor self : ppath) (o : other) : res bool :=
  match o with
  | ORemote host' anchor' p => Ok (str_eqb (ssh_id host anchor self) (ssh_id host' anchor' p))
  | OFalse => Ok false
  | ONoId => Err AttributeError
  end.

(** parents, 526-535.  One unit of fuel for each path. *)
Fixpoint parents_from (fuel : nat) (host : str) (anchor parent : ppath) : res (list ppath) :=
  match fuel with
  | O => Err OutOfFuel
  | S f =>
      let next := ssh_parent parent in
      do same <- ssh_eq host anchor next (ORemote host anchor parent) ;
      if same then Ok [parent]
      else do r <- parents_from f host anchor next ; Ok (parent :: r)
  end.
Definition ssh_parents (host : str) (anchor self : ppath) : res (list ppath) :=
  parents_from (S (length (pp_parts self))) host anchor (ssh_parent self).
