(** * pathlib.PurePosixPath, the part of the standard library augpathlib relies on *)
From Coq Require Import String NArith ZArith Bool List.
From Verif Require Import Model.Py.
Import ListNotations.

(** [pp_parts] are the components after the root.  Simplification: a text with
    exactly two leading slashes keeps the root "//" in Python, here it has the
    root "/"; augpathlib never builds one. *)
Record ppath : Type := mkPP { pp_abs : bool; pp_parts : list str }.

(** empty and "." components are dropped when a path is parsed *)
Definition real_part (s : str) : bool := negb (str_eqb s [] || str_eqb s $".").

(** [PurePosixPath(s)] *)
Definition pp_parse (s : str) : ppath :=
  mkPP (startswith s $"/") (filter real_part (split (chr "/") s)).

(** [a / b] *)
Definition pp_join (a b : ppath) : ppath :=
  if pp_abs b then b else mkPP (pp_abs a) (pp_parts a ++ pp_parts b).

(** [PurePosixPath( *l )] *)
Definition pp_of_list (l : list str) : ppath :=
  fold_left (fun acc s => pp_join acc (pp_parse s)) l (mkPP false []).

(** [p.parts] *)
Definition parts (p : ppath) : list str :=
  if pp_abs p then $"/" :: pp_parts p else pp_parts p.

(** [p.parent] *)
Definition pp_parent (p : ppath) : ppath := mkPP (pp_abs p) (removelast (pp_parts p)).

(** [str(p)] *)
Definition pp_str (p : ppath) : str :=
  match pp_abs p, pp_parts p with
  | false, [] => $"."
  | false, l => join $"/" l
  | true, l => $"/" ++ join $"/" l
  end.

(** [p.name] *)
Definition pp_name (p : ppath) : str := last (pp_parts p) [].
