(** * Relative paths: /repo/augpathlib/core.py:510-532 *)
From Coq Require Import String NArith ZArith Bool List.
From Verif Require Import Model.Py Model.PurePath.
Import ListNotations.

(** The prefix loop at the end of [os.path.commonpath]; of two lists the least
    and the greatest are the two themselves. *)
Fixpoint common_prefix (a b : list str) : list str :=
  match a, b with
  | x :: a', y :: b' => if str_eqb x y then x :: common_prefix a' b' else []
  | _, _ => []
  end.

(** [os.path.commonpath((a, b))] of two texts, posixpath *)
Definition os_commonpath (a b : str) : res str :=
  let isabs s := startswith s $"/" in
  if Bool.eqb (isabs a) (isabs b) then
    let c s := filter real_part (split (chr "/") s) in
    Ok ((if isabs a then $"/" else []) ++ join $"/" (common_prefix (c a) (c b)))
  else Err ValueError.

(** commonpath, core.py:510-511; an empty text is the path "." *)
Definition commonpath (a b : ppath) : res ppath :=
  do s <- os_commonpath (pp_str a) (pp_str b) ; Ok (pp_parse s).

(** [PurePosixPath.relative_to] *)
Definition relative_to (p base : ppath) : res ppath :=
  if (Bool.eqb (pp_abs p) (pp_abs base) && prefixb str_eqb (pp_parts base) (pp_parts p))%bool
  then Ok (mkPP false (skipn (length (pp_parts base)) (pp_parts p)))
  else Err ValueError.

(** to_relative, core.py:513-522 *)
Definition to_relative (p other : ppath) : res ppath :=
  do rp <- relative_to p other ;
  Ok (pp_of_list (map (fun _ => $"..") (removelast (parts rp)))).

(** relative_path_from, core.py:528-532 *)
Definition relative_path_from (p other : ppath) : res ppath :=
  do base <- commonpath p other ;
  do ort <- to_relative other base ;
  do r <- relative_to p base ;
  Ok (pp_join ort r).

(** relative_path_to, core.py:524-526 *)
Definition relative_path_to (p other : ppath) : res ppath := relative_path_from other p.
