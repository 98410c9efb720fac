(** * The folder of a package: /repo/augpathlib/package.py:298-302, 414-430, 444-446

    Simplified: texts of exceptions are not built. *)
From Coq Require Import String NArith ZArith Bool List.
From Verif Require Import Model.Py Model.PurePath Model.RelPath Model.Fs Model.PathOps Model.DataDir Model.Repo.
Import ListNotations.

Section Folder.
Variable far : node -> place -> ppath -> res ppath.
Variable home_of : str -> res ppath.

(** folder, 418-430, for absolute paths without ".."; the parts from the last.  [glob] of
    a plain name tests [is_dir] again and then [exists] (pathlib of python 3.11). *)
Fixpoint folder_abs (parts : list str) : M ppath :=
  let self := mkPP true (rev parts) in
  let! d <- p_is_dir self ;
  let! s <- (if d then let! d' <- p_is_dir self ;
                       if d' then p_exists (child self $"setup.py") else ret false
             else ret false) ;
  if s then ret self
  else match parts with
       | [] => raise ValueError                                          (* 427-428 *)
       | _ :: r => folder_abs r
       end.
Definition folder (p : ppath) : M ppath :=
  if (negb (pp_abs p) || existsb (str_eqb $"..") (pp_parts p))%bool
  then let! q <- p_resolve far p ; folder_abs (rev (pp_parts q))
  else folder_abs (rev (pp_parts p)).

(** setup_file, 414-416 *)
Definition setup_file (p : ppath) : M ppath := let! f <- folder p ; ret (child f $"setup.py").

(** tag_prefix, 298-302 *)
Definition tag_prefix (p : ppath) : M bool :=
  let! s <- setup_file p ;
  let! w <- working_dir home_of p ;
  ret (match w with Some w => negb (pp_eqb (pp_parent s) w) | None => true end).

(** arg_folder, 444-446 *)
Definition arg_folder (p : ppath) : M ppath :=
  let! f <- folder p ;
  let! w <- working_dir home_of p ;
  match w with
  | None => raise AttributeError
  | Some w => lift (relative_to f (pp_parent w))
  end.
End Folder.
