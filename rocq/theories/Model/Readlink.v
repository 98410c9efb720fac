(** * Reading a link: /repo/augpathlib/core.py:483-492 *)
From Coq Require Import String NArith ZArith Bool List.
From Verif Require Import Model.Py Model.PurePath Model.Fs.
Import ListNotations.

(** [p.readlink(raw=True)], core.py:485-490: os.readlink gives text, so that 486-487
    do not apply. *)
Definition p_readlink_raw (p : ppath) : M str := sys_readlink p.

(** [p.readlink()], core.py:492 *)
Definition p_readlink (p : ppath) : M ppath :=
  let! link <- sys_readlink p ; ret (pp_parse link).

(** [p.parent / p.readlink()], how one follows a link by hand. *)
Definition p_by_hand (p : ppath) : M ppath :=
  let! t <- p_readlink p ; ret (pp_join (pp_parent p) t).
