(** * Merging metadata: PrimaryCache._update_meta, /repo/augpathlib/caches.py:1347-1399 *)
From Coq Require Import String NArith ZArith Bool List.
From Verif Require Import Model.Py Model.Meta.
Import ListNotations.

(** Fields whose change means another file, caches.py:1375 *)
Definition telling (f : field) : bool :=
  match f with Fcreated | Fupdated | Fsize | Fchecksum | Ffile_id => true | _ => false end.

(** caches.py:1364 *)
Definition skipped (v : pyval) : bool := (is_none v || empty_iterable v)%bool.

(** caches.py:1369-1370: [.hex()] exists on bytes only *)
Definition hexable (f : field) (a b : pyval) : bool :=
  match f, a, b with
  | Fchecksum, PBytes _, PBytes _ => true
  | Fchecksum, _, _ => false
  | _, _, _ => true
  end.

(** caches.py:1361-1378.  [kw] always has every field (1357), so [kwargs[k]] is
    total. *)
Fixpoint merge_loop (l : list (field * pyval)) (kw : args) (different : bool)
  : res (bool * args) :=
  match l with
  | [] => Ok (different, kw)
  | (k, vnew) :: r =>
      let vold := kw k in                                             (* 1362 *)
      if skipped vnew then merge_loop r kw different                  (* 1364-1366 *)
      else if (negb (is_none vold) && negb (py_eq vold vnew))%bool    (* 1368 *)
      then if hexable k vold vnew
           then merge_loop r (set_arg k vnew kw) (different || telling k)%bool
           else Err AttributeError                                    (* 1370 *)
      else merge_loop r (set_arg k vnew kw) different                 (* 1378 *)
  end.

(** caches.py:1384-1389.  A popped keyword gets its default again; [errors] is a
    tuple and never popped, and all other defaults are None. *)
Fixpoint strip_loop (l : list (field * pyval)) (kw : args) : args :=
  match l with
  | [] => kw
  | (Fold_id, _) :: r => strip_loop r kw
  | (k, vnew) :: r => strip_loop r (if is_none vnew then set_arg k PNone kw else kw)
  end.

Section Merge.
Variable dateparse : pyval -> res pyval.

Definition item_args (l : list (field * pyval)) : args :=
  fun f => match find (fun p => field_eqb (fst p) f) l with
           | Some (_, v) => v | None => no_args f end.

(** caches.py:1355-1399 *)
Definition merge (old new : pathmeta) : res (bool * pathmeta) :=
  do oi <- items dateparse old ;                                      (* 1357 *)
  let kw := item_args oi in
  let kw := if py_eq (m_id old) (m_id new) then kw
            else set_arg Fold_id (m_id old) kw in                     (* 1358-1359 *)
  do ni <- items dateparse new ;                                      (* 1361 *)
  do dk <- merge_loop ni kw false ;
  let kw := if fst dk then strip_loop ni (snd dk) else snd dk in      (* 1380-1389 *)
  do m <- meta_init kw ;                                              (* 1399 *)
  Ok (fst dk, m).

(** The whole method; [None] is Python's None.  caches.py:1349-1353 *)
Definition update_meta (old new : option pathmeta) : res (bool * option pathmeta) :=
  let true_ (m : option pathmeta) := match m with Some x => meta_bool x | None => false end in
  if negb (true_ old) then Ok (false, new)
  else if negb (true_ new) then Ok (false, old)
  else match old, new with
       | Some o, Some n => do r <- merge o n ; Ok (fst r, Some (snd r))
       | _, _ => Ok (false, None)                                     (* unreachable *)
       end.
End Merge.
