(** * The size of a local path: LocalPath.size and _stat, /repo/augpathlib/core.py:1192-1216 *)
From Coq Require Import String NArith ZArith Bool List.
From Verif Require Import Model.Py Model.PurePath Model.Fs Model.Stat.
Import ListNotations.

(** [out.strip(b'"').rstrip().rstrip(b'"')], 1200; bytes.rstrip takes blanks, tabs, newlines,
    returns, and vertical and form feeds away. *)
Fixpoint drop_while (f : Byte.byte -> bool) (b : bytes) : bytes :=
  match b with
  | c :: r => if f c then drop_while f r else b
  | [] => []
  end.
Definition bdquote (c : Byte.byte) : bool := N.eqb (Byte.to_N c) 34.
Definition bspace (c : Byte.byte) : bool := (N.eqb (Byte.to_N c) 32 || (N.leb 9 (Byte.to_N c) && N.leb (Byte.to_N c) 13))%bool.
Definition brstrip (f : Byte.byte -> bool) (b : bytes) : bytes := rev (drop_while f (rev b)).
Definition unquoted (b : bytes) : bytes :=
  brstrip bdquote (brstrip bspace (brstrip bdquote (drop_while bdquote b))).

Section Size.
(** What the program stat prints for a name, the place it is, and what is there; and what it
    prints and complains when the name is taken for an option. *)
Variable prints : str -> place -> node -> bytes.
Variable option_out : str -> bytes * bool.
(** [st_size] of stat(2); of a file it is the number of its bytes. *)
Variable dir_size : place -> N.

(** Bytes of a character in the name of a file: those that stand for bytes that are not UTF-8
    (U+DC80 to U+DCFF) are one byte. *)
Definition fs_width (c : N) : N :=
  if (N.leb 56448 c && N.leb c 56575)%bool then 1%N else N.of_nat (length (utf8_enc1 c)).
Definition node_size (q : place) (n : node) : N :=
  match n with
  | File d _ => N.of_nat (length d)
  | Dir _ _ => dir_size q
  | Link t => fold_right (fun c m => fs_width c + m)%N 0%N t
  end.

(** The program, run on a name: what is printed, and whether it complains.  It does not follow
    a link at the end.  A name that begins with a dash is an option. *)
Definition stat_program (p : ppath) : M (bytes * bool) :=
  if startswith (pp_str p) $"-" then ret (option_out (pp_str p))
  else catch (let! qn <- ask (lookup false p) ; ret (prints (pp_str p) (fst qn) (snd qn), false))
         (fun e => match e with OSErr _ => ret ([], true) | _ => raise e end).

(** _stat, 1192-1205; the OSError that is raised has no number, EIO stands for that. *)
Definition local_stat (p : ppath) : M stat_result :=
  let! oe <- stat_program p ;                                             (* 1196-1198 *)
  let out := unquoted (fst oe) in                                         (* 1200 *)
  match out, snd oe with
  | [], true => raise (OSErr EIO)                                         (* 1201-1203 *)
  | _, _ => lift (StatResult out)                                         (* 1205 *)
  end.

(** size, 1207-1216 *)
Definition local_size (p : ppath) : M Z :=
  catch (let! qn <- ask (lookup true p) ; ret (Z.of_N (node_size (fst qn) (snd qn))))
    (fun e => match e with
              | OSErr _ => let! st <- local_stat p ; ret (sr_size st)     (* 1213-1214 *)
              | _ => raise e
              end).
End Size.
