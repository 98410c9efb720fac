(** * What the standard library says of a name *)
From Coq Require Import String NArith ZArith Bool List.
From Verif Require Import Model.Py Model.PurePath Model.Fs Model.Mime.
Import ListNotations.

(** Letters and digits of ASCII, and "_", ".", "-", "~" and "/". *)
Definition plain_text (s : str) : Prop := forall c, In c s -> safe c = true.
(** A table with plain suffixes only. *)
Definition plain_table (types : str -> option str) : Prop := forall k, types k <> None -> plain_text k.
(** What comes after a dot is plain. *)
Definition plain_suffixes (name : str) : Prop := forall a b, name = a ++ chr "." :: b -> plain_text b.
Definition readable (types : str -> option str) (name : str) : Prop := plain_table types \/ plain_suffixes name.

(** The type of a name: what the standard library says of the name itself, or else the
    table of the user. *)
Definition kind (types : str -> option str) (custom : list str -> option str) (name : str) : option str :=
  match fst (guess types name) with Some (c :: m) => Some (c :: m) | _ => custom (suffixes name) end.
Definition coding (types : str -> option str) (name : str) : option str := snd (guess types name).

(** A name without a separator, at the end of a path. *)
Definition ends_in (p : ppath) (name : str) : Prop := exists l, pp_parts p = l ++ [name] /\ ~ In (chr "/") name.
Definition no_directory (fs : node) (cwd : place) (p : ppath) : Prop :=
  forall q xs es, walk fs cwd true p <> Found q (Dir xs es).

(** The suffixes of a name: after the dots it begins with and a stem without dots, the parts that
    begin with a dot; none when it ends with one. *)
Definition suffixes_of (name : str) (l : list str) : Prop :=
  ((exists a, name = a ++ [chr "."]) /\ l = []) \/
  (~ (exists a, name = a ++ [chr "."]) /\
   exists k stem ts, name = repeat (chr ".") k ++ stem ++ concat l /\ l = map (cons (chr ".")) ts /\
     (forall x, In x (stem :: ts) -> ~ In (chr ".") x) /\ (name <> [] -> stem <> [])).
