(** * What the program stat prints, and sizes *)
From Coq Require Import String NArith ZArith Bool List.
From Verif Require Import Model.Py Model.PurePath Model.Fs Model.LocalSize Spec.StatSpec.
Import ListNotations.

(** The program prints the line of C38 for the thing, in double quotes, with the name as it was
    given, and the size.  (Names that are UTF-8.) *)
Definition prints_line (dir_size : place -> N) (prints : str -> place -> node -> bytes) : Prop :=
  forall name q n, (exists b, utf8_enc name = Some b) ->
    exists i, good_info i /\ in_name i = name /\ in_size i = node_size dir_size q n /\
      utf8_enc ($"""" ++ stat_line i ++ $"""" ++ [10%N]) = Some (prints name q n).

(** Texts that can be given to the program: UTF-8, not options. *)
Definition usable (s : str) : Prop := (exists b, utf8_enc s = Some b) /\ startswith s $"-" = false.
