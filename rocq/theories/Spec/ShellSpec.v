(** * How a POSIX shell reads a command

    The words of the first simple command, by XCU 2.2 (quoting) and 2.3 (token
    recognition).  [None]: the line is not such a list of words -- it has an
    expansion, a pattern, another operator, a comment or an open quote.
    A bar ends the command; what follows it is kept.  Braces and exclamation marks
    are not plain here, since bash expands them. *)
From Coq Require Import String NArith ZArith Bool List.
From Verif Require Import Model.Py.
Import ListNotations.
Local Open Scope N_scope.

Definition blank (c : N) : bool := ((c =? 32) || (c =? 9))%bool.
(** newline ! $ & ( ) * ; < > ? [ ` { *)
Definition special (c : N) : bool :=
  existsb (N.eqb c) [10; 33; 36; 38; 40; 41; 42; 59; 60; 62; 63; 91; 96; 123].
(** # and ~, only at the start of a word *)
Definition special_first (c : N) : bool := ((c =? 35) || (c =? 126))%bool.
(** Inside double quotes a backslash quotes only these: newline DQ $ BS ` *)
Definition escapable (c : N) : bool := existsb (N.eqb c) [10; 34; 36; 92; 96].

Inductive st : Type :=
| Out                 (* between words *)
| Wd (w : str)        (* in a word *)
| Single (w : str)    (* between single quotes *)
| Double (w : str).   (* between double quotes *)

Definition word (w : str) (r : option (list str * option str)) : option (list str * option str) :=
  match r with Some (l, rest) => Some (w :: l, rest) | None => None end.

Fixpoint lex (q : st) (s : str) : option (list str * option str) :=
  match s with
  | [] => match q with
          | Out => Some ([], None) | Wd w => Some ([w], None) | _ => None end
  | c :: r =>
      match q with
      | Single w => if c =? 39 then lex (Wd w) r else lex (Single (w ++ [c])) r
      | Double w =>
          if c =? 34 then lex (Wd w) r
          else if ((c =? 36) || (c =? 96))%bool then None
          else if c =? 92 then
            match r with
            | d :: r' => if escapable d
                         then lex (Double (if d =? 10 then w else w ++ [d])) r'
                         else lex (Double (w ++ [c])) r
            | [] => None
            end
          else lex (Double (w ++ [c])) r
      | Out =>
          if blank c then lex Out r
          else if c =? 124 then Some ([], Some r)
          else if (special c || special_first c)%bool then None
          else if c =? 39 then lex (Single []) r
          else if c =? 34 then lex (Double []) r
          else if c =? 92 then
            match r with
            | d :: r' => if d =? 10 then lex Out r' else lex (Wd [d]) r'
            | [] => None
            end
          else lex (Wd [c]) r
      | Wd w =>
          if blank c then word w (lex Out r)
          else if c =? 124 then Some ([w], Some r)
          else if special c then None
          else if c =? 39 then lex (Single w) r
          else if c =? 34 then lex (Double w) r
          else if c =? 92 then
            match r with
            | d :: r' => if d =? 10 then lex (Wd w) r' else lex (Wd (w ++ [d])) r'
            | [] => None
            end
          else lex (Wd (w ++ [c])) r
      end
  end.

(** The words of the first command of a line. *)
Definition words (line : str) : option (list str) := option_map fst (lex Out line).

(** The commands below are given these words. *)
Definition runs (line : str) (l : list str) : Prop := words line = Some l.

(** ** Paths *)
(** Can stand between double quotes. *)
Definition quotable (p : str) : Prop :=
  ~ In 34 p /\ ~ In 36 p /\ ~ In 96 p /\
  (forall a b, p <> a ++ [92; 92] ++ b) /\ (forall a b, p <> a ++ [92; 10] ++ b) /\
  (forall a, p <> a ++ [92]).
(** Can stand without quotes. *)
Definition bare (p : str) : Prop :=
  p <> [] /\ special_first (hd 0 p) = false /\
  forall c, In c p -> blank c = false /\ special c = false /\ c <> 124 /\ c <> 39 /\ c <> 34 /\ c <> 92.
(** Survives being shown by repr. *)
Definition showable (printable : N -> bool) (p : str) : Prop :=
  (forall c, In c p -> printable c = true /\ c <> 9 /\ c <> 10 /\ c <> 13) /\
  ((~ In 39 p /\ ~ In 92 p) \/ (In 39 p /\ ~ In 34 p /\ ~ In 36 p /\ ~ In 96 p)).
