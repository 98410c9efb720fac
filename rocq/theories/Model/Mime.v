(** * Types of files by their names: /repo/augpathlib/core.py:748-775

    The table of types comes from the system; the tables of suffixes and of encodings
    are those of the standard library (Python 3.11, mimetypes). *)
From Coq Require Import String NArith ZArith Bool List.
From Verif Require Import Model.Py Model.PurePath Model.Fs Model.PathOps Model.Cache Model.DataDir.
Import ListNotations.

(** ** The standard library *)

(** What comes before the last [c], and the rest with it *)
Fixpoint last_at (c : N) (s : str) : option (str * str) :=
  match s with
  | [] => None
  | x :: r => match last_at c r with
              | Some (a, b) => Some (x :: a, b)
              | None => if N.eqb x c then Some ([], s) else None
              end
  end.
(** [posixpath.splitext]: from the last dot of the last part, if something other than
    a dot comes before it *)
Definition splitext (p : str) : str * str :=
  match last_at (chr ".") p with
  | None => (p, [])
  | Some (b, e) =>
      if has (chr "/") e then (p, [])
      else if existsb (fun c => negb (N.eqb c (chr "."))) (match last_at (chr "/") b with Some (_, t) => tl t | None => b end)
           then (b, e) else (p, [])
  end.
(** [lower] for the letters of ASCII *)
Definition low (c : N) : N := if (N.leb 65 c && N.leb c 90)%bool then (c + 32)%N else c.
Definition suffix_map : list (str * str) :=
  [($".svgz", $".svg.gz"); ($".tgz", $".tar.gz"); ($".taz", $".tar.gz"); ($".tz", $".tar.gz");
   ($".tbz2", $".tar.bz2"); ($".txz", $".tar.xz")].
Definition encodings_map : list (str * str) :=
  [($".gz", $"gzip"); ($".Z", $"compress"); ($".bz2", $"bzip2"); ($".xz", $"xz"); ($".br", $"br")].
Definition in_table (t : list (str * str)) (k : str) : option str :=
  match find (fun e => str_eqb (fst e) k) t with Some (_, v) => Some v | None => None end.
(** The loop over the suffixes; with the table above it ends after one round
    ([expand_once] in Proofs/MimeProofs.v) *)
Definition expand (be : str * str) : str * str :=
  match in_table suffix_map (map low (snd be)) with Some x => splitext (fst be ++ x) | None => be end.
(** [MimeTypes.guess_type] for a path *)
Definition guess (types : str -> option str) (path : str) : option str * option str :=
  let be := expand (splitext path) in
  match in_table encodings_map (snd be) with
  | Some c => (types (map low (snd (splitext (fst be)))), Some c)
  | None => (types (map low (snd be)), None)
  end.

(** [quote_from_bytes] with "/" safe *)
Definition safe (c : N) : bool :=
  (N.leb 65 c && N.leb c 90 || N.leb 97 c && N.leb c 122 || N.leb 48 c && N.leb c 57 ||
   existsb (N.eqb c) [chr "_"; chr "."; chr "-"; chr "~"; chr "/"])%bool.
Definition hex_digit (n : N) : N := if N.ltb n 10 then (48 + n)%N else (55 + n)%N.
Definition escape (b : N) : str := [chr "%"; hex_digit (b / 16); hex_digit (b mod 16)].
(** [os.fsencode] of one character; surrogates that do not stand for a byte are refused
    by it, which is not modelled *)
Definition fs_bytes (c : N) : list N :=
  if (N.leb 56448 c && N.leb c 56575)%bool then [(c - 56320)%N] else utf8_enc1 c.
Definition quote1 (c : N) : str := if safe c then [c] else flat_map escape (fs_bytes c).
Definition quote (s : str) : str := flat_map quote1 s.
(** [PurePath.suffixes] *)
Fixpoint lstrip_dots (s : str) : str :=
  match s with c :: r => if N.eqb c (chr ".") then lstrip_dots r else s | [] => [] end.
Definition suffixes (name : str) : list str :=
  if N.eqb (last name 0%N) (chr ".") then []
  else map (fun s => chr "." :: s) (tl (split (chr ".") (lstrip_dots name))).

Section Mime.
Variable far : node -> place -> ppath -> res ppath.
Variable types : str -> option str.
(** _suffix_mimetypes, which the package leaves to its users *)
Variable custom : list str -> option str.

(** [guess_type(self.as_uri())]: of "file://" and the quoted path the path is taken *)
Definition guess_uri (p : ppath) : option str * option str := guess types (quote (pp_str p)).
Definition p_absolute (p : ppath) : M ppath :=
  ask (fun _ cwd => Ok (if pp_abs p then p else mkPP true (cwd ++ pp_parts p))).

(** mimetype, core.py:748-766 *)
Definition mimetype (p : ppath) : M (option str) :=
  let! d <- p_is_dir p ;
  if d then ret (Some $"inode/directory")
  else
    let! p <- (if pp_abs p then ret p
               else let! b <- p_is_broken_symlink p ;
                    if b then p_absolute p else p_resolve far p) ;
    ret (match fst (guess_uri p) with
         | Some m => match m with [] => custom (suffixes (pp_name p)) | _ => Some m end
         | None => custom (suffixes (pp_name p))
         end).
(** encoding, core.py:768-775 *)
Definition encoding (p : ppath) : M (option str) :=
  let! p <- (if pp_abs p then ret p else p_resolve far p) ;
  ret (snd (guess_uri p)).
End Mime.
