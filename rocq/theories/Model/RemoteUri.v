(** * Where a path is on GitHub: /repo/augpathlib/repo.py:32-38, 146-200,
    package.py:432-442

    [urllib.parse.urlparse] and [with_suffix] of python 3.11.  Simplified: the parts of a
    url after its path are not kept; a host with both square brackets, or with characters
    that are not ascii, is not looked at further; log messages are not built. *)
From Coq Require Import String NArith ZArith Bool List.
From Verif Require Import Model.Py Model.PurePath.
Import ListNotations.

(** ** urllib.parse *)

(** The longest beginning all of which passes, and the rest *)
Fixpoint span (f : N -> bool) (s : str) : str * str :=
  match s with
  | [] => ([], [])
  | c :: r => if f c then let (a, b) := span f r in (c :: a, b) else ([], s)
  end.
Definition upto (stops s : str) : str * str := span (fun c => negb (has c stops)) s.

Definition is_upper (c : N) : bool := (N.leb 65 c && N.leb c 90)%bool.
Definition is_lower (c : N) : bool := (N.leb 97 c && N.leb c 122)%bool.
Definition is_alpha (c : N) : bool := (is_upper c || is_lower c)%bool.
Definition lower (c : N) : N := if is_upper c then (c + 32)%N else c.
Definition scheme_char (c : N) : bool := (is_alpha c || is_digit c || has c $"+-.")%bool.

(** the scheme, where there is one, and the rest *)
Definition split_scheme (s : str) : str * str :=
  let (a, r) := upto $":" s in
  match a, r with
  | c :: _, _ :: rest => if (is_alpha c && forallb scheme_char a)%bool then (map lower a, rest) else ([], s)
  | _, _ => ([], s)
  end.

Definition uses_params (scheme : str) : bool :=
  existsb (str_eqb scheme) [[]; $"ftp"; $"hdl"; $"prospero"; $"http"; $"imap"; $"https"; $"shttp"; $"rtsp"; $"rtspu"; $"sip"; $"sips"; $"mms"; $"sftp"; $"tel"].
(** _splitparams *)
Definition strip_params (s : str) : str :=
  match rsplit1 (chr "/") s with
  | Some (a, b) => a ++ $"/" ++ fst (upto $";" b)
  | None => fst (upto $";" s)
  end.

Record url : Type := mkUrl { u_scheme : str; u_netloc : str; u_path : str }.
Definition url_unsafe (c : N) : bool := (N.eqb c 9 || N.eqb c 10 || N.eqb c 13)%bool.
Definition urlparse (s : str) : res url :=
  let s := snd (span (fun c => N.leb c 32) s) in
  let s := filter (fun c => negb (url_unsafe c)) s in
  let (scheme, r) := split_scheme s in
  let (netloc, r) := if startswith r $"//" then upto $"/?#" (skipn 2 r) else ([], r) in
  if negb (Bool.eqb (has (chr "[") netloc) (has (chr "]") netloc)) then Err ValueError
  else
    let p := fst (upto $"#" r) in
    let p := fst (upto $"?" p) in
    Ok (mkUrl scheme netloc (if uses_params scheme then strip_params p else p)).

(** ** pathlib *)

(** [PurePath.stem] of the name *)
Definition stem (name : str) : str :=
  match rsplit1 (chr ".") name with
  | Some ((_ :: _) as a, _ :: _) => a
  | _ => name
  end.
(** [p.with_suffix('')] *)
Definition no_suffix (p : ppath) : res ppath :=
  match pp_name p with
  | [] => Err ValueError
  | name => Ok (mkPP (pp_abs p) (removelast (pp_parts p) ++ [stem name]))
  end.

(** ** repo.py *)

(** clone_path, 32-38 *)
Definition clone_path (self : ppath) (remote : str) : ppath :=
  pp_join self (pp_parse (stem (pp_name (pp_parse remote)))).

(** _remote_helper, 146-162, of the first url of the remote: the url, the host and the
    path *)
Definition remote_helper (url0 : str) : res (str * str * str) :=
  let base := if startswith url0 $"git@" then $"ssh://" ++ url0 else url0 in   (* 151-152 *)
  do u <- urlparse base ;
  if startswith (u_netloc u) $"git@github.com" then                      (* 157-160 *)
    match split (chr ":") (u_netloc u) with
    | [_; group] => Ok (base, $"github.com", $"/" ++ group ++ u_path u)
    | _ => Err ValueError
    end
  else Ok (base, u_netloc u, u_path u).

(** What git tells of the repository of a path: the url of its remote, the branch, the
    path in it *)
Record rfacts : Type := mkRF { f_url : str; f_branch : res str; f_relative : ppath }.

Section Uri.
Variable facts : ppath -> res rfacts.
(** looking for a ref, 174-176, which only warns or raises *)
Variable find_ref : ppath -> str -> res unit.
(** [exists] *)
Variable there : ppath -> bool.

(** _remote_uri, 164-188, for a ref given as text.  [fuel] bounds the number of local repositories on the way;
    without it python's recursion limit does. *)
Fixpoint remote_uri (fuel : nat) (self : ppath) (prefix : str) (infix ref : option str) : res str :=
  match fuel with
  | O => Err OutOfFuel
  | S n =>
    do f <- facts self ;
    do h <- remote_helper (f_url f) ;
    let '(base, netloc, path) := h in
    if str_eqb netloc $"github.com" then
      do rf <- match ref with
               | Some ((_ :: _) as r) => if str_eqb r $"HEAD" then f_branch f else do _ <- find_ref self r ; Ok r
               | _ => f_branch f                                         (* 172-173 *)
               end ;
      do p <- no_suffix (pp_parse path) ;
      let p := match infix with Some i => pp_join p (pp_parse i) | None => p end in
      let p := pp_join (pp_join p (pp_parse rf)) (f_relative f) in       (* 178-181 *)
      Ok (prefix ++ pp_str p)                                            (* 182 *)
    else if (startswith base $"/" && there (pp_parse base))%bool then    (* 183-186 *)
      remote_uri n (pp_join (pp_parse base) (f_relative f)) prefix infix ref
    else Err NotImplementedExn
  end.

(** remote_uri_api, 190-194 *)
Definition remote_uri_api (self : ppath) (endpoint : str) : res str :=
  do f <- facts self ;
  do h <- remote_helper (f_url f) ;
  do p <- no_suffix (pp_parse (snd h)) ;
  Ok ($"https://api.github.com/repos" ++ pp_str p ++ endpoint).

(** remote_uri_human and remote_uri_machine, 196-200 *)
Definition remote_uri_human (fuel : nat) (self : ppath) (ref : option str) : res str :=
  remote_uri fuel self $"https://github.com" (Some $"blob") ref.
Definition remote_uri_machine (fuel : nat) (self : ppath) (ref : option str) : res str :=
  remote_uri fuel self $"https://raw.githubusercontent.com" None ref.

(** arg_org and arg_repo, package.py:432-442 *)
Definition arg_org_repo (fuel : nat) (self : ppath) : res (str * str) :=
  do h <- remote_uri_human fuel self None ;
  do u <- urlparse h ;
  match split (chr "/") (u_path u) with
  | _ :: org :: repo :: _ => Ok (org, repo)
  | _ => Err ValueError
  end.
End Uri.
