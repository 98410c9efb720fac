(** * Paths inside zip files, /repo/augpathlib/zip.py

    Simplified: [_paths] is a dictionary built from a set, whose order depends on
    hashes; here it is in the order of the archive.  What a path remembers
    (138-145, 155-167) is computed again here, and is in ZipMemo.  Reading the data of an entry
    is in ZipRead. *)
From Coq Require Import String NArith Bool List.
From Verif Require Import Model.Py Model.PurePath Model.RelPath Model.Fs Model.PathOps.
Import ListNotations.

(** A [ZipInfo]: its name, and which one it is. *)
Record zinfo : Type := mkZinfo { z_name : str; z_index : N }.
(** [ZipInfo.is_dir]: the name ends in "/" *)
Definition zi_is_dir (z : zinfo) : bool := prefixb N.eqb $"/" (rev (z_name z)).

(** [p.parents] *)
Definition pp_parents (p : ppath) : list ppath :=
  map (fun k => mkPP (pp_abs p) (firstn k (pp_parts p))) (rev (seq 0 (length (pp_parts p)))).

(** [set(...)]: of equal ones the first is kept *)
Fixpoint once {A} (l : list (ppath * A)) : list (ppath * A) :=
  match l with
  | [] => []
  | x :: r => x :: filter (fun y => negb (pp_eqb (fst x) (fst y))) (once r)
  end.

(** _new, 18-27; __new__, 29-44: paths made by [parents] have no [_zi], and of equal
    paths the union keeps those *)
Definition zip_paths (l : list zinfo) : list (ppath * option zinfo) :=
  let paths := once (map (fun z => (pp_parse (z_name z), Some z)) l) in
  let above := map (fun p => (p, None)) (flat_map (fun x => pp_parents (fst x)) paths) in
  once (above ++ paths).

(** exists, 72-73 *)
Definition z_exists (l : list zinfo) (p : ppath) : bool := existsb (fun x => pp_eqb p (fst x)) (zip_paths l).
(** [_zi]; a path that is not in the archive has none *)
Definition z_info (l : list zinfo) (p : ppath) : option zinfo :=
  match find (fun x => pp_eqb p (fst x)) (zip_paths l) with
  | Some (_, i) => i
  | None => None
  end.
(** is_dir, 75-76 *)
Definition z_is_dir (l : list zinfo) (p : ppath) : bool :=
  match z_info l p with None => true | Some z => zi_is_dir z end.
(** rchildren, 56-61 *)
Definition z_rchildren (l : list zinfo) (p : ppath) : list ppath :=
  filter (fun q => existsb (pp_eqb p) (pp_parents q)) (map fst (zip_paths l)).
(** children, 63-70 *)
Definition z_children (l : list zinfo) (p : ppath) : list ppath :=
  filter (fun q => negb (pp_eqb q p) && pp_eqb p (pp_parent q)) (map fst (zip_paths l)).
(** open, 85-92: the entry that is opened *)
Definition z_open (l : list zinfo) (p : ppath) : res zinfo :=
  match z_info l p with
  | Some z => if zi_is_dir z then Err (OSErr EISDIR) else Ok z
  | None => Err (OSErr EISDIR)
  end.

(** ** Paths on the disk that may be in a zip file, 119-183 *)
Section Disk.
(** [zipfile.is_zipfile], what [zipfile.ZipFile] finds in a file, and
    [super().exists()] *)
Variable is_zipfile : ppath -> bool.
Variable zip_file : ppath -> res (list zinfo).
Variable on_disk : ppath -> bool.

(** [self.suffix == '.zip'] *)
Definition dot_zip (p : ppath) : bool :=
  prefixb N.eqb (rev $".zip") (rev (pp_name p)) && Nat.ltb 4 (length (pp_name p)).

(** zip_path, 152-167; the parts from the last *)
Fixpoint zip_path_of (abs : bool) (parts : list str) : res (option ppath) :=
  match parts with
  | [] => Ok None
  | x :: r =>
      do pzp <- zip_path_of abs r ;
      let self := mkPP abs (rev (x :: r)) in
      if (match pzp with None => true | Some _ => false end) && dot_zip self || is_zipfile self
      then do _ <- zip_file self ; Ok (Some self)                         (* 162-163, 127-134 *)
      else Ok pzp
  end.
Definition zip_path (p : ppath) : res (option ppath) := zip_path_of (pp_abs p) (rev (pp_parts p)).

(** zip_relative_path, 136-145 *)
Definition zip_relative_path (p : ppath) : res (option (list zinfo * ppath)) :=
  do zp <- zip_path p ;
  match zp with
  | None => Ok None
  | Some z => do l <- zip_file z ; do r <- relative_to p z ; Ok (Some (l, r))
  end.

(** exists, 123-125 *)
Definition zp_exists (p : ppath) : res bool :=
  do zp <- zip_path p ;
  if (match zp with None => true | Some _ => false end) && on_disk p then Ok true
  else do r <- zip_relative_path p ;
       match r with
       | None => Err AttributeError
       | Some (l, q) => Ok (z_exists l q)
       end.

(** rchildren, 169-176, [None] where those of the class above are taken *)
Definition zp_rchildren (p : ppath) : res (option (list ppath)) :=
  do zp <- zip_path p ;
  match zp with
  | None => Ok None
  | Some z =>
      do r <- zip_relative_path p ;
      match r with
      | None => Err AttributeError
      | Some (l, q) => Ok (Some (map (pp_join z) (z_rchildren l q)))
      end
  end.
End Disk.
