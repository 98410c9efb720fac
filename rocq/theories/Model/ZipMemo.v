(** * What zip paths remember: /repo/augpathlib/zip.py:119-176

    The contents of archives are kept in a dictionary of the class (121, 130-134), [c_zips];
    each path object keeps what [zip_path] (155-167) and [zip_relative_path] (138-145) gave,
    [m_zip] and [m_rel].  The parents of a path are new objects each time they are asked for.

    Simplified: [rchildren] is taken to its end at once. *)
From Coq Require Import String NArith Bool List.
From Verif Require Import Model.Py Model.PurePath Model.RelPath Model.Fs Model.PathOps Model.Zip.
Import ListNotations.

(** The files: [zipfile.is_zipfile], what [zipfile.ZipFile] finds, [super().exists()] and
    [super().rchildren] *)
Record disk : Type := mkDisk {
  d_is_zip : ppath -> bool;
  d_zip : ppath -> res (list zinfo);
  d_there : ppath -> bool;
  d_below : ppath -> res (list ppath) }.

(** hasattr is [Some] *)
Record memo : Type := mkMemo { m_zip : option (option ppath); m_rel : option (option (list zinfo * ppath)) }.
Record zmem : Type := mkZmem { c_zips : list (ppath * list zinfo); c_memo : nat -> memo }.

Section Memo.
(** The paths of the objects *)
Variable path_at : nat -> ppath.

Definition known (z : ppath) (c : list (ppath * list zinfo)) : option (list zinfo) :=
  option_map snd (find (fun x => pp_eqb z (fst x)) c).
(** ZipInternalPath, 127-134, where there is a [zip_path] *)
Definition load (d : disk) (z : ppath) (c : list (ppath * list zinfo)) : res (list zinfo) * list (ppath * list zinfo) :=
  match known z c with
  | Some l => (Ok l, c)
  | None => match d_zip d z with
            | Ok l => (Ok l, (z, l) :: c)
            | Err e => (Err e, c)
            end
  end.

Definition taken (d : disk) (pzp : option ppath) (self : ppath) : bool :=
  (match pzp with None => true | Some _ => false end) && dot_zip self || d_is_zip d self.
(** zip_path, 152-167, of a new object; the parts from the last *)
Fixpoint zpath_new (d : disk) (abs : bool) (parts : list str) (c : list (ppath * list zinfo)) : res (option ppath) * list (ppath * list zinfo) :=
  match parts with
  | [] => (Ok None, c)                                                   (* 157-158 *)
  | x :: r =>
      match zpath_new d abs r c with                                     (* 160 *)
      | (Err e, c1) => (Err e, c1)
      | (Ok pzp, c1) =>
          let self := mkPP abs (rev (x :: r)) in
          if taken d pzp self                                            (* 161 *)
          then match load d self c1 with
               | (Ok _, c2) => (Ok (Some self), c2)
               | (Err e, c2) => (Err e, c2)
               end
          else (Ok pzp, c1)
      end
  end.

Definition set_memo (i : nat) (m : memo) (s : zmem) : zmem := mkZmem (c_zips s) (fun j => if Nat.eqb j i then m else c_memo s j).
Definition set_zips (c : list (ppath * list zinfo)) (s : zmem) : zmem := mkZmem c (c_memo s).
Definition set_mzip (i : nat) (v : option ppath) (s : zmem) : zmem := set_memo i (mkMemo (Some v) (m_rel (c_memo s i))) s.
Definition set_mrel (i : nat) (v : option (list zinfo * ppath)) (s : zmem) : zmem := set_memo i (mkMemo (m_zip (c_memo s i)) (Some v)) s.

(** zip_path, 152-167, of the object [i] *)
Definition zpath (d : disk) (i : nat) (s : zmem) : res (option ppath) * zmem :=
  match m_zip (c_memo s i) with
  | Some v => (Ok v, s)                                                  (* 155, 167 *)
  | None =>
      let self := path_at i in
      match rev (pp_parts self) with
      | [] => (Ok None, set_mzip i None s)                               (* 157-158 *)
      | _ :: r =>
          match zpath_new d (pp_abs self) r (c_zips s) with              (* 160 *)
          | (Err e, c) => (Err e, set_zips c s)
          | (Ok pzp, c) =>
              let s := set_zips c s in
              if taken d pzp self
              then let s := set_mzip i (Some self) s in                  (* 162 *)
                   match load d self (c_zips s) with                     (* 163 *)
                   | (Ok _, c) => (Ok (Some self), set_zips c s)
                   | (Err e, c) => (Err e, set_zips c s)
                   end
              else (Ok pzp, set_mzip i pzp s)                            (* 165 *)
          end
      end
  end.
(** zip_relative_path, 136-145 *)
Definition zrel (d : disk) (i : nat) (s : zmem) : res (option (list zinfo * ppath)) * zmem :=
  match m_rel (c_memo s i) with
  | Some v => (Ok v, s)
  | None =>
      match zpath d i (set_mrel i None s) with                           (* 139-140 *)
      | (Err e, s) => (Err e, s)
      | (Ok None, s) => (Ok None, s)
      | (Ok (Some z), s) =>
          match load d z (c_zips s) with                                 (* 142 *)
          | (Err e, c) => (Err e, set_zips c s)
          | (Ok l, c) =>
              let s := set_zips c s in
              match relative_to (path_at i) z with
              | Err e => (Err e, s)
              | Ok q => (Ok (Some (l, q)), set_mrel i (Some (l, q)) s)
              end
          end
      end
  end.

(** exists, 123-125 *)
Definition q_exists (d : disk) (i : nat) (s : zmem) : res bool * zmem :=
  match zpath d i s with
  | (Err e, s) => (Err e, s)
  | (Ok zp, s) =>
      if (match zp with None => true | Some _ => false end) && d_there d (path_at i) then (Ok true, s)
      else match zrel d i s with
           | (Err e, s) => (Err e, s)
           | (Ok None, s) => (Err AttributeError, s)
           | (Ok (Some (l, q)), s) => (Ok (z_exists l q), s)
           end
  end.
(** rchildren, 169-176 *)
Definition q_rchildren (d : disk) (i : nat) (s : zmem) : res (list ppath) * zmem :=
  match zpath d i s with
  | (Err e, s) => (Err e, s)
  | (Ok None, s) => (d_below d (path_at i), s)
  | (Ok (Some z), s) =>
      match zrel d i s with
      | (Err e, s) => (Err e, s)
      | (Ok None, s) => (Err AttributeError, s)
      | (Ok (Some (l, q)), s) => (Ok (map (pp_join z) (z_rchildren l q)), s)
      end
  end.

(** What users do: ask, or change the files. *)
Inductive question : Set := QExists | QRchildren.
Inductive answer : Type := AExists (r : res bool) | ARchildren (r : res (list ppath)).
Inductive event : Type := Ask (i : nat) (q : question) | Change (d : disk).
Definition ask_one (d : disk) (i : nat) (q : question) (s : zmem) : answer * zmem :=
  match q with
  | QExists => let (r, s) := q_exists d i s in (AExists r, s)
  | QRchildren => let (r, s) := q_rchildren d i s in (ARchildren r, s)
  end.
Fixpoint answers (es : list event) (d : disk) (s : zmem) : list (disk * nat * question * answer) :=
  match es with
  | [] => []
  | Ask i q :: es => let (a, s) := ask_one d i q s in (d, i, q, a) :: answers es d s
  | Change d :: es => answers es d s
  end.
Definition fresh : zmem := mkZmem [] (fun _ => mkMemo None None).
End Memo.
