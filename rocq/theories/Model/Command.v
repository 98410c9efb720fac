(** * The command that releases a package: /repo/augpathlib/package.py:448-466

    Simplified: the name of the package (448-453) is what setup.py gives, the version is
    what [version_next] gives (Model/Package.v); texts of exceptions are not built. *)
From Coq Require Import String NArith ZArith Bool List.
From Verif Require Import Model.Py Model.PurePath Model.Fs Model.PathOps Model.Version Model.RemoteUri Model.PackageFolder.
Import ListNotations.

(** The text of a version, as [packaging] writes it (its [Version.__str__]) *)
Definition letter_text (l : letter) : str := match l with La => $"a" | Lb => $"b" | Lrc => $"rc" end.
Definition segment_text (s : segment) : str := match s with SNum n => dec_N n | SText t => t end.
Definition version_text (v : version) : str :=
  (if N.eqb (v_epoch v) 0 then [] else dec_N (v_epoch v) ++ $"!") ++
  join $"." (map dec_N (v_release v)) ++
  (match v_pre v with Some (l, n) => letter_text l ++ dec_N n | None => [] end) ++
  (match v_post v with Some n => $".post" ++ dec_N n | None => [] end) ++
  (match v_dev v with Some n => $".dev" ++ dec_N n | None => [] end) ++
  (match v_local v with Some l => $"+" ++ join $"." (map segment_text l) | None => [] end).

Section Command.
Variable facts : ppath -> res rfacts.
Variable find_ref : ppath -> str -> res unit.
Variable there : ppath -> bool.
Variable far : node -> place -> ppath -> res ppath.
Variable home_of : str -> res ppath.

(** command, 460-466; [rest] is empty, since arg_rest, 456-458, is. *)
Definition command (fuel : nat) (next : res version) (name : res str) (self : ppath) : M str :=
  let! nv <- lift next ;
  let! o <- lift (arg_org_repo facts find_ref there fuel self) ;
  let! f <- arg_folder far home_of self ;
  let! n <- lift name ;
  ret ($"build-release " ++ fst o ++ $" " ++ snd o ++ $" " ++ pp_str f ++ $" " ++ n ++ $" " ++ version_text nv).
End Command.
