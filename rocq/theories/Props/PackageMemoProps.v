(** * C102: what a package path asks for, it asks once *)
From Coq Require Import String NArith Bool List.
From Verif Require Import Model.Py Model.PurePath Model.PackageMemo Spec.PackageMemoSpec Proofs.PackageMemoProofs.
Import ListNotations.

(** Once an attribute of a path has given an answer, every later reading of it gives the same answer and
    neither runs setup.py nor asks a server, whatever else was read in between *)
Theorem C102_once :
  forall J sk runs pypi github folder uri_api L t x u,
  readings J sk runs pypi github folder uri_api L (new J) = t ++ x :: u ->
  forall y a v, In y t -> answered J a v y -> x_attr J x = a ->
  x_value J x = Ok v /\ x_asked J x = [].
Proof. exact once. Qed.
Print Assumptions C102_once.

(** Until then every reading asks again, once, and the answer is that of the server to this question:
    neither a failure nor None is remembered *)
Theorem C102_pypi :
  forall J sk runs pypi github folder uri_api L t x u,
  readings J sk runs pypi github folder uri_api L (new J) = t ++ x :: u -> x_attr J x = APypi ->
  (forall y j, In y t -> ~ answered J APypi (VJson J (Some j)) y) ->
  forall y n, In y t -> answered J AName (VName J n) y ->
  x_asked J x = [ToPypi n] /\ x_value J x = of_pypi J (pypi (asked J is_pypi t)).
Proof. exact asks_pypi. Qed.
Print Assumptions C102_pypi.

Theorem C102_github :
  forall J sk runs pypi github folder uri_api L t x u,
  readings J sk runs pypi github folder uri_api L (new J) = t ++ x :: u -> x_attr J x = AGithub ->
  (forall y j, In y t -> ~ answered J AGithub (VJson J (Some j)) y) ->
  forall w, uri_api = Ok w ->
  x_asked J x = [ToGithub w] /\ x_value J x = of_github J (github (asked J is_github t)).
Proof. exact asks_github. Qed.
Print Assumptions C102_github.

(** setup.py is run once in a reading, and only while no earlier run was of use *)
Theorem C102_runs_partial :
  forall J sk runs pypi github folder uri_api L t x u,
  readings J sk runs pypi github folder uri_api L (new J) = t ++ x :: u ->
  ~ In (foreign sk) L -> In ToSetup (x_asked J x) ->
  asked J is_setup [x] = 1 /\ forall i, i < asked J is_setup t -> useless sk (runs i).
Proof. exact runs_again. Qed.
Print Assumptions C102_runs_partial.

(** The module is the directory of the name that setup.py gave in the first run of use, and there is one
    exactly where that name is among the packages *)
Theorem C102_module :
  forall J sk runs pypi github folder uri_api L t x u p,
  readings J sk runs pypi github folder uri_api L (new J) = t ++ x :: u ->
  ~ In (foreign sk) L -> x_attr J x = AModule -> x_value J x = Ok (VPath J p) ->
  exists i o n l f, i <= asked J is_setup t /\ (forall j, j < i -> useless sk (runs j)) /\ runs i = Ok o /\
    said sk o = Some (n, l) /\ In n l /\ folder = Ok f /\ p = pp_join f (pp_parse n).
Proof. exact module_found. Qed.
Print Assumptions C102_module.

Theorem C102_module_is :
  forall J sk runs pypi github folder uri_api L t x u i o n l,
  readings J sk runs pypi github folder uri_api L (new J) = t ++ x :: u ->
  ~ In (foreign sk) L -> x_attr J x = AModule ->
  i <= asked J is_setup t -> (forall j, j < i -> useless sk (runs j)) -> runs i = Ok o -> said sk o = Some (n, l) ->
  x_value J x = (if in_dec (list_eq_dec N.eq_dec) n l
                 then do f <- folder ; Ok (VPath J (pp_join f (pp_parse n))) else Err NotImplementedExn).
Proof. exact module_missing. Qed.
Print Assumptions C102_module_is.

(** The full claims are false: a refused request to GitHub whose body is not JSON raises instead of giving
    None; where the result of setup.py is of the other kind it is kept, so that the name is never known *)
Theorem C102_refused_refuted :
  exists github uri, let t := readings unit false (fun _ => Err KeyError) (fun _ => Err KeyError) github (Err KeyError) (Ok uri) [AGithub; AGithub] (new unit) in
    (forall k, exists r, github k = Ok r /\ r_ok unit r = false) /\
    map (x_value unit) t = [Err ValueError; Err ValueError] /\ map (x_asked unit) t = [[ToGithub uri]; [ToGithub uri]].
Proof. exact refused_raises. Qed.
Print Assumptions C102_refused_refuted.

Theorem C102_kind_refuted :
  exists runs k, runs 0 = Ok (OTriple k) /\ (forall i, exists d, runs (S i) = Ok (ODist d)) /\
    let t := readings unit false runs (fun _ => Err KeyError) (fun _ => Err KeyError) (Err KeyError) (Err KeyError) [AName; AName; AModule] (new unit) in
    map (x_value unit) t = [Err AttributeError; Err AttributeError; Err AttributeError] /\
    map (x_asked unit) t = [[ToSetup]; []; []].
Proof. exact kind_stays. Qed.
Print Assumptions C102_kind_refuted.

(** Two runs fail, the third is of use; PyPI does not know the package at first, GitHub refuses once *)
Definition c102_runs (i : nat) : res outcome :=
  match i with 0 | 1 => Err KeyError | _ => Ok (ODist (mkDist $"idlib" (Some [ $"idlib.core"; $"idlib" ]))) end.
Definition c102_pypi (i : nat) : res (response nat) := Ok (mkResponse nat (Nat.ltb 0 i) 404 (Ok i)).
Definition c102_github (i : nat) : res (response nat) := Ok (mkResponse nat (Nat.ltb 1 i) 403 (match i with 0 => Err ValueError | _ => Ok i end)).
Definition c102_t := readings nat false c102_runs c102_pypi c102_github (Ok (pp_parse $"/w")) (Ok $"u")
  [AName; AModule; AName; AModule; APypi; APypi; APypi; AGithub; AGithub; AGithub; AGithub; AInit] (new nat).
Example C102_case :
  map (x_asked nat) c102_t =
    [[ToSetup]; [ToSetup]; [ToSetup]; []; [ToPypi $"idlib"]; [ToPypi $"idlib"]; []; [ToGithub $"u"]; [ToGithub $"u"]; [ToGithub $"u"]; []; []] /\
  map (x_value nat) c102_t =
    [Err KeyError; Err KeyError; Ok (VName nat $"idlib"); Ok (VPath nat (pp_parse $"/w/idlib"));
     Ok (VJson nat None); Ok (VJson nat (Some 1)); Ok (VJson nat (Some 1));
     Err ValueError; Ok (VJson nat None); Ok (VJson nat (Some 2)); Ok (VJson nat (Some 2)); Ok (VPath nat (pp_parse $"/w/idlib/__init__.py"))] /\
  said false (ODist (mkDist $"idlib" (Some [ $"idlib.core"; $"idlib" ]))) = Some ($"idlib", [ $"idlib.core"; $"idlib" ]).
Proof. vm_compute. repeat split. Qed.
