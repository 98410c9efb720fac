(** * C101: what zip paths remember *)
From Coq Require Import String NArith Bool List.
From Verif Require Import Model.Py Model.PurePath Model.Fs Model.PathOps Model.Zip Model.ZipMemo Spec.ZipSpec Spec.ZipMemoSpec
  Proofs.PyLemmas Proofs.RmtreeProofs Proofs.ZipProofs Proofs.ZipMemoProofs.
Import ListNotations.

(** Whatever was asked before, of this path object or others, the answer is that of a
    process that asks for the first time, as long as archives stay as they are and those
    that are asked for can be opened.  Missing from the full statement: archives that
    change ([C101_stale_refuted]), and those that cannot be opened
    ([C101_missing_refuted]). *)
Theorem C101_same_partial :
  forall path_at d es, steady path_at d es ->
    Forall (fun x => match x with (d, i, q, a) => a = first_answer path_at d i q end) (answers path_at es d fresh).
Proof. exact all_first. Qed.
Print Assumptions C101_same_partial.

(** These are the answers of C52. *)
Theorem C101_first :
  forall path_at d i, sound d (path_at i) ->
    first_answer path_at d i QExists = AExists (zp_exists (d_is_zip d) (d_zip d) (d_there d) (path_at i)) /\
    first_answer path_at d i QRchildren =
      ARchildren (match zp_rchildren (d_is_zip d) (d_zip d) (path_at i) with Ok (Some l) => Ok l | Ok None => d_below d (path_at i) | Err e => Err e end).
Proof. exact (fun path_at d i S => conj (first_plain path_at d i QExists S) (first_plain path_at d i QRchildren S)). Qed.
Print Assumptions C101_first.

Definition k_disk (there : list str) (names : list str) : disk :=
  mkDisk (fun p => pp_eqb p (pp_parse $"/a.zip") && negb (match there with [] => true | _ => false end))
         (fun p => if pp_eqb p (pp_parse $"/a.zip") then (match there with [] => Err (OSErr ENOENT) | _ => Ok (map (fun n => mkZinfo n 0) names) end)
                   else Err (OSErr ENOTDIR))
         (fun p => existsb (fun t => pp_eqb p (pp_parse t)) there)
         (fun _ => Ok []).
Definition k_at (i : nat) : ppath := match i with O => pp_parse $"/a.zip" | S O => pp_parse $"/a.zip/x" | S (S O) => pp_parse $"/a.zip/x" | _ => pp_parse $"/b" end.
Definition k_ans (es : list event) (d : disk) : list answer := map snd (answers k_at es d fresh).

(** An archive that is replaced is still seen as it was, by new path objects too. *)
Theorem C101_stale_refuted :
  exists d d', k_ans [Ask 1 QExists; Change d'; Ask 2 QExists] d = [AExists (Ok true); AExists (Ok true)] /\
    first_answer k_at d' 2 QExists = AExists (Ok false).
Proof. exists (k_disk [$"/a.zip"] [$"x"]), (k_disk [$"/a.zip"] [$"y"]). split; vm_compute; reflexivity. Qed.
Print Assumptions C101_stale_refuted.

(** A missing archive: the same question to the same path is answered in three ways, and
    when the archive is made in the end it is not seen. *)
Theorem C101_missing_refuted :
  exists d d', k_ans [Ask 0 QExists; Ask 0 QExists; Ask 0 QExists; Change d'; Ask 0 QExists] d =
      [AExists (Err (OSErr ENOENT)); AExists (Err (OSErr ENOENT)); AExists (Err AttributeError); AExists (Err AttributeError)] /\
    k_ans [Ask 0 QExists; Change d'; Ask 0 QExists] d = [AExists (Err (OSErr ENOENT)); AExists (Ok true)] /\
    first_answer k_at d' 0 QExists = AExists (Ok true).
Proof. exists (k_disk [] []), (k_disk [$"/a.zip"] [$"x"]). split; [|split]; vm_compute; reflexivity. Qed.
Print Assumptions C101_missing_refuted.

Example C101_case :
  let d := k_disk [$"/a.zip"] [$"x"; $"y/z"] in let d' := k_disk [$"/a.zip"; $"/b"] [$"x"; $"y/z"] in
  let es := [Ask 0 QRchildren; Ask 1 QExists; Ask 3 QExists; Ask 3 QExists; Change d'; Ask 3 QExists; Ask 0 QExists; Ask 2 QExists] in
  steady k_at d es /\
  k_ans es d = [ARchildren (Ok [pp_parse $"/a.zip/y"; pp_parse $"/a.zip/x"; pp_parse $"/a.zip/y/z"]);
                AExists (Ok true); AExists (Err AttributeError); AExists (Err AttributeError); AExists (Ok true); AExists (Ok true); AExists (Ok true)].
Proof.
  assert (A : forall t n i, (i < 4)%nat -> sound (k_disk ($"/a.zip" :: t) n) (k_at i)).
  { intros t n i L z W (Ne & Z). apply at_or_below_parts in W as (Ab & l & P).
    assert (Q : z = pp_parse $"/a.zip" \/ z = pp_parse $"/a.zip/x" \/ z = pp_parse $"/b").
    { destruct z as [za zp]. cbn [pp_abs pp_parts] in *.
      destruct i as [|[|[|i]]]; vm_compute in Ab, P; subst za; (destruct zp as [|a [|b [|c zp]]]; [congruence|..]); cbn [app] in P; try discriminate P;
        injection P as P; subst; vm_compute; auto. all: injection H as H; subst; auto. }
    destruct Q as [->|[->| ->]]; [eexists; vm_compute; reflexivity| |]; exfalso; destruct Z as [Z|[Z _]]; vm_compute in Z; discriminate Z. }
  cbv zeta. split; [|vm_compute; reflexivity]. cbn [steady].
  repeat match goal with |- _ /\ _ => split end; try exact I; try (apply A; repeat constructor). 
  intro z. split; reflexivity.
Qed.
