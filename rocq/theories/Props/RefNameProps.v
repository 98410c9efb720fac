(** * C70 *)
From Coq Require Import String NArith ZArith Bool List.
From Verif Require Import Model.Py Model.RefName Spec.RefNameSpec Proofs.RefNameProofs.
Import ListNotations.

(** What git calls by a tag has the name of the tag, but "^0" follows that of an
    annotated one. *)
Theorem C70_tag :
  forall h r branch, hash_ok h -> ref_ok r -> r_kind r = Tag ->
    current_ref_name true (name_rev_line h (rev_name r)) branch = Ok (Some (r_name r ++ (if r_annotated r then $"^0" else []))).
Proof. exact tag_name. Qed.
Print Assumptions C70_tag.
(** What git calls by a branch has a name only where there is a slash in it. *)
Theorem C70_head :
  forall h r branch, hash_ok h -> ref_ok r -> r_kind r = Head -> (forall t, r_name r <> $"tags/" ++ t) ->
    current_ref_name true (name_rev_line h (rev_name r)) branch = Ok (if has (chr "/") (r_name r) then Some (r_name r) else None).
Proof. exact head_name. Qed.
Print Assumptions C70_head.
Theorem C70_remote :
  forall h r branch, hash_ok h -> ref_ok r -> r_kind r = Remote ->
    current_ref_name true (name_rev_line h (rev_name r)) branch = Ok (Some ($"remotes/" ++ r_name r)).
Proof. exact remote_name. Qed.
Print Assumptions C70_remote.

(** The name of the branch where one is checked out; none for a commit git has no name
    for, or one it counts back to from a branch or a reference of a remote. *)
Theorem C70_branch_or_none :
  (forall line branch, current_ref_name false line branch = Ok (Some branch)) /\
  (forall h branch, hash_ok h -> current_ref_name true h branch = Ok None) /\
  forall h r n branch, hash_ok h -> ref_ok r -> r_kind r <> Tag -> (r_kind r = Head -> forall t, r_name r <> $"tags/" ++ t) ->
    forallb is_digit n = true -> current_ref_name true (name_rev_line h (rev_name r ++ $"~" ++ n)) branch = Ok None.
Proof. exact branch_or_none. Qed.
Print Assumptions C70_branch_or_none.

(** How much white space there is makes no difference. *)
Theorem C70_spaces :
  forall a h b n c branch, spaced a h b n c ->
    current_ref_name true (a ++ h ++ b ++ n ++ c) branch = current_ref_name true (name_rev_line h n) branch.
Proof. exact spaces. Qed.
Print Assumptions C70_spaces.
Example C70_spaces_case : spaced $" " $"3f" $"  " $"fix/a" [10%N] /\ current_ref_name true ($" " ++ $"3f" ++ $"  " ++ $"fix/a" ++ [10%N]) [] = Ok (Some $"fix/a").
Proof.
  split; [|vm_compute; reflexivity]. split; [reflexivity|]. split; [discriminate|].
  split; (split; [discriminate|]); intros c C; vm_compute in C; repeat (destruct C as [<-|C]; [reflexivity|]); destruct C.
Qed.

(** A name that is given leads back to the commit that is checked out.  Missing from the
    full statement: annotated tags, references of remotes, commits that have no reference
    and names used twice, for all of which it is false. *)
Theorem C70_leads_back_partial :
  forall h refs r branch n, hash_ok h -> names_differ refs -> In r refs -> ref_ok r ->
    r_kind r <> Remote -> r_annotated r = false -> (r_kind r = Head -> forall t, r_name r <> $"tags/" ++ t) ->
    current_ref_name true (name_rev_line h (rev_name r)) branch = Ok (Some n) ->
    exists q, get_ref refs n = Ok q /\ r_commit q = r_commit r.
Proof. exact name_leads. Qed.
Print Assumptions C70_leads_back_partial.
(** The reference that is found is one with this name. *)
Theorem C70_get_ref :
  forall refs n r, get_ref refs n = Ok r -> In r refs /\ r_name r = n.
Proof. exact get_ref_spec. Qed.
Print Assumptions C70_get_ref.
(** No name leads back to an annotated tag. *)
Theorem C70_annotated_refuted :
  forall h refs r branch n, hash_ok h -> In r refs -> (forall q, In q refs -> ref_ok q) -> r_annotated r = true ->
    current_ref_name true (name_rev_line h (rev_name r)) branch = Ok (Some n) -> get_ref refs n = Err ValueError.
Proof. exact annotated_lost. Qed.
Print Assumptions C70_annotated_refuted.
(** Behind a tag the name counts back from it, which is left out for branches because it
    does not last. *)
Theorem C70_behind_refuted :
  forall h t n branch, hash_ok h -> (forall c, In c (t ++ $"~" ++ n) -> is_space c = false) ->
    current_ref_name true (name_rev_line h ($"tags/" ++ t ++ $"~" ++ n)) branch = Ok (Some (t ++ $"~" ++ n)).
Proof. exact behind_tag. Qed.
Print Assumptions C70_behind_refuted.

Definition c70_refs : list ref :=
  [mkRef Head $"1.0" 7 false; mkRef Head $"fix/a" 3 false; mkRef Remote $"origin/b" 4 false;
   mkRef Tag $"1.0" 5 false; mkRef Tag $"2.0" 6 true; mkRef Tag $"3.0" 8 false].
(** The name of a reference of a remote is not one [getRef] knows. *)
Theorem C70_remote_refuted :
  current_ref_name true (name_rev_line $"4f" (rev_name (mkRef Remote $"origin/b" 4 false))) [] = Ok (Some $"remotes/origin/b") /\
  get_ref c70_refs $"remotes/origin/b" = Err ValueError.
Proof. split; vm_compute; reflexivity. Qed.
Print Assumptions C70_remote_refuted.
(** A branch with the name of the tag is taken for it. *)
Theorem C70_same_name_refuted :
  current_ref_name true (name_rev_line $"5f" (rev_name (mkRef Tag $"1.0" 5 false))) [] = Ok (Some $"1.0") /\
  get_ref c70_refs $"1.0" = Ok (mkRef Head $"1.0" 7 false).
Proof. split; vm_compute; reflexivity. Qed.
Print Assumptions C70_same_name_refuted.

Example C70_case :
  hash_ok $"3f" /\ (forall q, In q c70_refs -> ref_ok q) /\ names_differ (tl c70_refs) /\
  current_ref_name true $"3f fix/a" [] = Ok (Some $"fix/a") /\ get_ref (tl c70_refs) $"fix/a" = Ok (mkRef Head $"fix/a" 3 false) /\
  current_ref_name true $"8f tags/3.0" [] = Ok (Some $"3.0") /\
  current_ref_name true $"6f tags/2.0^0" [] = Ok (Some $"2.0^0") /\
  current_ref_name true $"9f tags/3.0~2" [] = Ok (Some $"3.0~2") /\
  current_ref_name true $"9f fix/a~1" [] = Ok None /\
  current_ref_name true $"9f master" [] = Ok None /\ current_ref_name true $"9f" [] = Ok None /\
  current_ref_name false $"" $"fix/a" = Ok (Some $"fix/a").
Proof.
  split; [split; [discriminate|]; intros c [<-|[<-|[]]]; reflexivity|]. split.
  { intros q I. repeat (destruct I as [<-|I];
      [split; [discriminate|]; split; [|vm_compute; congruence];
       intros c C; vm_compute in C; repeat (destruct C as [<-|C]; [vm_compute; repeat split; discriminate|]); destruct C|]).
    destruct I. }
  split.
  { intros a b A B. cbn in A, B. intuition subst; try reflexivity; vm_compute in H; discriminate. }
  repeat split; vm_compute; reflexivity.
Qed.
