(** * C18: relative paths lead to their target *)
From Coq Require Import String NArith ZArith Bool List.
From Verif Require Import Model.Py Model.PurePath Model.RelPath Spec.RelPathSpec Proofs.RelPathProofs.
Import ListNotations.

Theorem C18_relative_path_from :
  forall p q, is_path p -> is_path q -> pp_abs p = pp_abs q -> no_dotdot p -> no_dotdot q ->
    exists r, relative_path_from p q = Ok r /\ pp_abs r = false /\
      forall d, counts_from p q d -> follow here (d ++ pp_parts r) = (0%nat, pp_parts p).
Proof. exact relative_path_plain. Qed.
Print Assumptions C18_relative_path_from.

Theorem C18_relative_path_to :
  forall p q, is_path p -> is_path q -> pp_abs p = pp_abs q -> no_dotdot p -> no_dotdot q ->
    exists r, relative_path_to q p = Ok r /\ pp_abs r = false /\
      forall d, counts_from p q d -> follow here (d ++ pp_parts r) = (0%nat, pp_parts p).
Proof. exact relative_path_to_plain. Qed.
Print Assumptions C18_relative_path_to.

(** ".." in the target does no harm. *)
Theorem C18_dotdot_target :
  forall p q, is_path p -> is_path q -> pp_abs p = pp_abs q -> no_dotdot q ->
    exists r, relative_path_from p q = Ok r /\ pp_abs r = false /\
      forall d, counts_from p q d -> follow here (d ++ pp_parts r) = follow here (pp_parts p).
Proof. exact relative_path. Qed.
Print Assumptions C18_dotdot_target.

(** The place to count from always exists and is unique. *)
Theorem C18_counts_from : forall p q, exists d, counts_from p q d /\ forall d', counts_from p q d' -> d = d'.
Proof. exact counts_once. Qed.
Print Assumptions C18_counts_from.

(** An absolute and a relative path have no common directory. *)
Theorem C18_kinds :
  forall p q, is_path p -> is_path q -> pp_abs p <> pp_abs q -> relative_path_from p q = Err ValueError.
Proof. exact relative_path_kinds. Qed.
Print Assumptions C18_kinds.

Example C18_case :
  relative_path_from (pp_parse $"/a/b/c") (pp_parse $"/a/x/y/z") = Ok (pp_parse $"../../b/c") /\
  relative_path_from (pp_parse $"/a/b/c") (pp_parse $"/a") = Ok (pp_parse $"b/c") /\
  relative_path_from (pp_parse $"/a") (pp_parse $"/a/b/c") = Ok (pp_parse $"..") /\
  is_path (pp_parse $"/a/b/c") /\ no_dotdot (pp_parse $"/a/b/c") /\
  counts_from (pp_parse $"/a/b/c") (pp_parse $"/a/x/y/z") [$"a"; $"x"; $"y"].
Proof.
  repeat match goal with |- _ /\ _ => split; [try reflexivity|] end.
  - intros c. cbn. intros [<-|[<-|[<-|[]]]]; (split; [discriminate|]); (split; [discriminate|]); intros [H|[]]; discriminate.
  - unfold no_dotdot. cbn. intuition discriminate.
  - right. split; [intros (r & H); discriminate|]. now exists $"z".
Qed.

(** With ".." in the other path the result leads elsewhere. *)
Example C18_dotdot_case :
  relative_path_from (pp_parse $"c") (pp_parse $"../x") = Ok (pp_parse $"../c") /\
  follow here [$".."; $".."; $"c"] <> follow here [$"c"].
Proof. split; [reflexivity|discriminate]. Qed.
