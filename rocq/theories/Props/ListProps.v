(** * C54: listing everything below a path *)
From Coq Require Import String NArith ZArith Bool List Strings.Byte.
From Verif Require Import Model.Py Model.PurePath Model.Fs Model.Listing Spec.FsSpec Spec.ListSpec Proofs.FsLemmas Proofs.GoodFs Proofs.ListProofs.
Import ListNotations.

(** Away from the anchor all that is below is listed, once each, directories first, or an
    error of the machine is raised, if that is not a denial.  Nothing is changed. *)
Theorem C54_plain :
  forall has_cache anchor fs cwd fault p x w', good_fs fs -> honest fault -> never_denied fault ->
    at_anchor has_cache anchor p = false ->
    p_rchildren has_cache anchor p (start fs cwd fault) = (x, w') ->
    states w' = states (start fs cwd fault) /\
    match x with
    | Ok l => (forall R, opens fs cwd p R -> lists fs p R (fun _ => True) l) /\ ((forall R, ~ opens fs cwd p R) -> l = [])
    | Err e => is_fault fault e
    end.
Proof. exact list_plain. Qed.
Print Assumptions C54_plain.
(** Whatever is denied: all that is listed is there. *)
Theorem C54_sound :
  forall has_cache anchor fs cwd fault p R l w', good_fs fs -> honest fault ->
    at_anchor has_cache anchor p = false -> opens fs cwd p R ->
    p_rchildren has_cache anchor p (start fs cwd fault) = (Ok l, w') ->
    forall q, In q l -> exists r, q = under p r /\ r <> [] /\ look fs (R ++ r) <> None.
Proof. exact list_sound. Qed.
Print Assumptions C54_sound.
(** At the anchor all but our own entries is listed, if no name is a namesake of one of
    ours and no link there leads to a directory.  Missing from the full statement: the
    names ([C54_refuted]), the links ([C54_link_refuted]), and denials ([C54_denied_refuted]). *)
Theorem C54_partial :
  forall has_cache anchor fs cwd fault p R l w', good_fs fs -> honest fault -> never_denied fault ->
    at_anchor has_cache anchor p = true -> opens fs cwd p R ->
    (forall x, look fs (R ++ [x]) <> None -> ~ namesake x) -> no_dir_link fs cwd p R ->
    p_rchildren has_cache anchor p (start fs cwd fault) = (Ok l, w') -> lists fs p R not_ours l.
Proof. exact list_anchor_guarded. Qed.
Print Assumptions C54_partial.
(** What is listed there otherwise. *)
Theorem C54_anchor :
  forall has_cache anchor fs cwd fault p x w', good_fs fs -> honest fault -> never_denied fault ->
    at_anchor has_cache anchor p = true ->
    p_rchildren has_cache anchor p (start fs cwd fault) = (x, w') ->
    states w' = states (start fs cwd fault) /\
    match x with
    | Ok l => (forall R, opens fs cwd p R -> NoDup l /\ (forall q, In q l <-> exists x r, q = under p (x :: r) /\
                 look fs (R ++ [x]) <> None /\ ~ ours x /\ ~ namesake x /\
                 (r = [] \/ exists S, opens fs cwd (under p [x]) S /\ r <> [] /\ look fs (S ++ r) <> None)) /\
                 (forall l1 l2 r x, l = l1 ++ under p (r ++ [x]) :: l2 -> r = [] \/ In (under p r) l1)) /\
              ((forall R, ~ opens fs cwd p R) -> l = [])
    | Err e => is_fault fault e
    end.
Proof. exact list_anchor. Qed.
Print Assumptions C54_anchor.
(** What is directly in a directory. *)
Theorem C54_children :
  forall has_cache anchor fs cwd fault p x w', good_fs fs -> honest fault ->
    p_children has_cache anchor p (start fs cwd fault) = (x, w') ->
    states w' = states (start fs cwd fault) /\
    match x with
    | Ok l => (forall R, opens fs cwd p R -> NoDup l /\ forall q, In q l <->
                 exists x, q = under p [x] /\ look fs (R ++ [x]) <> None /\
                           (at_anchor has_cache anchor p = true -> ~ ours x /\ ~ namesake x)) /\
              ((forall R, ~ opens fs cwd p R) -> l = [])
    | Err e => is_fault fault e
    end.
Proof. exact children_list. Qed.
Print Assumptions C54_children.

Definition c54_fs : node :=
  Dir [] [($"data", Dir [] [($".git", Dir [] [($"HEAD", File [x31] [])]); ($"a", Dir [] [($"b", File [] []); ($"c", Link $"/out")]); ($"f", File [x32] [])]);
          ($"out", Dir [] [($"x", File [] [])]);
          ($"odd", Dir [] [($".git.bak", File [x31] []); ($"k", File [] [])]);
          ($"linked", Dir [] [($"l", Link $"/out"); ($"me", Link $"."); ($".git", Dir [] [($"HEAD", File [] [])])])].
Definition c54_p (s : string) : ppath := pp_parse $s.
Definition c54_run (hc : bool) (p : ppath) : res (list ppath) :=
  fst (p_rchildren (fun _ => hc) (Some p) p (start c54_fs [] (fun _ => None))).
Example C54_case : good_fs c54_fs /\
  c54_run true (c54_p "/data") = Ok (map c54_p ["/data/a"; "/data/a/b"; "/data/a/c"; "/data/f"]%string) /\
  c54_run false (c54_p "/data") = Ok (map c54_p ["/data/.git"; "/data/a"; "/data/f"; "/data/.git/HEAD"; "/data/a/b"; "/data/a/c"]%string) /\
  c54_run true (c54_p "/odd") = Ok (map c54_p ["/odd/k"]%string) /\
  c54_run true (c54_p "/linked") =
    Ok (map c54_p ["/linked/l"; "/linked/l/x"; "/linked/me"; "/linked/me/l"; "/linked/me/me"; "/linked/me/.git"; "/linked/me/.git/HEAD"]%string) /\
  (forall x, look c54_fs [$"data"; x] <> None -> ~ namesake x) /\ no_dir_link c54_fs [] (c54_p "/data") [$"data"].
Proof.
  split; [apply good_fs_b_ok; vm_compute; reflexivity|]. do 4 (split; [vm_compute; reflexivity|]). split.
  - intros x L (y & e & O & -> & Ne & Nd). cbn in L.
    destruct O as [->|[->| ->]]; cbn in L; congruence.
  - intros x t S L. exfalso. apply look_link in L. rewrite get_snoc in L.
    change (entry x [($".git", Dir [] [($"HEAD", File [x31] [])]); ($"a", Dir [] [($"b", File [] []); ($"c", Link $"/out")]); ($"f", File [x32] [])] = Some (Link t)) in L.
    rewrite !entry_cons in L. destruct (str_eqb $".git" x); [discriminate|]. destruct (str_eqb $"a" x); [discriminate|]. destruct (str_eqb $"f" x); discriminate.
Qed.

(** A name that only begins like one of ours is left out. *)
Theorem C54_refuted :
  ~ forall has_cache anchor fs cwd fault p R l w', good_fs fs -> honest fault -> never_denied fault ->
      at_anchor has_cache anchor p = true -> opens fs cwd p R -> no_dir_link fs cwd p R ->
      p_rchildren has_cache anchor p (start fs cwd fault) = (Ok l, w') -> lists fs p R not_ours l.
Proof. exact anchor_namesake. Qed.
Print Assumptions C54_refuted.
(** Links at the top that lead to directories are followed, to outside and back to what
    is ours. *)
Theorem C54_link_refuted :
  ~ forall has_cache anchor fs cwd fault p R l w', good_fs fs -> honest fault -> never_denied fault ->
      at_anchor has_cache anchor p = true -> opens fs cwd p R ->
      (forall x, look fs (R ++ [x]) <> None -> ~ namesake x) ->
      p_rchildren has_cache anchor p (start fs cwd fault) = (Ok l, w') -> lists fs p R not_ours l.
Proof. exact anchor_link. Qed.
Print Assumptions C54_link_refuted.
(** What is in a directory that may not be read is left out without a word. *)
Theorem C54_denied_refuted :
  ~ forall has_cache anchor fs cwd fault p R l w', good_fs fs -> honest fault ->
      at_anchor has_cache anchor p = false -> opens fs cwd p R ->
      p_rchildren has_cache anchor p (start fs cwd fault) = (Ok l, w') -> lists fs p R (fun _ => True) l.
Proof. exact plain_denied. Qed.
Print Assumptions C54_denied_refuted.
