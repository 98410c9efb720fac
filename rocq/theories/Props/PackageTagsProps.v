(** * C68: the releases of a package and what was committed since *)
From Coq Require Import String NArith ZArith Bool List.
From Verif Require Import Model.Py Model.Version Model.PackageTags Spec.PackageTagsSpec
  Proofs.PyLemmas Proofs.PackageTagsProofs.
Import ListNotations.

(** The version of the newest of the package's releases on GitHub, newest first.  Missing
    from the full statement: a tag further up which has the name of the package in it
    ([C68_github_refuted]), versions that begin with a "v" ([C68_v_refuted]). *)
Theorem C68_github_partial :
  forall parse name prefix l r v x,
    parse v = Ok x -> (prefix = false -> digit_led v /\ forall t, In t (l ++ r) -> t <> []) ->
    (forall t, In t l -> ~ passes name prefix t) ->
    version_latest_github parse name prefix (Some (l ++ tag_for name prefix v :: r)) = Ok (Some x).
Proof. exact github_run. Qed.
Print Assumptions C68_github_partial.

(** The version of the latest tag of the package in the history; missing the same, for
    tags that begin with the name and a dash. *)
Theorem C68_tag_partial :
  forall parse name prefix h l r v x,
    parse v = Ok x -> (prefix = false -> digit_led v) ->
    flat_map c_tags h = l ++ tag_for name prefix v :: r -> (forall t, In t l -> ~ fits name prefix t) ->
    version_tag parse name prefix h = Ok (Some x).
Proof. exact tag_run. Qed.
Print Assumptions C68_tag_partial.

(** The commits since the latest release, those of the files of the release, and no
    others.  Missing: a package without releases ([C68_unreleased_refuted]), tags of
    others that begin like its own ([C68_since_refuted]). *)
Theorem C68_since_partial :
  forall name prefix own h q,
    since own h q -> (forall c, In c h -> line_ok c) ->
    (forall t, In t (flat_map c_tags h) -> (own t <-> fits name prefix t)) ->
    (exists t, In t (flat_map c_tags h) /\ own t) ->
    commits_since_last_release name prefix h = lines q.
Proof. exact since_run. Qed.
Print Assumptions C68_since_partial.

(** Before the first release there is never anything to release. *)
Theorem C68_untagged :
  forall name prefix h,
    (forall t, In t (flat_map c_tags h) -> ~ fits name prefix t) -> commits_since_last_release name prefix h = [].
Proof. exact since_untagged. Qed.
Print Assumptions C68_untagged.
Theorem C68_unreleased_refuted :
  exists h, since (fits $"foo" true) h h /\ lines h = [$"b"; $"a"] /\ commits_since_last_release $"foo" true h = [].
Proof.
  exists [mkCommit $"b" [] true; mkCommit $"a" [] true]. split; [|split; reflexivity].
  apply since_more; [easy|]. apply since_more; [easy|]. apply since_none.
Qed.
Print Assumptions C68_unreleased_refuted.

Definition v68 (n : N) : version := mkV 0 [n; 0]%N None None None None.
Definition k68_parse (t : str) : res version :=
  if str_eqb t $"1.0" then Ok (v68 1) else if str_eqb t $"v1.0" then Ok (v68 1)
  else if str_eqb t $"2.0" then Ok (v68 2)
  else if str_eqb t $"1.0.dev0" then Ok (mkV 0 [1; 0]%N None None (Some 0%N) None) else Err ValueError.

(** A release of foo-utils makes that of foo unreadable; of "dev" a version is told that
    is one of "abc". *)
Theorem C68_github_refuted :
  version_latest_github k68_parse $"foo" true (Some [$"foo-utils-1.0"; $"foo-2.0"]) = Err ValueError /\
  version_latest_github k68_parse $"foo" true (Some [$"foo-2.0"]) = Ok (Some (v68 2)) /\
  version_latest_github k68_parse $"dev" true (Some [$"abc-1.0.dev0"; $"dev-2.0"])
    = Ok (Some (mkV 0 [1; 0]%N None None (Some 0%N) None)).
Proof. repeat split; vm_compute; reflexivity. Qed.
Print Assumptions C68_github_refuted.

(** A tag of a version that begins with "v" is only seen behind a name. *)
Theorem C68_v_refuted :
  version_latest_github k68_parse $"foo" false (Some [$"v1.0"]) = Ok None /\
  version_latest_github k68_parse $"foo" true (Some [$"foo-v1.0"]) = Ok (Some (v68 1)) /\
  version_tag k68_parse $"foo" false [mkCommit $"l" [$"v1.0"] true] = Ok None.
Proof. repeat split; vm_compute; reflexivity. Qed.
Print Assumptions C68_v_refuted.

Definition k68_history : list commit :=
  [mkCommit $"c4" [] true; mkCommit $"c3" [$"foo-utils-1.0"] true; mkCommit $"c2" [] true;
   mkCommit $"c1" [$"foo-1.0"] true; mkCommit $"c0" [] true].
(** A release of foo-utils hides c2 and c3, which are not in any release of foo. *)
Theorem C68_since_refuted :
  since (own_tag k68_parse $"foo" true) k68_history (firstn 3 k68_history) /\
  commits_since_last_release $"foo" true k68_history = [$"c4"] /\
  version_tag k68_parse $"foo" true k68_history = Err ValueError.
Proof.
  split; [|split; vm_compute; reflexivity].
  unfold k68_history. cbn [firstn].
  apply since_more; [easy|]. apply since_more.
  - intros t [<-|[]] (v & [x V] & E). unfold tag_for in E.
    change $"foo-utils-1.0" with ($"foo" ++ $"-" ++ $"utils-1.0") in E.
    apply app_inv_head, app_inv_head in E. subst v. vm_compute in V. discriminate.
  - apply since_more; [easy|]. eapply since_tagged; [left; reflexivity|].
    exists $"1.0". split; [eexists; vm_compute; reflexivity|reflexivity].
Qed.
Print Assumptions C68_since_refuted.

Example C68_case :
  let h := [mkCommit $"b" [] true; mkCommit $"a'b" [$"bar-2.0"] true; mkCommit $"n" [] false; mkCommit $"r" [$"foo-1.0"; $"x"] true;
            mkCommit $"old" [] true] in
  commits_since_last_release $"foo" true h = [$"b"; $"a'b"] /\ since (fits $"foo" true) h (firstn 3 h) /\
  (forall c, In c h -> line_ok c) /\ fits $"foo" true $"foo-1.0" /\
  version_tag k68_parse $"foo" true h = Ok (Some (v68 1)) /\ ~ fits $"foo" true $"bar-2.0" /\
  ~ passes $"foo" true $"bar-2.0" /\ ~ passes $"foo" false $"v1.0" /\ digit_led $"2.0" /\
  version_latest_github k68_parse $"foo" true (Some [$"bar-2.0"; $"foo-1.0"; $"foo-0.1"]) = Ok (Some (v68 1)) /\
  version_latest_github k68_parse $"foo" false (Some [$"bar-1.0"; $"2.0"]) = Ok (Some (v68 2)).
Proof.
  assert (F : ~ fits $"foo" true $"bar-2.0") by (intros [r E]; discriminate).
  cbn zeta. split; [vm_compute; reflexivity|]. split.
  { cbn [firstn]. apply since_more; [easy|]. apply since_more; [intros t [<-|[]]; exact F|]. apply since_more; [easy|].
    eapply since_tagged; [left; reflexivity|]. now exists $"1.0". }
  split.
  { intros c [<-|[<-|[<-|[<-|[<-|[]]]]]]; split; try discriminate; vm_compute; intuition discriminate. }
  split; [now exists $"1.0"|]. split; [vm_compute; reflexivity|]. split; [exact F|]. split.
  { intro P. apply contains_spec in P. vm_compute in P. discriminate. }
  split; [intros (c & r & E & D); injection E as <- _; vm_compute in D; discriminate|].
  split; [eexists _, _; split; reflexivity|]. split; vm_compute; reflexivity.
Qed.
