(** * C98: the command that releases a package *)
From Coq Require Import String NArith ZArith Bool List.
From Verif Require Import Model.Py Model.PurePath Model.Fs Model.PathOps Model.Repo Model.Version Model.RemoteUri Model.PackageFolder Model.Command
  Spec.FsSpec Spec.LoopSpec Spec.ZipSpec Spec.RepoSpec Spec.PackageFolderSpec Spec.RemoteUriSpec Spec.ShellSpec Spec.CommandSpec
  Proofs.GoodFs Proofs.RepoProofs Proofs.CommandProofs Proofs.PackageFolderProofs Props.RemoteUriProps Props.PackageFolderProps.
Import ListNotations.

(** A shell reads the command as [build-release] with the owner, the repository, the
    folder below the directory of the repository, the name and the version, exactly where
    the folder and the name can stand without quotes and the version has no epoch. *)
Theorem C98_command_partial :
  forall facts find_ref there far home_of n p w o r u branch rel bs f wd l next name nv nm,
    owner_name o -> repo_name r -> understood o r u ->
    facts p = Ok (mkRF u branch (mkPP false rel)) -> asked (Ok tt) branch None bs ->
    no_fault w -> good_fs (w_fs w) -> is_dir_at (w_fs w) (w_cwd w) -> straight p ->
    innermost (w_fs w) (w_cwd w) p (Some f) -> nearest (w_fs w) (w_cwd w) p (Some wd) ->
    pp_parts f = pp_parts wd ++ l -> pp_parts wd <> [] ->
    next = Ok nv -> proper_version nv -> name = Ok nm ->
    exists t w', unchanged w w' /\ command facts find_ref there far home_of (S n) next name p w = (Ok t, w') /\
      (runs t [$"build-release"; o; r; join $"/" (pp_name wd :: l); nm; version_text nv] <->
       bare (join $"/" (pp_name wd :: l)) /\ bare nm /\ v_epoch nv = 0%N).
Proof. exact command_run. Qed.
Print Assumptions C98_command_partial.

Definition g_fs : node :=
  Dir [] [($"r", Dir [] [($".git", Dir [] []); ($"sub", Dir [] [($"setup.py", File [] [])]);
                         ($"a b", Dir [] [($"setup.py", File [] [])]); ($"$(id)", Dir [] [($"setup.py", File [] [])])])].
Definition g_run (v : version) (p : str) : res str :=
  fst (command (z_facts $"https://github.com/tgbugs/augpathlib") z_find (fun _ => true) c69_far c69_home 1 (Ok v) (Ok $"aug") (pp_parse p) (start g_fs [] (fun _ => None))).
Definition g_v : version := mkV 0 [1; 2]%N (Some (Lrc, 3%N)) None (Some 4%N) None.

(** A folder with a blank is two words; one that reads as an expansion is expanded, so that
    the shell runs what it says; and an epoch is one for an interactive shell. *)
Theorem C98_command_refuted :
  (exists t, g_run g_v $"/r/a b" = Ok t /\ runs t [$"build-release"; $"tgbugs"; $"augpathlib"; $"r/a"; $"b"; $"aug"; $"1.2rc3.dev4"]) /\
  g_run g_v $"/r/$(id)" = Ok $"build-release tgbugs augpathlib r/$(id) aug 1.2rc3.dev4" /\
  (forall t, g_run g_v $"/r/$(id)" = Ok t -> forall l, ~ runs t l) /\
  g_run (mkV 1 [2]%N None None None None) $"/r/sub" = Ok $"build-release tgbugs augpathlib r/sub aug 1!2".
Proof.
  split; [eexists; split; vm_compute; reflexivity|]. split; [vm_compute; reflexivity|]. split; [|vm_compute; reflexivity].
  intros t E l R. vm_compute in E. injection E as <-. vm_compute in R. discriminate R.
Qed.
Print Assumptions C98_command_refuted.

Example C98_case :
  owner_name $"tgbugs" /\ repo_name $"augpathlib" /\ understood $"tgbugs" $"augpathlib" $"https://github.com/tgbugs/augpathlib" /\
  asked (Ok tt) (Ok $"master") None [$"master"] /\ good_fs g_fs /\ is_dir_at g_fs [] /\ straight (pp_parse $"/r/sub") /\
  innermost g_fs [] (pp_parse $"/r/sub") (Some (pp_parse $"/r/sub")) /\ nearest g_fs [] (pp_parse $"/r/sub") (Some (pp_parse $"/r")) /\
  proper_version g_v /\ proper_version (mkV 0 [1]%N None (Some 2%N) None (Some [SText $"x1"; SNum 3])) /\
  bare $"r/sub" /\ bare $"aug" /\ ~ bare $"r/a b" /\ ~ bare [] /\
  version_text (mkV 7 [1; 0]%N None (Some 2%N) None (Some [SText $"x1"; SNum 30])) = $"7!1.0.post2+x1.30" /\
  g_run g_v $"/r/sub" = Ok $"build-release tgbugs augpathlib r/sub aug 1.2rc3.dev4".
Proof.
  assert (L : forall s, forallb (fun c => (N.leb 97 c && N.leb c 122)%bool) s = true -> forall c, In c s -> letter c).
  { intros s H c I'. rewrite forallb_forall in H. specialize (H c I'). rewrite !andb_true_iff, !N.leb_le in H. right. now right. }
  split; [split; [discriminate|]; intros c I'; left; exact (L $"tgbugs" eq_refl c I')|].
  split; [repeat split; try discriminate; intros c I'; left; exact (L $"augpathlib" eq_refl c I')|]. split.
  { right; right. split; [|left; reflexivity]. intros (a & b & _ & _ & E). assert (I' : In (chr ".") $"augpathlib") by (rewrite E; apply in_app_iff; right; now left).
    cbn in I'. intuition discriminate. }
  split. { split; [discriminate|]. split; [|left; split; [reflexivity|now left]]. constructor; [repeat split; try discriminate; cbn; intuition discriminate|constructor]. }
  split; [apply good_fs_b_ok; vm_compute; reflexivity|]. split; [eexists; vm_compute; reflexivity|].
  split; [split; [reflexivity|vm_compute; intuition discriminate]|]. split.
  { destruct (folder_run c69_far (pp_parse $"/r/sub") (start g_fs [] (fun _ => None))) as (o & w' & _ & E & X).
    - intros t. reflexivity.
    - split; [reflexivity|vm_compute; intuition discriminate].
    - assert (F : fst (folder c69_far (pp_parse $"/r/sub") (start g_fs [] (fun _ => None))) = Ok (pp_parse $"/r/sub")) by (vm_compute; reflexivity).
      rewrite E in F. destruct o as [q|]; [|discriminate F]. cbn [fst found_or] in F. injection F as F. rewrite F in X. exact X. }
  split.
  { destruct (working_dir_run c69_home (pp_parse $"/r/sub") (start g_fs [] (fun _ => None))) as (o & w' & _ & E & X).
    - intros t. reflexivity.
    - apply good_fs_b_ok; vm_compute; reflexivity.
    - eexists; vm_compute; reflexivity.
    - now left.
    - assert (F : fst (working_dir c69_home (pp_parse $"/r/sub") (start g_fs [] (fun _ => None))) = Ok (Some (pp_parse $"/r"))) by (vm_compute; reflexivity).
      rewrite E in F. cbn [fst] in F. injection F as F. rewrite F in X. exact X. }
  split; [split; [discriminate|]; intros l E; discriminate E|].
  split. { split; [discriminate|]. intros l E. injection E as <-. split; [discriminate|]. constructor; [|constructor; [exact I|constructor]].
    split; [constructor; [right; vm_compute; split; discriminate|]; constructor; [left; vm_compute; split; discriminate|constructor]|].
    exists (chr "x"). split; [now left|vm_compute; discriminate]. }
  split. { assert (B : Forall bare [$"r/sub"]) by (apply words_apart; vm_compute; reflexivity). now inversion B. }
  split; [apply safe_bare; [discriminate|apply safe_b; reflexivity]|].
  split; [intros (_ & _ & H); destruct (H 32%N) as [B _]; [cbn; tauto|discriminate B]|]. split; [intros [H _]; now apply H|].
  split; vm_compute; reflexivity.
Qed.
