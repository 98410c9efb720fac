(** * C40, C53: the repository of a path *)
From Coq Require Import String NArith ZArith Bool List.
From Verif Require Import Model.Py Model.PurePath Model.RelPath Model.Fs Model.PathOps Model.RemoteUri Model.Repo
  Spec.FsSpec Spec.LoopSpec Spec.ZipSpec Spec.RepoSpec Proofs.PyLemmas Proofs.GoodFs Proofs.RepoProofs.
Import ListNotations.

(** The nearest directory with a repository, of the path made absolute and those above
    it as its text has them.  Missing from the full statement: paths relative to a home
    ([C40_refuted]) and, for those with "..", the directories that are really above
    ([C40_dotdot_refuted]). *)
Theorem C40_partial :
  forall home_of p w, no_fault w -> good_fs (w_fs w) -> is_dir_at (w_fs w) (w_cwd w) -> plain p ->
    exists o w', unchanged w w' /\ working_dir home_of p w = (Ok o, w') /\ nearest (w_fs w) (w_cwd w) (absolute_of (w_cwd w) p) o.
Proof. exact working_dir_run. Qed.
Print Assumptions C40_partial.
(** This is one answer. *)
Theorem C40_unique :
  forall fs cwd p r r', nearest fs cwd p r -> nearest fs cwd p r' -> r = r'.
Proof. exact nearest_unique. Qed.
Print Assumptions C40_unique.

(** ** C53 *)
(** [init] in a repository raises and changes nothing, for each remote and whatever is
    remembered, the directories of what is remembered being there.  Missing from the full
    statement: see [C40_partial]; paths that GitPython reads in its own way. *)
Theorem C53_refuses_partial :
  forall home_of git_open git_init git_clone p remote s w wd,
    opens git_open -> no_fault w -> good_fs (w_fs w) -> is_dir_at (w_fs w) (w_cwd w) -> plain p ->
    normal (absolute_of (w_cwd w) p) -> told_there (w_fs w) (w_cwd w) s ->
    nearest (w_fs w) (w_cwd w) (absolute_of (w_cwd w) p) (Some wd) ->
    exists s' w', unchanged w w' /\ init home_of git_open git_init git_clone p remote s w =
      (Err (if there_b (w_fs w) (w_cwd w) p then RepoExistsErr else AssertionError), s', w').
Proof. exact init_refuses. Qed.
Print Assumptions C53_refuses_partial.
(** Elsewhere git is called for the path, which is remembered only if that works. *)
Theorem C53_fresh :
  forall home_of git_open git_init git_clone p remote s w,
    no_fault w -> good_fs (w_fs w) -> is_dir_at (w_fs w) (w_cwd w) -> plain p ->
    nearest (w_fs w) (w_cwd w) (absolute_of (w_cwd w) p) None ->
    exists w1, unchanged w w1 /\ init home_of git_open git_init git_clone p remote s w =
      match (match remote with Some r => git_clone r p | None => git_init p end) w1 with
      | (Ok q, w') => (Ok (made q w'), remember p (made q w') s, w')
      | (Err e, w') => (Err e, s, w')
      end.
Proof. exact init_fresh. Qed.
Print Assumptions C53_fresh.
(** [clone_from] does the same at [clone_path], and gives that path. *)
Theorem C53_clone :
  forall home_of git_open git_init git_clone p remote s w,
    no_fault w -> good_fs (w_fs w) -> is_dir_at (w_fs w) (w_cwd w) -> plain (clone_path p remote) ->
    nearest (w_fs w) (w_cwd w) (absolute_of (w_cwd w) (clone_path p remote)) None ->
    exists w1, unchanged w w1 /\ clone_from home_of git_open git_init git_clone p remote s w =
      match git_clone remote (clone_path p remote) w1 with
      | (Ok q, w') => (Ok (clone_path p remote), remember (clone_path p remote) (made q w') s, w')
      | (Err e, w') => (Err e, s, w')
      end.
Proof. exact clone_fresh. Qed.
Print Assumptions C53_clone.
Theorem C53_clone_refuses_partial :
  forall home_of git_open git_init git_clone p remote s w wd,
    opens git_open -> no_fault w -> good_fs (w_fs w) -> is_dir_at (w_fs w) (w_cwd w) ->
    plain (clone_path p remote) -> normal (absolute_of (w_cwd w) (clone_path p remote)) -> told_there (w_fs w) (w_cwd w) s ->
    nearest (w_fs w) (w_cwd w) (absolute_of (w_cwd w) (clone_path p remote)) (Some wd) ->
    exists e s' w', unchanged w w' /\ clone_from home_of git_open git_init git_clone p remote s w = (Err e, s', w').
Proof. exact clone_refuses. Qed.
Print Assumptions C53_clone_refuses_partial.
(** The path relative to the repository leads back.  Missing from the full statement:
    paths with ".." ([C53_dotdot_refuted]) and repositories that [init] made through a link
    ([C53_link_refuted]). *)
Theorem C53_relative_partial :
  forall home_of git_open p s w wd,
    opens git_open -> no_fault w -> good_fs (w_fs w) -> is_dir_at (w_fs w) (w_cwd w) -> plain p ->
    normal (absolute_of (w_cwd w) p) -> told s ->
    nearest (w_fs w) (w_cwd w) (absolute_of (w_cwd w) p) (Some wd) ->
    exists r s' w', repo_relative_path home_of git_open p s w = (Ok r, s', w') /\ unchanged w w' /\
      pp_abs r = false /\ pp_join wd r = absolute_of (w_cwd w) p.
Proof. exact relative_run. Qed.
Print Assumptions C53_relative_partial.

(** /h is the home; /h/r and /h/r/s/t have repositories. *)
Definition c40_git : str * node := ($".git", Dir [] []).
Definition c40_fs : node :=
  Dir [] [($"h", Dir [] [($"r", Dir [] [c40_git; ($"s", Dir [] [($"t", Dir [] [c40_git; ($"f", File [] [])])])]); ($"d", Dir [] [])])].
Definition c40_home (x : str) : res ppath := if str_eqb x $"~" then Ok (pp_parse $"/h") else Err RuntimeErr.
Definition c40_wd (cwd : place) (p : str) : res (option ppath) :=
  fst (working_dir c40_home (pp_parse p) (start c40_fs cwd (fun _ => None))).

(** ~/r has a repository and is said to be in none; with a literal "~" the answer is
    a directory without one. *)
Theorem C40_refuted :
  has_git c40_fs [] (pp_parse $"/h/r") /\ expanduser c40_home (pp_parse $"~/r") = Ok (pp_parse $"/h/r") /\
  c40_wd [] $"~/r" = Ok None.
Proof. split; [eexists _, _; vm_compute; reflexivity|vm_compute; split; reflexivity]. Qed.
Print Assumptions C40_refuted.
(** ".." seen from /h/r/s/t/.. is /h/r/s, in the repository /h/r; the answer is
    /h/r/s/t, which is not above it. *)
Theorem C40_dotdot_refuted :
  c40_wd [$"h"; $"r"; $"s"; $"t"] $".." = Ok (Some (pp_parse $"/h/r/s/t")) /\
  c40_wd [$"h"; $"r"; $"s"; $"t"] $"/h/r/s" = Ok (Some (pp_parse $"/h/r")) /\
  exists n, walk c40_fs [$"h"; $"r"; $"s"; $"t"] true (pp_parse $"..") = Found [$"h"; $"r"; $"s"] n.
Proof. split; [vm_compute; reflexivity|split; [vm_compute; reflexivity|eexists; vm_compute; reflexivity]]. Qed.
Print Assumptions C40_dotdot_refuted.
(** GitPython: [Repo] takes ".." out of the text, [Repo.init] resolves the path. *)
Definition c53_norm (p : ppath) : ppath :=
  mkPP (pp_abs p) (rev (fold_left (fun acc x => if str_eqb x $".." then tl acc else x :: acc) (pp_parts p) [])).
Definition c53_open (p : ppath) : M ppath :=
  let! e <- p_exists (child (c53_norm p) $".git") ; if e then ret (c53_norm p) else raise GitCommandErr.
Definition c53_init (p : ppath) : M ppath :=
  let! e <- p_exists p ;
  let! _ <- (if e then ret tt else sys_mkdir p) ;
  let! _ <- sys_mkdir (child p $".git") ;
  ask (fun fs cwd => do r <- lookup true p fs cwd ; Ok (path_of (fst r))).
Definition c53_clone (_ : str) (p : ppath) : M ppath := let! _ <- c53_init p ; ret (c53_norm p).
Definition c53_run := init c40_home c53_open c53_init c53_clone.

(** The same for [init]: git is called for ~/r, where it makes a directory "~". *)
Theorem C53_refuted :
  exists h, fst (fst (init c40_home (fun p => ret p) (fun p => ret p) (fun _ p => ret p) (pp_parse $"~/r") None [] (start c40_fs [] (fun _ => None))))
    = Ok h /\ h_dir h = pp_parse $"~/r".
Proof. eexists. split; [vm_compute; reflexivity|reflexivity]. Qed.
Print Assumptions C53_refuted.
(** /h/l leads to /h/d.  A repository made at /h/l/n calls itself /h/d/n, so that nothing
    in it has a relative path by the name it was made by. *)
Definition c53_fs : node := put c40_fs [$"h"; $"l"] (Link $"d").
Theorem C53_link_refuted :
  exists h s w, c53_run (pp_parse $"/h/l/n") None [] (start c53_fs [] (fun _ => None)) = (Ok h, s, w) /\
    h_dir h = pp_parse $"/h/d/n" /\
    fst (fst (repo_relative_path c40_home c53_open (pp_parse $"/h/l/n/f") s w)) = Err ValueError /\
    fst (fst (repo_relative_path c40_home c53_open (pp_parse $"/h/d/n/f") s w)) = Ok (pp_parse $"f").
Proof. eexists _, _, _. split; [vm_compute; reflexivity|]. repeat split; vm_compute; reflexivity. Qed.
Print Assumptions C53_link_refuted.
(** /h/d/../r/s is in /h/d/../r, which has a repository; that one calls itself /h/r. *)
Theorem C53_dotdot_refuted :
  c40_wd [] $"/h/d/../r/s" = Ok (Some (pp_parse $"/h/d/../r")) /\
  fst (fst (repo_relative_path c40_home c53_open (pp_parse $"/h/d/../r/s") [] (start c40_fs [] (fun _ => None)))) = Err ValueError.
Proof. vm_compute. split; reflexivity. Qed.
Print Assumptions C53_dotdot_refuted.

Example C40_case :
  good_fs c40_fs /\ is_dir_at c40_fs [$"h"; $"r"] /\ plain (pp_parse $"s/t/f") /\
  c40_wd [] $"/h/r/s/t/f" = Ok (Some (pp_parse $"/h/r/s/t")) /\ c40_wd [] $"/h/r/s/x/y" = Ok (Some (pp_parse $"/h/r")) /\
  c40_wd [$"h"; $"r"] $"s" = Ok (Some (pp_parse $"/h/r")) /\ c40_wd [$"h"; $"r"] $"." = Ok (Some (pp_parse $"/h/r")) /\
  c40_wd [$"h"; $"d"] $"." = Ok None.
Proof.
  split; [apply good_fs_b_ok; vm_compute; reflexivity|]. split; [eexists; vm_compute; reflexivity|].
  split; [right; intros x r E; injection E as <- <-; vm_compute; reflexivity|].
  repeat (apply conj; [vm_compute; reflexivity|]); vm_compute; reflexivity.
Qed.
Example C53_case :
  opens c53_open /\ normal (pp_parse $"/h/r/s") /\ told [] /\ nearest c40_fs [] (pp_parse $"/h/d/new") None /\
  fst (c53_run (pp_parse $"/h/r/s") None [] (start c40_fs [] (fun _ => None)))
    = (Err RepoExistsErr, [(pp_parse $"/h/r", mkH (pp_parse $"/h/r") 1)]) /\
  fst (c53_run (pp_parse $"/h/r/new") None [] (start c40_fs [] (fun _ => None)))
    = (Err AssertionError, [(pp_parse $"/h/r", mkH (pp_parse $"/h/r") 1)]) /\
  fst (c53_run (pp_parse $"/h/d/new") None [] (start c40_fs [] (fun _ => None)))
    = (Ok (mkH (pp_parse $"/h/d/new") 3), [(pp_parse $"/h/d/new", mkH (pp_parse $"/h/d/new") 3)]) /\
  fst (fst (clone_from c40_home c53_open c53_init c53_clone (pp_parse $"/h/d") $"https://example.org/new.git" [] (start c40_fs [] (fun _ => None))))
    = Ok (pp_parse $"/h/d/new") /\
  fst (fst (clone_from c40_home c53_open c53_init c53_clone (pp_parse $"/h/r") $"https://example.org/s.git" [] (start c40_fs [] (fun _ => None))))
    = Err RepoExistsErr /\
  fst (repo_relative_path c40_home c53_open (pp_parse $"/h/r/s/x/y") [] (start c40_fs [] (fun _ => None)))
    = (Ok (pp_parse $"s/x/y"), [(pp_parse $"/h/r", mkH (pp_parse $"/h/r") 1)]).
Proof.
  split.
  { intros p w N NO H. assert (E : c53_norm p = p).
    { unfold c53_norm. destruct p as [a l]. cbn [pp_abs pp_parts] in *. f_equal.
      assert (K : forall l acc, (forall x, In x l -> x <> $"..") ->
        fold_left (fun acc x => if str_eqb x $".." then tl acc else x :: acc) l acc = rev l ++ acc).
      { clear. induction l as [|x l IH]; intros acc K; [reflexivity|]. cbn [fold_left rev].
        destruct (str_eqb x $"..") eqn:E; [apply str_eqb_eq in E; now destruct (K x (or_introl eq_refl))|].
        rewrite IH by (intros y Y; apply K; now right). now rewrite <- app_assoc. }
      rewrite K by (intros x X; now apply NO). now rewrite app_nil_r, rev_involutive. }
    unfold c53_open. rewrite E. unfold bind. destruct (exists_run (child p $".git") w N) as (w' & S & ->).
    apply there_git in H. rewrite H. exists w'. now split. }
  split; [intros x X; repeat (destruct X as [<-|X]; [split; [discriminate|intros Y; vm_compute in Y; intuition discriminate]|]); contradiction|].
  split; [intros k h K; discriminate|].
  split.
  { destruct (working_dir_run c40_home (pp_parse $"/h/d/new") (start c40_fs [] (fun _ => None))) as (o & w' & S & E & X).
    - intros t. reflexivity.
    - apply good_fs_b_ok. vm_compute. reflexivity.
    - eexists. vm_compute. reflexivity.
    - now left.
    - assert (K : o = None). { apply (f_equal fst) in E. vm_compute in E. now injection E. } subst o. exact X. }
  repeat (apply conj; [vm_compute; reflexivity|]); vm_compute; reflexivity.
Qed.
