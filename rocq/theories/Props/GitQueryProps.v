(** * C74, C75, C76: what git says about a path *)
From Coq Require Import String NArith Bool List Strings.Byte.
From Verif Require Import Model.Py Model.Git Model.GitQuery Spec.GitSpec Spec.GitQuerySpec Proofs.GitProofs Proofs.GitQueryProofs Props.GitProps.
Import ListNotations.

(** ** C74 *)
(** What is not committed of a path: from HEAD to the working tree.  Missing from the
    full statement: files that are not in the index ([C74_untracked_refuted],
    [C74_unstaged_refuted]), names that git takes for patterns ([C74_pattern_refuted],
    [C74_colon_refuted]), paths that are gone ([C74_gone_refuted]). *)
Theorem C74_uncommitted_partial :
  forall wild magic p g h l, literal p -> present g p -> commits g = h :: l ->
    (forall k, at_path p k -> tget h k <> None -> staged g k) ->
    exists r, has_uncommitted_changes wild magic p g = Ok r /\ told (tget h) (tget (g_work g)) p (staged g) r.
Proof. exact uncommitted_told. Qed.
Print Assumptions C74_uncommitted_partial.
(** The same for a file. *)
Theorem C74_file_partial :
  forall wild magic p g h l, literal p -> p <> $"." -> commits g = h :: l -> alone p h -> alone p (g_index g) ->
    tget (g_work g) p <> None -> staged g p ->
    (tget h p = tget (g_work g) p -> has_uncommitted_changes wild magic p g = Ok None) /\
    (tget h p <> tget (g_work g) p ->
       has_uncommitted_changes wild magic p g = Ok (Some (mkChange p (tget h p) (tget (g_work g) p)))).
Proof. exact uncommitted_file. Qed.
Print Assumptions C74_file_partial.
(** What is not added: from the index to the working tree. *)
Theorem C74_modified_partial :
  forall wild magic p g, literal p -> present g p ->
    exists r, modified wild magic p g = Ok r /\ told (tget (g_index g)) (tget (g_work g)) p (staged g) r.
Proof. exact modified_told. Qed.
Print Assumptions C74_modified_partial.
(** [diff(ref, ref_orig)] is from [ref_orig] to [ref].  Missing from the full statement:
    from the working tree ([C74_back_refuted]) and to the index ([C74_to_index_refuted]). *)
Theorem C74_diff_partial :
  forall wild magic rev ref ref_orig a b p g, means rev g ref_orig a -> means rev g ref b -> a <> Work -> b <> Index ->
    literal p -> present g p -> (b = Work -> still_in g p a) ->
    exists r, diff wild magic rev ref ref_orig p g = Ok r /\ told (content_at g a) (content_at g b) p (seen_on g b) r.
Proof. exact diff_told. Qed.
Print Assumptions C74_diff_partial.
(** Without [ref_orig] the change is told the other way round. *)
Theorem C74_back_partial :
  forall wild magic rev ref b p g, means rev g ref b -> b <> Work -> literal p -> present g p -> still_in g p b ->
    exists r, diff wild magic rev ref None p g = Ok r /\ told (content_at g b) (content_at g Work) p (staged g) r.
Proof. exact diff_back. Qed.
Print Assumptions C74_back_partial.

Definition c74_wild (p k : str) : bool := true.
Definition c74_magic (p k : str) : bool := false.
Definition c74_rev (g : git) (r : str) : option tree :=
  if str_eqb r $"HEAD" then hd_error (commits g) else if str_eqb r $"HEAD~1" then hd_error (tl (commits g)) else None.
Definition c74_old : tree := [($"d/a", [x31]); ($"d/b", [x31]); ($"e", [x31])].
Definition c74_new : tree := [($"d/a", [x32]); ($"d/b", [x31]); ($"e", [x31])].
Definition c74_git (index work : tree) : git := mkGit [($"main", mkRef true [c74_new; c74_old])] (On $"main") index work [].
(** d/a was changed by the last commit and is changed again, d/b is changed and added, d/u is new. *)
Definition c74_g : git :=
  c74_git [($"d/a", [x32]); ($"d/b", [x33]); ($"e", [x31])] [($"d/a", [x34]); ($"d/b", [x33]); ($"e", [x31]); ($"d/u", [x39])].
Lemma c74_literal : literal $"d/a" /\ literal $"d" /\ literal $"e" /\ literal $"d/b" /\ literal $"u".
Proof.
  repeat split; try (intros r; discriminate);
    intros c I J; vm_compute in I, J; repeat (destruct I as [<- | I]; [repeat (destruct J as [J | J]; [discriminate J|]); exact J|]); exact I.
Qed.
Example C74_case :
  present c74_g $"d" /\ alone $"d/a" c74_new /\ alone $"d/a" (g_index c74_g) /\ still_in c74_g $"d" (Commit c74_new) /\
  has_uncommitted_changes c74_wild c74_magic $"d" c74_g = Ok (Some (mkChange $"d/a" (Some [x32]) (Some [x34]))) /\
  has_uncommitted_changes c74_wild c74_magic $"d/b" c74_g = Ok (Some (mkChange $"d/b" (Some [x31]) (Some [x33]))) /\
  has_uncommitted_changes c74_wild c74_magic $"e" c74_g = Ok None /\
  modified c74_wild c74_magic $"d/b" c74_g = Ok None /\
  modified c74_wild c74_magic $"d" c74_g = Ok (Some (mkChange $"d/a" (Some [x32]) (Some [x34]))) /\
  diff c74_wild c74_magic c74_rev (Some $"HEAD") (Some $"HEAD~1") $"d/a" c74_g = Ok (Some (mkChange $"d/a" (Some [x31]) (Some [x32]))) /\
  diff c74_wild c74_magic c74_rev (Some $"HEAD~1") (Some $"HEAD") $"d/a" c74_g = Ok (Some (mkChange $"d/a" (Some [x32]) (Some [x31]))) /\
  diff c74_wild c74_magic c74_rev (Some $"HEAD") (Some []) $"d/b" c74_g = Ok (Some (mkChange $"d/b" (Some [x33]) (Some [x31]))) /\
  diff c74_wild c74_magic c74_rev None (Some $"HEAD~1") $"d/a" c74_g = Ok (Some (mkChange $"d/a" (Some [x31]) (Some [x34]))) /\
  diff c74_wild c74_magic c74_rev (Some []) None $"d/a" c74_g = Ok (Some (mkChange $"d/a" (Some [x32]) (Some [x34]))).
Proof.
  split; [apply there_iff; reflexivity|]. split; [intros r; reflexivity|]. split; [intros r; reflexivity|]. split; [|vm_compute; repeat split; reflexivity].
  intros k _ N. unfold staged. apply tget_keys in N. vm_compute in N. repeat (destruct N as [<- | N]; [vm_compute; discriminate|]). destruct N.
Qed.
(** [indexed()] raises, whatever the state. *)
Theorem C74_indexed_refuted :
  forall wild magic p g t l, present g p -> commits g = t :: l -> indexed wild magic p g = Err GitCommandErr.
Proof. exact indexed_fails. Qed.
Print Assumptions C74_indexed_refuted.
(** So does a diff to the index. *)
Theorem C74_to_index_refuted :
  forall wild magic rev ref ref_orig a p g, means rev g ref_orig a -> means rev g ref Index -> a <> Work -> present g p ->
    diff wild magic rev ref ref_orig p g = Err (match a with Index => ValueError | _ => GitCommandErr end).
Proof. exact diff_index. Qed.
Print Assumptions C74_to_index_refuted.
Example C74_indexed_case :
  present c74_g $"d/b" /\ indexed c74_wild c74_magic $"d/b" c74_g = Err GitCommandErr /\
  diff c74_wild c74_magic c74_rev (Some []) (Some $"HEAD") $"d/b" c74_g = Err GitCommandErr /\
  diff c74_wild c74_magic c74_rev (Some []) (Some []) $"d/b" c74_g = Err ValueError.
Proof. split; [apply there_iff; reflexivity|]. vm_compute. repeat split. Qed.
(** A diff from the working tree is not one. *)
Theorem C74_back_refuted :
  exists wild magic rev b p g r, means rev g (Some $"HEAD") b /\ literal p /\ present g p /\ still_in g p b /\
    diff wild magic rev (Some $"HEAD") None p g = Ok r /\ ~ told (content_at g Work) (content_at g b) p (staged g) r.
Proof.
  exists c74_wild, c74_magic, c74_rev, (Commit c74_new), $"d/a", c74_g, (Some (mkChange $"d/a" (Some [x32]) (Some [x34]))).
  split; [reflexivity|]. split; [apply c74_literal|]. split; [apply there_iff; reflexivity|]. split.
  { intros k _ N. unfold staged. apply tget_keys in N. vm_compute in N. repeat (destruct N as [<- | N]; [vm_compute; discriminate|]). destruct N. }
  split; [reflexivity|]. intros (_ & _ & B & _). vm_compute in B. discriminate B.
Qed.
Print Assumptions C74_back_refuted.
(** A file that is new has no uncommitted changes. *)
Theorem C74_untracked_refuted :
  forall wild magic p g h l v, literal p -> p <> $"." -> commits g = h :: l -> alone p h -> alone p (g_index g) ->
    tget (g_work g) p = Some v -> tget h p = None -> tget (g_index g) p = None ->
    has_uncommitted_changes wild magic p g = Ok None /\ modified wild magic p g = Ok None.
Proof. exact untracked_silent. Qed.
Print Assumptions C74_untracked_refuted.
Example C74_untracked_case :
  tget (g_work c74_g) $"d/u" = Some [x39] /\ tget c74_new $"d/u" = None /\ tget (g_index c74_g) $"d/u" = None.
Proof. vm_compute. repeat split. Qed.
(** Taken out of the index, and there as before: told to be removed. *)
Theorem C74_unstaged_refuted :
  exists wild magic p g h l, literal p /\ present g p /\ commits g = h :: l /\ tget (g_work g) p = tget h p /\
    has_uncommitted_changes wild magic p g = Ok (Some (mkChange p (tget h p) None)).
Proof.
  exists c74_wild, c74_magic, $"e", (c74_git [($"d/a", [x32]); ($"d/b", [x31])] c74_new), c74_new, [c74_old].
  split; [apply c74_literal|]. split; [apply there_iff; reflexivity|]. repeat split.
Qed.
Print Assumptions C74_unstaged_refuted.
(** The change of another file is told of one with a star in its name. *)
Theorem C74_pattern_refuted :
  forall wild magic, star wild -> exists p q g h l, p <> q /\ ~ at_path p q /\ commits g = h :: l /\
    tget (g_work g) p = tget h p /\ tget (g_work g) p <> None /\ staged g p /\
    has_uncommitted_changes wild magic p g = Ok (Some (mkChange q (tget h q) (tget (g_work g) q))).
Proof.
  intros wild magic S.
  set (h := [($"a*", [x31]); ($"ab", [x31])] : tree).
  exists $"a*", $"ab", (mkGit [($"main", mkRef true [h])] (On $"main") h [($"a*", [x31]); ($"ab", [x32])] []), h, [].
  split; [discriminate|]. split; [intros [X|[X|[r X]]]; discriminate X|]. repeat split; try (vm_compute; discriminate).
  pose proof (S $"a" $"b" []) as W. vm_compute in W. vm_compute. rewrite W. reflexivity.
Qed.
Print Assumptions C74_pattern_refuted.
(** After a colon: git sees other words, and no change. *)
Theorem C74_colon_refuted :
  forall wild magic, (forall k, magic $":c" k = str_eqb k $"c") -> exists g h l, commits g = h :: l /\
    staged g $":c" /\ tget (g_work g) $":c" <> None /\ tget (g_work g) $":c" <> tget h $":c" /\
    has_uncommitted_changes wild magic $":c" g = Ok None.
Proof.
  intros wild magic M. set (h := [($":c", [x31])] : tree).
  exists (mkGit [($"main", mkRef true [h])] (On $"main") h [($":c", [x32])] []), h, []. repeat split; try (vm_compute; discriminate).
  pose proof (M $":c") as W. vm_compute in W. vm_compute. rewrite W. reflexivity.
Qed.
Print Assumptions C74_colon_refuted.
(** A file that was removed: asking raises. *)
Theorem C74_gone_refuted :
  forall wild magic p g t l, ~ present g p -> commits g = t :: l ->
    modified wild magic p g = Err (OSErr ENOENT) /\ has_uncommitted_changes wild magic p g = Err (OSErr ENOENT).
Proof. exact absent_fails. Qed.
Print Assumptions C74_gone_refuted.

Example C74_gone_case :
  ~ present (c74_git c74_new [($"e", [x31])]) $"d/a" /\
  has_uncommitted_changes c74_wild c74_magic $"d/a" (c74_git c74_new [($"e", [x31])]) = Err (OSErr ENOENT).
Proof. split; [|reflexivity]. intros P. apply there_iff in P. discriminate P. Qed.

(** *** Adding and committing (C41) *)
(** [add_index] puts the files that are there into the index as they are, and touches
    nothing else; what was removed from a directory stays in the index. *)
Theorem C41_add_index :
  forall p g, p <> $"." ->
  (present g p -> exists g', add_index p g = (Ok tt, g') /\
     g_refs g' = g_refs g /\ g_head g' = g_head g /\ g_work g' = g_work g /\ g_stash g' = g_stash g /\
     (forall k v, at_path p k -> tget (g_work g) k = Some v -> tget (g_index g') k = Some v) /\
     (forall k, ~ at_path p k \/ tget (g_work g) k = None -> tget (g_index g') k = tget (g_index g) k)) /\
  (~ present g p -> add_index p g = (Err (OSErr ENOENT), g)).
Proof. exact add_index_does. Qed.
Print Assumptions C41_add_index.
Example C41_add_index_case :
  present c74_g $"d" /\ tget (g_index c74_g) $"d/u" = None /\
  map (tget (g_index (snd (add_index $"d" c74_g)))) [$"d/a"; $"d/b"; $"d/u"] = [Some [x34]; Some [x33]; Some [x39]].
Proof. split; [apply there_iff; reflexivity|]. vm_compute. repeat split. Qed.
(** [commit_from_working_tree] of a file, new or known: one commit more, of the file as
    it is and nothing else. *)
Theorem C41_from_working_tree :
  forall merge sel fails g b h l p v,
    g_head g = On b -> commits g = h :: l -> p <> $"." -> alone p (g_work g) -> sel p = true -> (forall k, sel k = true -> k = p) ->
    tget (g_work g) p = Some v -> tget h p <> Some v ->
    exists t g', commit_from_working_tree merge sel fails p g = (match fails with Some e => Err e | None => Ok t end, g') /\
      g_head g' = On b /\ commits g' = (match fails with Some _ => h :: l | None => t :: h :: l end) /\
      (forall n, n <> b -> find_ref n (g_refs g') = find_ref n (g_refs g)) /\
      g_stash g' = g_stash g /\ same_tree (g_work g') (g_work g) /\ tget t p = Some v /\ (forall k, k <> p -> tget t k = tget h k).
Proof. exact commit_added. Qed.
Print Assumptions C41_from_working_tree.
Example C41_from_working_tree_case :
  exists t g', commit_from_working_tree c41_merge (str_eqb $"d/u") None $"d/u" c74_g = (Ok t, g') /\ commits g' = [t; c74_new; c74_old] /\
    map (tget t) [$"d/a"; $"d/b"; $"e"; $"d/u"] = [Some [x32]; Some [x31]; Some [x31]; Some [x39]] /\
    map (tget (g_work g')) [$"d/a"; $"d/b"; $"e"; $"d/u"] = [Some [x34]; Some [x33]; Some [x31]; Some [x39]].
Proof. eexists _, _. vm_compute. repeat split. Qed.

(** ** C75 *)
(** The file as it is in the working tree. *)
Theorem C75_work :
  forall rev listing p g b, tget (g_work g) p = Some b -> show rev listing None p g = Ok b.
Proof. exact show_work. Qed.
Print Assumptions C75_work.
(** A directory is no file, and what is not there is not found. *)
Theorem C75_work_none :
  forall rev listing p g, tget (g_work g) p = None ->
    (present g p -> show rev listing None p g = Err (OSErr EISDIR)) /\
    (~ present g p -> show rev listing None p g = Err (OSErr ENOENT)).
Proof. exact show_work_none. Qed.
Print Assumptions C75_work_none.
(** The file as it is in a commit or in the index, when it does not end in a newline.
    Missing: files that do ([C75_newline_refuted]), and in the index names such as
    `0:a` ([C75_stage_refuted]). *)
Theorem C75_partial :
  forall rev listing ref s p g b, means rev g (Some ref) s -> content_at g s p = Some b -> (forall a, b <> a ++ [x0a]) ->
    (ref = [] -> forall c r, In c $"0123" -> p <> c :: 58%N :: r) ->
    show rev listing (Some ref) p g = Ok b.
Proof. exact show_exact. Qed.
Print Assumptions C75_partial.
(** Nothing there: an error, and not another file. *)
Theorem C75_none :
  forall rev listing r p g t, r <> [] -> rev g r = Some t -> tget t p = None -> alone p t ->
    show rev listing (Some r) p g = Err GitCommandErr.
Proof. exact show_ref_none. Qed.
Print Assumptions C75_none.
(** The newline at the end is lost, always. *)
Theorem C75_newline_refuted :
  forall rev listing ref s p g b, means rev g (Some ref) s -> content_at g s p = Some (b ++ [x0a]) ->
    (ref = [] -> forall c r, In c $"0123" -> p <> c :: 58%N :: r) ->
    show rev listing (Some ref) p g = Ok b.
Proof. exact show_newline. Qed.
Print Assumptions C75_newline_refuted.
Definition c75_g : git :=
  c74_git [($"0:a", [x31]); ($"a", [x32]); ($"b", [x41; xff; xc3; xa9; xe2; x82; x0d; x0a])] c74_new.
Definition c75_list (t : tree) (p : str) : bytes := [].
Example C75_case :
  show c74_rev c75_list (Some $"HEAD~1") $"d/a" c75_g = Ok [x31] /\ show c74_rev c75_list (Some $"HEAD") $"d/a" c75_g = Ok [x32] /\
  show c74_rev c75_list (Some []) $"b" c75_g = Ok [x41; xff; xc3; xa9; xe2; x82; x0d] /\ show c74_rev c75_list (Some $"HEAD") $"z" c75_g = Err GitCommandErr /\
  show c74_rev c75_list None $"d/a" c75_g = Ok [x32].
Proof. vm_compute. repeat split. Qed.
(** `0:a` in the index is read as `a` at stage 0. *)
Theorem C75_stage_refuted :
  exists rev listing p g b c, content_at g Index p = Some b /\ (forall a, b <> a ++ [x0a]) /\ show rev listing (Some []) p g = Ok c /\ c <> b.
Proof.
  exists c74_rev, c75_list, $"0:a", c75_g, [x31], [x32]. split; [reflexivity|]. split; [|split; [reflexivity|discriminate]].
  intros [|x [|y a]] E; discriminate E.
Qed.
Print Assumptions C75_stage_refuted.

(** ** C76 *)
(** The last commit of a path: it changed the path, and nothing after it did; without
    one no commit ever had it.  Missing: names that git takes for patterns
    ([C76_pattern_refuted]); for a link the commits are those of its target, [q] being
    the path resolved. *)
Theorem C76_latest_partial :
  forall wild history r q g l, literal q -> line_of history r g l ->
    match latest_commit wild history r (Some q) g with
    | Ok c => suffix_of c l /\ changed_in q c /\ same_at q (top l) (top c)
    | Err e => e = NoCommitsErr /\ forall t, In t l -> forall k, at_path q k -> tget t k = None
    end.
Proof. exact latest_told. Qed.
Print Assumptions C76_latest_partial.
(** All commits of a path: exactly those that changed it, the newest first, as many as asked for. *)
Theorem C76_commits_partial :
  forall wild history r q g l n, literal q -> line_of history r g l ->
    exists m, path_commits wild history r (Some q) n g = Ok m /\
      (match n with None => forall c, In c m <-> suffix_of c l /\ changed_in q c
       | Some k => (length m <= k)%nat /\ (forall c, In c m -> suffix_of c l /\ changed_in q c) /\
           ((length m < k)%nat -> forall c, suffix_of c l -> changed_in q c -> In c m) end) /\
      forall a c b d e, m = a ++ c :: b ++ d :: e -> (length d < length c)%nat.
Proof. exact commits_told. Qed.
Print Assumptions C76_commits_partial.
Definition c76_hist (g : git) (r : str) : option (list tree) := if str_eqb r $"old" then Some [c74_old] else None.
Example C76_case :
  line_of c76_hist None c74_g [c74_new; c74_old] /\
  latest_commit c74_wild c76_hist None (Some $"d/a") c74_g = Ok [c74_new; c74_old] /\
  latest_commit c74_wild c76_hist None (Some $"e") c74_g = Ok [c74_old] /\
  latest_commit c74_wild c76_hist None (Some $"d/u") c74_g = Err NoCommitsErr /\
  latest_commit c74_wild c76_hist (Some $"old") (Some $"d/a") c74_g = Ok [c74_old] /\
  path_commits c74_wild c76_hist None (Some $"d") None c74_g = Ok [[c74_new; c74_old]; [c74_old]].
Proof. split; [split; [reflexivity|discriminate]|]. vm_compute. repeat split. Qed.
(** A star in the name: the commits of other files. *)
Theorem C76_pattern_refuted :
  forall wild history, star wild -> exists q g h l c, commits g = h :: l /\ latest_commit wild history None (Some q) g = Ok c /\ ~ changed_in q c.
Proof.
  intros wild history S. set (o := [($"a*", [x31]); ($"ab", [x31])] : tree). set (h := [($"a*", [x31]); ($"ab", [x32])] : tree).
  exists $"a*", (mkGit [($"main", mkRef true [h; o])] (On $"main") h h []), h, [o], [h; o]. split; [reflexivity|]. split.
  - pose proof (S $"a" $"b" []) as W. vm_compute in W. vm_compute. rewrite W. now destruct (wild _ _).
  - intros (k & A & N). apply N. destruct A as [A|[-> |[r ->]]]; [discriminate A|reflexivity|reflexivity].
Qed.
Print Assumptions C76_pattern_refuted.
(** Before the first commit it is not NoCommitsForFile that is raised. *)
Theorem C76_unborn_refuted :
  forall wild history q g, commits g = [] -> latest_commit wild history None q g = Err ValueError.
Proof. exact latest_unborn. Qed.
Print Assumptions C76_unborn_refuted.
Example C76_unborn_case : latest_commit c74_wild c76_hist None (Some $"e") (mkGit [] (On $"main") c74_new c74_new []) = Err ValueError.
Proof. reflexivity. Qed.
