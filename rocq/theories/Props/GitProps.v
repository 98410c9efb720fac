(** * C41, C42: committing one path, and references as contexts *)
From Coq Require Import String NArith Bool List Strings.Byte.
From Verif Require Import Model.Py Model.Git Spec.GitSpec Proofs.GitProofs.
Import ListNotations.

(** ** C41 *)
(** On a branch with a commit and with something changed: one commit more, of what was
    asked for and nothing else; working tree, stash, and other references are as
    before.  Missing from the full statement: what was staged and is not as in the
    working tree ([C41_index_refuted]), trees without changes ([C41_refuted]),
    the first commit ([C41_first_refuted]), files removed ([C41_removed_refuted]). *)
Theorem C41_partial :
  forall merge sel fails g b h l, g_head g = On b -> commits g = h :: l -> changes g h ->
    exists t g', commit_path merge sel fails g = (match fails with Some e => Err e | None => Ok t end, g') /\
      g_head g' = On b /\ commits g' = (match fails with Some _ => h :: l | None => t :: h :: l end) /\
      (forall n, n <> b -> find_ref n (g_refs g') = find_ref n (g_refs g)) /\
      g_stash g' = g_stash g /\ same_tree (g_work g') (g_work g) /\ only sel g h t /\ index_of g h t (g_index g').
Proof. exact commit_spec. Qed.
Print Assumptions C41_partial.
(** Nothing changed and nothing stashed: a commit without changes. *)
Theorem C41_nothing :
  forall merge sel g b h l, g_head g = On b -> commits g = h :: l -> ~ changes g h -> g_stash g = [] ->
    exists g', commit_path merge sel None g = (Ok (g_index g), g') /\ commits g' = g_index g :: h :: l /\
      g_index g' = g_index g /\ g_work g' = g_work g /\ g_stash g' = [] /\ same_tree (g_index g) h.
Proof. exact commit_nothing. Qed.
Print Assumptions C41_nothing.

Definition c41_merge (b o t : option bytes) : option (option bytes) := None.
Definition c41_sel (k : str) : bool := str_eqb k $"a".
(** a and b changed; c is not known; d is added; the user has a stash. *)
Definition c41_old : tree := [($"a", [x31]); ($"b", [x31])].
Definition c41_mine : stashed := mkStashed c41_old c41_old [($"a", [x39]); ($"b", [x31])] [].
Definition c41_git (index work : tree) (s : list stashed) : git := mkGit [($"main", mkRef true [c41_old])] (On $"main") index work s.
Example C41_case :
  let g := c41_git ([($"d", [x32])] ++ c41_old) [($"a", [x32]); ($"b", [x32]); ($"c", [x32]); ($"d", [x32])] [c41_mine] in
  commits g = [c41_old] /\ changes g c41_old /\
  exists t g', commit_path c41_merge c41_sel None g = (Ok t, g') /\ commits g' = [t; c41_old] /\ g_stash g' = [c41_mine] /\
    map (tget t) [$"a"; $"b"; $"c"; $"d"; $"e"] = [Some [x32]; Some [x31]; None; None; None] /\
    map (tget (g_work g')) [$"a"; $"b"; $"c"; $"d"; $"e"] = [Some [x32]; Some [x32]; Some [x32]; Some [x32]; None] /\
    map (tget (g_index g')) [$"a"; $"b"; $"c"; $"d"; $"e"] = [Some [x32]; Some [x31]; None; Some [x32]; None].
Proof.
  split; [reflexivity|]. split; [exists $"a"; right; split; [left|]; vm_compute; discriminate|].
  eexists _, _. vm_compute. repeat split; reflexivity.
Qed.
Example C41_fails_case :
  let g := c41_git c41_old [($"a", [x32]); ($"b", [x32])] [c41_mine] in
  exists g', commit_path c41_merge c41_sel (Some ValueError) g = (Err ValueError, g') /\ g_refs g' = g_refs g /\ g_stash g' = [c41_mine].
Proof. eexists. vm_compute. repeat split; reflexivity. Qed.
(** Nothing is changed: git makes no stash, so that the user's stash is committed and gone. *)
Theorem C41_refuted :
  ~ (forall merge sel g b h l, g_head g = On b -> commits g = h :: l ->
       exists t g', commit_path merge sel None g = (Ok t, g') /\ g_stash g' = g_stash g /\ only sel g h t).
Proof.
  intros H. destruct (H c41_merge c41_sel (c41_git c41_old c41_old [c41_mine]) $"main" c41_old [] eq_refl eq_refl) as (t & g' & E & S & _).
  vm_compute in E. injection E as <- <-. discriminate S.
Qed.
Print Assumptions C41_refuted.
Example C41_refuted_case :
  exists t g', commit_path c41_merge c41_sel None (c41_git c41_old c41_old [c41_mine]) = (Ok t, g') /\ tget t $"a" = Some [x39] /\ g_stash g' = [].
Proof. eexists _, _. vm_compute. repeat split; reflexivity. Qed.
(** b was staged as 5 and then changed to 6: what was staged is nowhere any more. *)
Theorem C41_index_refuted :
  ~ (forall merge sel g b h l, g_head g = On b -> commits g = h :: l -> changes g h ->
       exists t g', commit_path merge sel None g = (Ok t, g') /\ forall k, sel k = false -> tget (g_index g') k = tget (g_index g) k).
Proof.
  intros H. destruct (H c41_merge c41_sel (c41_git [($"a", [x31]); ($"b", [x35])] [($"a", [x32]); ($"b", [x36])] []) $"main" c41_old [] eq_refl eq_refl) as (t & g' & E & S).
  - exists $"b". left. vm_compute. discriminate.
  - specialize (S $"b" eq_refl). vm_compute in E. injection E as <- <-. vm_compute in S. discriminate S.
Qed.
Print Assumptions C41_index_refuted.
(** The first commit has everything that was added. *)
Theorem C41_first :
  forall merge sel g b, g_head g = On b -> commits g = [] ->
    exists g', commit_path merge sel None g = (Ok (g_index g), g') /\ commits g' = [g_index g] /\ g_work g' = g_work g /\ g_stash g' = g_stash g.
Proof. exact commit_first. Qed.
Print Assumptions C41_first.
Theorem C41_first_refuted :
  ~ (forall merge sel g b, g_head g = On b -> commits g = [] -> exists t g', commit_path merge sel None g = (Ok t, g') /\ only sel g [] t).
Proof.
  intros H. destruct (H c41_merge c41_sel (mkGit [] (On $"main") c41_old c41_old []) $"main" eq_refl eq_refl) as (t & g' & E & S).
  vm_compute in E. injection E as <- <-. destruct (S $"b") as [_ N]. specialize (N (or_introl eq_refl)). vm_compute in N. discriminate N.
Qed.
Print Assumptions C41_first_refuted.
(** A removed file stays in the commit. *)
Theorem C41_removed_refuted :
  ~ (forall merge sel g b h l, g_head g = On b -> commits g = h :: l -> changes g h ->
       exists t g', commit_path merge sel None g = (Ok t, g') /\ forall k, sel k = true -> known g h k -> tget t k = tget (g_work g) k).
Proof.
  intros H. destruct (H c41_merge c41_sel (c41_git c41_old [($"b", [x31])] []) $"main" c41_old [] eq_refl eq_refl) as (t & g' & E & S).
  - exists $"a". right. split; [left|]; vm_compute; discriminate.
  - specialize (S $"a" eq_refl). vm_compute in E. injection E as <- <-. vm_compute in S. discriminate S. left. discriminate.
Qed.
Print Assumptions C41_removed_refuted.

(** ** C42 *)
(** From a branch, with a branch: afterwards the same branch, commits, working tree and
    stash, with what the body left uncommitted as one entry above.  The body sees the
    reference's commit.  Missing from the full statement: what was staged
    ([C42_index_refuted]), bodies that make a stash ([C42_refuted]), references
    that are not branches ([C42_tag_refuted]). *)
Theorem C42_partial :
  forall merge self body g b h l t tl, g_head g = On b -> find_ref b (g_refs g) = Some (mkRef true (h :: l)) ->
    find_ref self (g_refs g) = Some (mkRef true (t :: tl)) -> careful self b body ->
    exists g1 x g2 g' m, within merge self body g = (match x with Some e => Err e | None => Ok tt end, g') /\
      (body g1 = (x, g2) /\ g_head g1 = On self /\ g_refs g1 = g_refs g /\ same_tree (g_index g1) t /\ same_tree (g_work g1) t) /\
      g_head g' = On b /\ commits g' = h :: l /\ g_refs g' = g_refs g2 /\ same_tree (g_work g') (g_work g) /\ index_of g h h (g_index g') /\
      g_stash g' = m ++ g_stash g /\
      ((exists e, m = [e] /\ keeps e g2) \/ m = [] /\ exists h2 l2, commits g2 = h2 :: l2 /\ same_tree (g_work g2) h2 /\ same_tree (g_index g2) h2).
Proof. exact within_spec. Qed.
Print Assumptions C42_partial.

Definition c42_other : tree := [($"a", [x37])].
Definition c42_refs : list (str * ref) := [($"main", mkRef true [c41_old]); ($"dev", mkRef true [c42_other; c41_old]); ($"v1", mkRef false [c42_other])].
Definition c42_git (index work : tree) (s : list stashed) : git := mkGit c42_refs (On $"main") index work s.
(** A body that writes a and raises, and one that makes a stash of its own. *)
Definition c42_body (g : git) : option exn * git := (Some KeyError, mkGit (g_refs g) (g_head g) (g_index g) [($"a", [x38])] (g_stash g)).
Definition c42_stashes (g : git) : option exn * git := (None, mkGit (g_refs g) (g_head g) (g_index g) (g_work g) (c41_mine :: g_stash g)).
Example C42_case :
  let g := c42_git c41_old [($"a", [x32]); ($"b", [x31]); ($"u", [x33])] [c41_mine] in
  careful $"dev" $"main" c42_body /\ careful $"main" $"main" c42_body /\
  forall self, self = $"dev" \/ self = $"main" ->
    exists e g', within c41_merge self c42_body g = (Err KeyError, g') /\ g_head g' = On $"main" /\ g_refs g' = c42_refs /\
      g_stash g' = [e; c41_mine] /\ map (tget (g_work g')) [$"a"; $"b"; $"u"; $"w"] = [Some [x32]; Some [x31]; Some [x33]; None] /\
      tget (s_work e) $"a" = Some [x38].
Proof.
  split; [|split].
  - intros g x g' H N E. injection E as <- <-. repeat split; try assumption. discriminate.
  - intros g x g' H N E. injection E as <- <-. repeat split; try assumption. intros _. exact H.
  - intros self [-> | ->]; eexists _, _; vm_compute; repeat split; reflexivity.
Qed.
(** The body's own stash is taken for the one made on entering. *)
Theorem C42_refuted :
  ~ (forall merge self body g b h l t tl, g_head g = On b -> find_ref b (g_refs g) = Some (mkRef true (h :: l)) ->
       find_ref self (g_refs g) = Some (mkRef true (t :: tl)) ->
       (forall g x g', body g = (x, g') -> g_refs g' = g_refs g /\ g_head g' = g_head g) ->
       same_tree (g_work (snd (within merge self body g))) (g_work g)).
Proof.
  intros H. pose proof (H c41_merge $"dev" c42_stashes (c42_git c41_old [($"a", [x32]); ($"b", [x31])] []) $"main" c41_old [] c42_other [c41_old] eq_refl eq_refl eq_refl) as K.
  assert (B : forall g x g', c42_stashes g = (x, g') -> g_refs g' = g_refs g /\ g_head g' = g_head g).
  { intros g x g' E. injection E as <- <-. now split. }
  specialize (K B $"a"). vm_compute in K. discriminate K.
Qed.
Print Assumptions C42_refuted.
(** What was staged is replaced by the commit's. *)
Theorem C42_index_refuted :
  ~ (forall merge self body g b h l t tl, g_head g = On b -> find_ref b (g_refs g) = Some (mkRef true (h :: l)) ->
       find_ref self (g_refs g) = Some (mkRef true (t :: tl)) -> careful self b body ->
       same_tree (g_index (snd (within merge self body g))) (g_index g)).
Proof.
  intros H. pose proof (H c41_merge $"dev" c42_body (c42_git [($"a", [x35]); ($"b", [x31])] [($"a", [x36]); ($"b", [x31])] []) $"main" c41_old [] c42_other [c41_old] eq_refl eq_refl eq_refl (proj1 C42_case)) as K.
  specialize (K $"a"). vm_compute in K. discriminate K.
Qed.
Print Assumptions C42_index_refuted.
(** A tag has no checkout: raised when all changes are on the stash already. *)
Theorem C42_tag_refuted :
  ~ (forall merge self body g b h l, g_head g = On b -> find_ref b (g_refs g) = Some (mkRef true (h :: l)) ->
       find_ref self (g_refs g) <> None -> careful self b body ->
       same_tree (g_work (snd (within merge self body g))) (g_work g)).
Proof.
  intros H. pose proof (H c41_merge $"v1" c42_body (c42_git c41_old [($"a", [x32]); ($"b", [x31])] []) $"main" c41_old [] eq_refl eq_refl) as K.
  assert (N : find_ref $"v1" (g_refs (c42_git c41_old [($"a", [x32]); ($"b", [x31])] [])) <> None) by discriminate.
  specialize (K N). assert (B : careful $"v1" $"main" c42_body).
  { intros g x g' E M F. injection F as <- <-. repeat split; try assumption. discriminate. }
  specialize (K B $"a"). vm_compute in K. discriminate K.
Qed.
Print Assumptions C42_tag_refuted.
Example C42_tag_case :
  exists g', within c41_merge $"v1" c42_body (c42_git c41_old [($"a", [x32]); ($"b", [x31])] []) = (Err AttributeError, g') /\ length (g_stash g') = 1%nat.
Proof. eexists. vm_compute. split; reflexivity. Qed.
