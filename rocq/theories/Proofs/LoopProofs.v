(** * Proofs about links that point below themselves *)
From Coq Require Import String NArith ZArith Bool List Lia.
From Verif Require Import Model.Py Model.PurePath Model.Meta Model.MetaSymlink Model.Fs Model.PathOps Spec.FsSpec Spec.LoopSpec
  Proofs.PyLemmas Proofs.PathLemmas Proofs.FsLemmas Proofs.RunLemmas.
Import ListNotations.

Lemma filter_dots (l : list str) x r : filter (fun c => negb (str_eqb c $".")) l = x :: r ->
  exists dots s, l = dots ++ x :: s /\ Forall (fun c => c = $".") dots.
Proof.
  induction l as [|c l IH]; cbn [filter]; intro H; [discriminate|]. destruct (str_eqb c $".") eqn:E; cbn [negb] in H.
  - apply str_eqb_eq in E. destruct (IH H) as (dots & s & -> & F). exists (c :: dots), s. split; [reflexivity|now constructor].
  - injection H as -> _. now exists [], l.
Qed.

Lemma filter_filter {A} (f g : A -> bool) l : filter f (filter g l) = filter (fun x => (g x && f x)%bool) l.
Proof.
  induction l as [|x l IH]; [reflexivity|]. cbn [filter]. destruct (g x) eqn:G; cbn [andb filter]; [|assumption].
  destruct (f x); now rewrite IH.
Qed.

Lemma kcomps_name name t : starts_with_name name t ->
  startswith t $"/" = false /\ t <> [] /\ exists dots s, kcomps t = dots ++ name :: s /\ Forall (fun c => c = $".") dots.
Proof.
  intros (l & H). unfold pp_parse in H. injection H as H1 H2. split; [exact H1|]. split.
  - intros ->. discriminate.
  - assert (F : filter (fun c => negb (str_eqb c $".")) (filter (fun c => negb (str_eqb c [])) (split (chr "/") t)) = name :: l).
    { rewrite filter_filter. rewrite <- H2. apply filter_ext. intro c. unfold real_part. now rewrite negb_orb. }
    apply filter_dots in F as (dots & s & E & D). unfold kcomps. rewrite E, <- app_assoc. cbn [app].
    eexists dots, _. split; [reflexivity|assumption].
Qed.

Lemma walk_dots root follow b cur dots rest : Forall (fun c => c = $".") dots ->
  (exists xs es, get root cur = Some (Dir xs es)) ->
  walk_from root follow b cur (dots ++ rest) = walk_from root follow b cur rest.
Proof.
  intros F (xs & es & G). induction F as [|c dots -> F IH]; [reflexivity|].
  cbn [app]. rewrite walk_eq, G, str_eqb_refl. exact IH.
Qed.

Lemma loop_from root d name t xs es : good_name name -> get root d = Some (Dir xs es) -> entry name es = Some (Link t) ->
  starts_with_name name t ->
  forall b rest, walk_from root true b d (name :: rest) = Fail ELOOP.
Proof.
  intros (N1 & N2 & N3 & N4) G E S. apply kcomps_name in S as (S1 & S2 & dots & s & S3 & S4).
  apply str_eqb_neq in N2, N3.
  induction b as [|b IH]; intro rest; rewrite walk_eq, G, N2, N3, E; cbn [negb].
  - destruct rest; reflexivity.
  - assert (F : match rest with [] => false | _ :: _ => false end = false) by (destruct rest; reflexivity).
    rewrite F. destruct t as [|a t]; [congruence|]. rewrite S1, S3, <- app_assoc.
    rewrite walk_dots by eauto. apply IH.
Qed.

(** A path that leads to the link when it is not followed, fails when it is. *)
Lemma loop_walk root name t d : good_name name -> starts_with_name name t ->
  forall b cur comps, (exists xs es, get root cur = Some (Dir xs es)) ->
    walk_from root false b cur comps = Found (d ++ [name]) (Link t) ->
    walk_from root true b cur comps = Fail ELOOP.
Proof.
  intros N S.
  assert (Up : forall cur xs es, get root cur = Some (Dir xs es) -> exists xs es, get root (removelast cur) = Some (Dir xs es)).
  { intros cur xs es G. destruct cur as [|x cur _] using rev_ind; [cbn; eauto|]. rewrite removelast_last.
    now apply get_above in G. }
  induction b as [|b IHb]; intros cur comps; revert cur; induction comps as [|c rest IH]; intros cur (xs & es & G) H;
    rewrite walk_eq in H; rewrite walk_eq; rewrite G in *; try discriminate;
    destruct (str_eqb c $"."); try (apply IH; [now eauto|assumption]);
    destruct (str_eqb c $".."); try (apply IH; [eapply Up; eassumption|assumption]);
    destruct (entry c es) as [[d' xs'|xs' es'|t']|] eqn:E; try (destruct rest; discriminate).
  (* files *)
  1,4: exfalso; rewrite walk_eq, get_snoc, G, E in H; destruct rest; discriminate.
  (* directories *)
  1,3: apply IH; [rewrite get_snoc, G, E; now eauto|assumption].
  - destruct rest; reflexivity.
  - destruct rest as [|c' rest].
    + cbn [negb] in *. injection H as H ->. apply app_inj_tail in H as [-> ->].
      pose proof (kcomps_name _ _ S) as (S1 & S2 & dots & s & S3 & S4).
      destruct t as [|a t]; [congruence|]. rewrite S1, app_nil_r, S3, walk_dots by eauto.
      eapply loop_from; eauto.
    + cbn [negb] in *. destruct t' as [|a t']; [discriminate|]. apply IHb; [|assumption].
      destruct (startswith (a :: t') $"/"); [|now eauto].
      destruct root as [d0 x0|x0 e0|t0]; cbn [get]; eauto; destruct cur; discriminate.
Qed.

Lemma loop_stat fs cwd p d name t : good_name name -> starts_with_name name t ->
  (exists xs es, get fs cwd = Some (Dir xs es)) ->
  leads fs cwd p (d ++ [name]) -> get fs (d ++ [name]) = Some (Link t) ->
  walk fs cwd true p = Fail ELOOP.
Proof.
  intros N S C (n & H) G. unfold walk in *.
  pose proof (walk_found_get _ _ _ _ _ _ _ H) as G'. rewrite G in G'. injection G' as <-.
  eapply loop_walk; eauto. destruct (pp_abs p); [|assumption]. destruct C as (xs & es & C).
  destruct fs as [d0 x0|x0 e0|t0]; cbn [get]; eauto; destruct cwd; discriminate.
Qed.

Lemma loop_never w p d name t : good_name name -> starts_with_name name t ->
  (exists xs es, get (w_fs w) (w_cwd w) = Some (Dir xs es)) ->
  leads (w_fs w) (w_cwd w) p (d ++ [name]) -> look (w_fs w) (d ++ [name]) = Some (ALink t) ->
  fst (p_exists p w) <> Ok true /\ fst (p_is_file p w) <> Ok true /\ fst (p_is_dir p w) <> Ok true.
Proof.
  intros N S C L K. apply look_link in K. pose proof (loop_stat _ _ _ _ _ _ N S C L K) as W.
  repeat split; intro H;
  [unfold p_exists in H|unfold p_is_file in H|unfold p_is_dir in H];
  (match type of H with fst (?m w) = _ => destruct (m w) as [r w'] eqn:E end; cbn [fst] in H; subst r;
   apply test_inv in E as [_ E]; destruct (E eq_refl) as (q & n & E' & _); congruence).
Qed.

Lemma loop_broken w p d name t : no_fault w -> good_name name -> starts_with_name name t ->
  (exists xs es, get (w_fs w) (w_cwd w) = Some (Dir xs es)) ->
  leads (w_fs w) (w_cwd w) p (d ++ [name]) -> look (w_fs w) (d ++ [name]) = Some (ALink t) ->
  fst (p_exists p w) = Ok false /\ fst (p_is_file p w) = Ok false /\ fst (p_is_dir p w) = Ok false /\
  fst (p_is_symlink p w) = Ok true /\ fst (p_is_broken_symlink p w) = Ok true.
Proof.
  intros F N S C L K. apply look_link in K. pose proof (loop_stat _ _ _ _ _ _ N S C L K) as W.
  assert (W' : exists n, walk (w_fs w) (w_cwd w) false p = Found (d ++ [name]) n) by exact L.
  destruct W' as (n & W').
  assert (n = Link t) as ->. { unfold walk in W'. pose proof (walk_found_get _ _ _ _ _ _ _ W'). congruence. }
  split; [|split; [|split; [|split]]].
  - unfold p_exists. destruct (test_run true p (fun _ => true) w F) as (w' & _ & E). now rewrite E, W.
  - unfold p_is_file. edestruct (test_run true p) as (w' & _ & E); [exact F|]. rewrite E, W. reflexivity.
  - unfold p_is_dir. edestruct (test_run true p) as (w' & _ & E); [exact F|]. rewrite E, W. reflexivity.
  - unfold p_is_symlink. edestruct (test_run false p) as (w' & _ & E); [exact F|]. rewrite E, W'. reflexivity.
  - unfold p_is_broken_symlink, bind, p_is_symlink. edestruct (test_run false p) as (w' & Sm & E); [exact F|]. rewrite E, W'.
    unfold p_exists. pose proof (no_fault_same _ _ Sm F) as F'. destruct (test_run true p (fun _ => true) w' F') as (w2 & _ & E2).
    rewrite E2. destruct Sm as (-> & -> & _). rewrite W. reflexivity.
Qed.

(** The link that stores metadata starts with its name. *)
Lemma cache_link dateparse m name q : good_name name -> as_symlink dateparse m (Some name) = Ok q -> pp_abs q = false ->
  starts_with_name name (pp_str q).
Proof.
  intros (N1 & N2 & N3 & N4) H R. unfold as_symlink in H. destruct (symlink_text dateparse m) as [t|]; [|discriminate].
  cbn [rbind] in H. apply Ok_inj in H.
  assert (NP : norm_part name).
  { split; [|assumption]. unfold real_part. apply negb_true_iff, orb_false_iff. split; now apply str_eqb_neq. }
  rewrite (pp_parse_part name NP) in H. unfold pp_join in H.
  assert (E : exists l, q = mkPP false (name :: l) /\ norm_path q).
  { destruct (pp_abs (pp_parse t)) eqn:A.
    - subst q. congruence.
    - subst q. cbn [pp_abs pp_parts app]. eexists. split; [reflexivity|]. constructor; [assumption|apply norm_parse]. }
  destruct E as (l & -> & NQ). exists l. now apply pp_parse_str.
Qed.
