(** * What a package path remembers *)
From Coq Require Import String NArith PeanoNat Bool List Lia.
From Verif Require Import Model.Py Model.PurePath Model.PackageMemo Spec.PackageMemoSpec Proofs.PyLemmas.
Import ListNotations.

Section Proofs.
Variables (J : Type) (sk : bool) (runs : nat -> res outcome) (pypi github : nat -> res (response J))
  (folder : res ppath) (uri_api : res str).
Notation read := (read J sk runs pypi github folder uri_api).
Notation readings := (readings J sk runs pypi github folder uri_api).
Notation mstate := (mstate J).
Notation name := (arg_packagename J sk runs).
Notation dist_ := (setup_dist J runs).
Notation kwargs_ := (setup_kwargs J runs).
Notation module_ := (module J sk runs folder).
Notation init_ := (module_init_file J sk runs folder).
Notation pypi_ := (pypi_json J sk runs pypi).
Notation github_ := (github_json J github uri_api).

Definition kept {A} (x y : option A) : Prop := forall a, x = Some a -> y = Some a.
Definition cnt (f : question -> bool) (l : list question) : nat := length (filter f l).
Lemma cnt_app f a b : cnt f (a ++ b) = cnt f a + cnt f b.
Proof. unfold cnt. now rewrite filter_app, app_length. Qed.

(** From one state to another, asking [l] *)
Record goes (s s1 : mstate) (l : list question) : Prop := mkGoes {
  g_dist : kept (s_dist _ s) (s_dist _ s1); g_kwargs : kept (s_kwargs _ s) (s_kwargs _ s1);
  g_pypi : kept (s_pypi _ s) (s_pypi _ s1); g_github : kept (s_github _ s) (s_github _ s1);
  g_runs : n_runs _ s1 = n_runs _ s + cnt is_setup l;
  g_npypi : n_pypi _ s1 = n_pypi _ s + cnt is_pypi l;
  g_ngithub : n_github _ s1 = n_github _ s + cnt is_github l }.
Lemma goes_refl s : goes s s [].
Proof. constructor; try (now intros a E); cbn; lia. Qed.
Lemma goes_trans a b c l l' : goes a b l -> goes b c l' -> goes a c (l ++ l').
Proof.
  intros [] []. constructor; try (intros x E; auto); rewrite cnt_app; lia.
Qed.
Definition fair {A} (m : Q J A) : Prop := forall s r s1 l, m s = (r, s1, l) -> goes s s1 l.
Lemma fair_ret A (a : A) : fair (qret J a). Proof. intros s r s1 l H. injection H as <- <- <-. apply goes_refl. Qed.
Lemma fair_raise A e : fair (@qraise J A e). Proof. intros s r s1 l H. injection H as <- <- <-. apply goes_refl. Qed.
Lemma fair_lift A (x : res A) : fair (qlift J x). Proof. intros s r s1 l H. injection H as <- <- <-. apply goes_refl. Qed.
Lemma fair_bind A B (m : Q J A) (f : A -> Q J B) : fair m -> (forall a, fair (f a)) -> fair (qbind J m f).
Proof.
  intros Fm Ff s r s1 l H. unfold qbind in H. destruct (m s) as [[[a|e] s2] l2] eqn:E; apply Fm in E.
  - destruct (f a s2) as [[r3 s3] l3] eqn:E3. apply Ff in E3. injection H as <- <- <-. now apply (goes_trans _ s2).
  - now injection H as <- <- <-.
Qed.

Lemma dist_fair : fair dist_.
Proof.
  intros s r s1 l H. unfold setup_dist in H. destruct (s_dist _ s) as [o|] eqn:E; [injection H as <- <- <-; apply goes_refl|].
  unfold qbind, run_setup, keep_dist in H. destruct (runs (n_runs _ s)) as [o|e]; injection H as <- <- <-;
    constructor; cbn [s_dist s_kwargs s_pypi s_github n_runs n_pypi n_github app]; try (intros a Z; congruence); cbn; lia.
Qed.
Lemma kwargs_fair : fair kwargs_.
Proof.
  intros s r s1 l H. unfold setup_kwargs in H. destruct (s_kwargs _ s) as [o|] eqn:E; [injection H as <- <- <-; apply goes_refl|].
  unfold qbind, run_setup, keep_kwargs, qraise in H. destruct (runs (n_runs _ s)) as [[d|k]|e]; injection H as <- <- <-;
    constructor; cbn [s_dist s_kwargs s_pypi s_github n_runs n_pypi n_github app]; try (intros a Z; congruence); cbn; lia.
Qed.
Lemma name_fair : fair name.
Proof.
  unfold arg_packagename. destruct sk; apply fair_bind; auto using kwargs_fair, dist_fair, fair_lift.
Qed.
Lemma module_of_fair n p : fair (module_of J folder n p).
Proof.
  unfold module_of. destruct p as [l|]; [|apply fair_raise]. destruct existsb; [|apply fair_raise]. apply fair_bind; [apply fair_lift|intro; apply fair_ret].
Qed.
Lemma module_fair : fair module_.
Proof.
  pose proof name_fair as NF. unfold module. destruct sk.
  - apply fair_bind; [apply kwargs_fair|]. intro k. destruct (k_name k), (k_packages k); auto using fair_raise, module_of_fair.
  - apply fair_bind; [apply NF|]. intro n. apply fair_bind; [apply dist_fair|]. intros [d|k]; auto using fair_raise, module_of_fair.
Qed.
Lemma keep_pypi_run s : s_pypi _ s = None -> forall j, goes s (snd (fst (keep_pypi J j s))) [].
Proof. intros E j. constructor; cbn; try (intros a Z; congruence); lia. Qed.
Lemma keep_github_run s : s_github _ s = None -> forall j, goes s (snd (fst (keep_github J j s))) [].
Proof. intros E j. constructor; cbn; try (intros a Z; congruence); lia. Qed.

(** the name does not touch what is known of the others *)
Lemma name_pypi s r s1 l : name s = (r, s1, l) -> s_pypi _ s1 = s_pypi _ s /\ s_github _ s1 = s_github _ s /\ n_pypi _ s1 = n_pypi _ s /\ cnt is_pypi l = 0 /\ cnt is_github l = 0.
Proof.
  unfold arg_packagename. destruct sk; unfold qbind, setup_kwargs, setup_dist, qret, qlift, qraise, run_setup, keep_dist, keep_kwargs, qbind.
  - destruct (s_kwargs _ s) as [k|]; [intro H; injection H as <- <- <-; now repeat split|].
    destruct (runs (n_runs _ s)) as [[d|k]|e]; intro H; injection H as <- <- <-; now repeat split.
  - destruct (s_dist _ s) as [k|]; [intro H; injection H as <- <- <-; now repeat split|].
    destruct (runs (n_runs _ s)) as [d|e]; intro H; injection H as <- <- <-; now repeat split.
Qed.

(** What the reading of PyPI does where nothing is known yet *)
Lemma pypi_run s r s1 l : s_pypi _ s = None -> pypi_ s = (r, s1, l) ->
  (exists e, r = Err e /\ name s = (Err e, s1, l)) \/
  (exists n s2 l2, name s = (Ok n, s2, l2) /\ l = l2 ++ [ToPypi n] /\
     (do v <- r ; Ok (VJson J v)) = of_pypi J (pypi (n_pypi _ s)) /\ goes s2 s1 [ToPypi n] /\
     forall j, r = Ok (Some j) -> s_pypi _ s1 = Some j).
Proof.
  intros E H. unfold pypi_json in H. rewrite E in H. unfold qbind at 1 in H. destruct (name s) as [[[n|e] s2] l2] eqn:En.
  2: { injection H as <- <- <-. left. eauto. }
  right. apply name_pypi in En as (P & _ & NP & _). rewrite E in P. rewrite <- NP.
  unfold qbind, get_pypi in H. exists n, s2, l2. split; [reflexivity|].
  destruct (pypi (n_pypi _ s2)) as [x|e]; cbn [of_pypi rbind].
  2: { injection H as <- <- <-. split; [reflexivity|]. split; [reflexivity|]. split; [|intros j Z; discriminate].
       constructor; cbn; try (now intros a Z); lia. }
  destruct (r_ok _ x).
  - unfold qlift, keep_pypi in H. destruct (r_json _ x) as [j|e]; injection H as <- <- <-; (split; [reflexivity|]); (split; [reflexivity|]).
    + split; [constructor; cbn; try (intros a Z; congruence); lia|]. intros j' Z. now injection Z as <-.
    + split; [constructor; cbn; try (intros a Z; congruence); lia|]. intros j' Z. discriminate.
  - unfold qret in H. injection H as <- <- <-. split; [reflexivity|]. split; [reflexivity|].
    split; [constructor; cbn; try (intros a Z; congruence); lia|]. intros j' Z. discriminate.
Qed.
Lemma github_run s r s1 l : s_github _ s = None -> github_ s = (r, s1, l) ->
  (exists e, uri_api = Err e /\ r = Err e /\ s1 = s /\ l = []) \/
  (exists u, uri_api = Ok u /\ l = [ToGithub u] /\
     (do v <- r ; Ok (VJson J v)) = of_github J (github (n_github _ s)) /\ goes s s1 l /\
     forall j, r = Ok (Some j) -> s_github _ s1 = Some j).
Proof.
  intros E H. unfold github_json in H. rewrite E in H. unfold qbind, qlift, get_github in H. destruct uri_api as [u|e].
  2: { injection H as <- <- <-. left. eauto 6. }
  right. exists u. split; [reflexivity|]. unfold of_github. destruct (github (n_github _ s)) as [x|e]; cbn [rbind].
  2: { injection H as <- <- <-. split; [reflexivity|]. split; [reflexivity|]. split; [|intros j Z; discriminate].
       constructor; cbn; try (now intros a Z); lia. }
  destruct (r_ok _ x); [|destruct (N.eqb (r_status _ x) 403)].
  - unfold keep_github in H. destruct (r_json _ x) as [j|e]; injection H as <- <- <-; (split; [reflexivity|]); (split; [reflexivity|]).
    + split; [constructor; cbn; try (intros a Z; congruence); lia|]. intros j' Z. now injection Z as <-.
    + split; [constructor; cbn; try (intros a Z; congruence); lia|]. intros j' Z. discriminate.
  - unfold qret in H. destruct (r_json _ x) as [j|e]; injection H as <- <- <-; (split; [reflexivity|]); (split; [reflexivity|]);
      (split; [constructor; cbn; try (intros a Z; congruence); lia|]); intros j' Z; discriminate.
  - unfold qret in H. injection H as <- <- <-. split; [reflexivity|]. split; [reflexivity|].
    split; [constructor; cbn; try (intros a Z; congruence); lia|]. intros j' Z. discriminate.
Qed.
Lemma pypi_fair : fair pypi_.
Proof.
  intros s r s1 l H. destruct (s_pypi _ s) as [j|] eqn:E.
  - unfold pypi_json in H. rewrite E in H. injection H as <- <- <-. apply goes_refl.
  - destruct (pypi_run _ _ _ _ E H) as [(e & -> & En)|(n & s2 & l2 & En & -> & _ & G & _)]; apply name_fair in En; [assumption|]. now apply (goes_trans _ s2).
Qed.
Lemma github_fair : fair github_.
Proof.
  intros s r s1 l H. destruct (s_github _ s) as [j|] eqn:E.
  - unfold github_json in H. rewrite E in H. injection H as <- <- <-. apply goes_refl.
  - destruct (github_run _ _ _ _ E H) as [(e & _ & -> & -> & ->)|(u & _ & _ & _ & G & _)]; [apply goes_refl|assumption].
Qed.
Lemma read_fair a : fair (read a).
Proof.
  destruct a; cbn [PackageMemo.read]; unfold qmap; apply fair_bind;
    auto using fair_ret, dist_fair, kwargs_fair, name_fair, module_fair, pypi_fair, github_fair.
  apply fair_bind; auto using module_fair, fair_ret.
Qed.

(** ** An answer that is known *)
Definition knows (s : mstate) (a : attr) (v : value J) : Prop :=
  match a, v with
  | ADist, VDist _ o => s_dist _ s = Some o
  | AKwargs, VKwargs _ k => s_kwargs _ s = Some k
  | AName, VName _ n => if sk then exists k, s_kwargs _ s = Some k /\ k_name k = Some n else exists d, s_dist _ s = Some (ODist d) /\ d_name d = n
  | AModule, VPath _ p | AInit, VPath _ p =>
      exists n l f, (if sk then exists k, s_kwargs _ s = Some k /\ k_name k = Some n /\ k_packages k = Some (Some l)
                     else exists d, s_dist _ s = Some (ODist d) /\ d_name d = n /\ d_packages d = Some l) /\
        existsb (fun p => str_eqb p n) l = true /\ folder = Ok f /\
        p = (match a with AInit => pp_join (pp_join f (pp_parse n)) (pp_parse $"__init__.py") | _ => pp_join f (pp_parse n) end)
  | APypi, VJson _ (Some j) => s_pypi _ s = Some j
  | AGithub, VJson _ (Some j) => s_github _ s = Some j
  | _, _ => False
  end.
Lemma knows_goes s s1 l a v : goes s s1 l -> knows s a v -> knows s1 a v.
Proof.
  intros [D K P G _ _ _] H. destruct a, v; cbn [knows] in *; auto; try contradiction.
  - destruct sk; [destruct H as (k & H & E); exists k; auto|destruct H as (d & H & E); exists d; auto].
  - destruct H as (n & x & f & H & R). exists n, x, f. split; [|assumption].
    destruct sk; [destruct H as (k & H & E); exists k; auto|destruct H as (d & H & E); exists d; auto].
  - destruct H as (n & x & f & H & R). exists n, x, f. split; [|assumption].
    destruct sk; [destruct H as (k & H & E); exists k; auto|destruct H as (d & H & E); exists d; auto].
  - destruct j; auto.
  - destruct j; auto.
Qed.
Lemma knows_reads s a v : knows s a v -> read a s = (Ok v, s, []).
Proof.
  intro H. destruct a, v; cbn [knows] in H; try contradiction; cbn [PackageMemo.read]; unfold qmap.
  - unfold qbind, setup_dist. now rewrite H.
  - unfold qbind, setup_kwargs. now rewrite H.
  - unfold arg_packagename. destruct sk; [destruct H as (k & H & E)|destruct H as (d & H & E)]; unfold qbind, setup_kwargs, setup_dist; rewrite H; unfold qret, qlift; [now rewrite E|now subst].
  - destruct H as (n & l & f & H & X & F & ->). unfold module, arg_packagename. destruct sk; [destruct H as (k & H & E1 & E2)|destruct H as (d & H & E1 & E2)];
      unfold qbind, setup_kwargs, setup_dist; rewrite !H; unfold qret, qlift; cbv beta iota; rewrite ?H, ?E1, ?E2; unfold module_of; rewrite ?X, ?E1, ?X; unfold qbind, qlift, qret; now rewrite F.
  - destruct H as (n & l & f & H & X & F & ->). unfold module_init_file, module, arg_packagename. destruct sk; [destruct H as (k & H & E1 & E2)|destruct H as (d & H & E1 & E2)];
      unfold qbind, setup_kwargs, setup_dist; rewrite !H; unfold qret, qlift; cbv beta iota; rewrite ?H, ?E1, ?E2; unfold module_of; rewrite ?X, ?E1, ?X; unfold qbind, qlift, qret; now rewrite F.
  - destruct j as [j|]; [|contradiction]. unfold qbind, pypi_json. now rewrite H.
  - destruct j as [j|]; [|contradiction]. unfold qbind, github_json. now rewrite H.
Qed.

Lemma dist_knows s o s1 l : dist_ s = (Ok o, s1, l) -> s_dist _ s1 = Some o.
Proof.
  unfold setup_dist. destruct (s_dist _ s) eqn:E; [intro H; injection H as <- <- <-; assumption|].
  unfold qbind, run_setup, keep_dist. destruct (runs (n_runs _ s)); intro H; [|discriminate]. now injection H as <- <- <-.
Qed.
Lemma kwargs_knows s o s1 l : kwargs_ s = (Ok o, s1, l) -> s_kwargs _ s1 = Some o.
Proof.
  unfold setup_kwargs. destruct (s_kwargs _ s) eqn:E; [intro H; injection H as <- <- <-; assumption|].
  unfold qbind, run_setup, keep_kwargs, qraise. destruct (runs (n_runs _ s)) as [[d|k]|]; intro H; try discriminate. now injection H as <- <- <-.
Qed.
Lemma qbind_ok A B (m : Q J A) (f : A -> Q J B) s b s1 l : qbind J m f s = (Ok b, s1, l) ->
  exists a s2 l1 l2, m s = (Ok a, s2, l1) /\ f a s2 = (Ok b, s1, l2) /\ l = l1 ++ l2.
Proof.
  unfold qbind. destruct (m s) as [[[a|e] s2] l1]; intro H; [|discriminate]. destruct (f a s2) as [[r s3] l2] eqn:E. injection H as -> <- <-. now exists a, s2, l1, l2.
Qed.
Lemma qlift_ok A (x : res A) s a s1 l : qlift J x s = (Ok a, s1, l) -> x = Ok a /\ s1 = s /\ l = [].
Proof. intro H. injection H as -> <- <-. auto. Qed.
Lemma qret_ok A (x : A) s a s1 l : qret J x s = (Ok a, s1, l) -> x = a /\ s1 = s /\ l = [].
Proof. intro H. injection H as -> <- <-. auto. Qed.
Lemma name_knows s n s1 l : name s = (Ok n, s1, l) -> knows s1 AName (VName J n).
Proof.
  unfold arg_packagename. cbn [knows]. destruct sk; intro H; apply qbind_ok in H as (x & s2 & l1 & l2 & H1 & H2 & _); apply qlift_ok in H2 as (E & -> & _).
  - apply kwargs_knows in H1. exists x. split; [assumption|]. destruct (k_name x); [now injection E as ->|discriminate].
  - apply dist_knows in H1. destruct x as [d|k]; [|discriminate]. exists d. split; [assumption|now injection E].
Qed.
Lemma module_knows s p s1 l : module_ s = (Ok p, s1, l) -> knows s1 AModule (VPath J p).
Proof.
  assert (Of : forall n ps s0 s1 l, module_of J folder n ps s0 = (Ok p, s1, l) -> s1 = s0 /\ exists q f, ps = Some q /\ existsb (fun x => str_eqb x n) q = true /\ folder = Ok f /\ p = pp_join f (pp_parse n)).
  { clear. intros n ps s0 s1 l H. unfold module_of in H. destruct ps as [q|]; [|discriminate]. destruct existsb eqn:X; [|discriminate].
    apply qbind_ok in H as (f & s2 & l1 & l2 & H1 & H2 & _). apply qlift_ok in H1 as (F & -> & _). apply qret_ok in H2 as (<- & -> & _). split; [reflexivity|]. now exists q, f. }
  unfold module. cbn [knows]. destruct sk eqn:Ek; intro H.
  - apply qbind_ok in H as (k & s2 & l1 & l2 & H1 & H2 & _). apply kwargs_knows in H1.
    destruct (k_name k) as [n|] eqn:En; [|discriminate]. destruct (k_packages k) as [ps|] eqn:Ep; [|discriminate].
    apply Of in H2 as (-> & q & f & -> & X & F & ->). exists n, q, f. split; [exists k; auto|auto].
  - apply qbind_ok in H as (n & s2 & l1 & l2 & H1 & H2 & _).
    pose proof (name_knows s n s2 l1) as Kn. cbn [knows] in Kn. rewrite Ek in Kn. specialize (Kn H1).
    apply qbind_ok in H2 as (o & s3 & l3 & l4 & H2 & H3 & _). pose proof (dist_fair _ _ _ _ H2) as G. destruct Kn as (d & Kd & Nd).
    apply (g_dist _ _ _ G) in Kd. apply dist_knows in H2. rewrite Kd in H2. injection H2 as <-.
    apply Of in H3 as (-> & q & f & Q & X & F & ->). exists n, q, f. split; [exists d; auto|auto].
Qed.
Lemma read_knows s a v s1 l : read a s = (Ok v, s1, l) -> v <> VJson J None -> knows s1 a v.
Proof.
  intros H N. destruct a; cbn [PackageMemo.read] in H; unfold qmap in H; apply qbind_ok in H as (x & s2 & l1 & l2 & H1 & H2 & _); apply qret_ok in H2 as (<- & -> & _).
  - now apply dist_knows in H1.
  - now apply kwargs_knows in H1.
  - now apply name_knows in H1.
  - now apply module_knows in H1.
  - unfold module_init_file in H1. apply qbind_ok in H1 as (m & s3 & l3 & l4 & H1 & H2 & _). apply qret_ok in H2 as (<- & -> & _).
    apply module_knows in H1. cbn [knows] in *. destruct H1 as (n & q & f & H1 & X & F & ->). exists n, q, f. auto.
  - destruct x as [j|]; [|now destruct N]. cbn [knows]. destruct (s_pypi _ s) as [j0|] eqn:E.
    + unfold pypi_json in H1. rewrite E in H1. apply qret_ok in H1 as (Z & <- & _). congruence.
    + destruct (pypi_run _ _ _ _ E H1) as [(e & Z & _)|(n & s3 & l3 & _ & _ & _ & _ & Z)]; [discriminate|]. now apply Z.
  - destruct x as [j|]; [|now destruct N]. cbn [knows]. destruct (s_github _ s) as [j0|] eqn:E.
    + unfold github_json in H1. rewrite E in H1. apply qret_ok in H1 as (Z & <- & _). congruence.
    + destruct (github_run _ _ _ _ E H1) as [(e & _ & Z & _)|(u & _ & _ & _ & _ & Z)]; [discriminate|]. now apply Z.
Qed.

(** ** Histories *)
Record inv (t : list (reading J)) (s : mstate) : Prop := mkInv {
  i_knows : forall x a v, In x t -> answered J a v x -> knows s a v;
  i_runs : n_runs _ s = asked J is_setup t; i_pypi : n_pypi _ s = asked J is_pypi t; i_github : n_github _ s = asked J is_github t;
  i_spypi : forall j, s_pypi _ s = Some j -> exists x, In x t /\ answered J APypi (VJson J (Some j)) x;
  i_sgithub : forall j, s_github _ s = Some j -> exists x, In x t /\ answered J AGithub (VJson J (Some j)) x }.
Lemma inv_new : inv [] (new J).
Proof. constructor; cbn; try reflexivity; try discriminate. intros x a v []. Qed.
Lemma asked_snoc f t x : asked J f (t ++ [x]) = asked J f t + cnt f (x_asked _ x).
Proof. unfold asked, cnt. rewrite flat_map_app, filter_app, app_length. cbn [flat_map]. now rewrite app_nil_r. Qed.

(** What is known of PyPI changes with [pypi_json] only, and likewise for GitHub *)
Definition still (K : mstate -> option J) {A} (m : Q J A) : Prop := forall s r s1 l, m s = (r, s1, l) -> K s1 = K s.
Lemma still_ret K A (a : A) : still K (qret J a). Proof. intros s r s1 l H. now injection H as _ <- _. Qed.
Lemma still_raise K A e : still K (@qraise J A e). Proof. intros s r s1 l H. now injection H as _ <- _. Qed.
Lemma still_lift K A (x : res A) : still K (qlift J x). Proof. intros s r s1 l H. now injection H as _ <- _. Qed.
Lemma still_bind K A B (m : Q J A) (f : A -> Q J B) : still K m -> (forall a, still K (f a)) -> still K (qbind J m f).
Proof.
  intros Fm Ff s r s1 l H. unfold qbind in H. destruct (m s) as [[[a|e] s2] l2] eqn:E; apply Fm in E.
  - destruct (f a s2) as [[r3 s3] l3] eqn:E3. apply Ff in E3. injection H as _ <- _. congruence.
  - now injection H as _ <- _.
Qed.
Definition field (K : mstate -> option J) : Prop := K = s_pypi J \/ K = s_github J.
Lemma still_dist K : field K -> still K dist_.
Proof.
  intros F s r s1 l. unfold setup_dist, qbind, run_setup, keep_dist, qret. destruct (s_dist _ s); [intro H; now injection H as _ <- _|].
  destruct (runs _); intro H; injection H as _ <- _; now destruct F as [-> | ->].
Qed.
Lemma still_kwargs K : field K -> still K kwargs_.
Proof.
  intros F s r s1 l. unfold setup_kwargs, qbind, run_setup, keep_kwargs, qret, qraise. destruct (s_kwargs _ s); [intro H; now injection H as _ <- _|].
  destruct (runs _) as [[|]|]; intro H; injection H as _ <- _; now destruct F as [-> | ->].
Qed.
Lemma still_name K : field K -> still K name.
Proof. intro F. unfold arg_packagename. destruct sk; apply still_bind; auto using still_kwargs, still_dist, still_lift. Qed.
Lemma still_of K n p : still K (module_of J folder n p).
Proof. unfold module_of. destruct p as [l|]; [|apply still_raise]. destruct existsb; [|apply still_raise]. apply still_bind; [apply still_lift|intro; apply still_ret]. Qed.
Lemma still_module K : field K -> still K module_.
Proof.
  intro F. pose proof (still_name K F) as NF. unfold module. destruct sk.
  - apply still_bind; [now apply still_kwargs|]. intro k. destruct (k_name k), (k_packages k); auto using still_raise, still_of.
  - apply still_bind; [apply NF|]. intro n. apply still_bind; [now apply still_dist|]. intros [d|k]; auto using still_raise, still_of.
Qed.
Lemma still_pypi : still (s_github J) pypi_.
Proof.
  intros s r s1 l H. unfold pypi_json in H. destruct (s_pypi _ s); [now injection H as _ <- _|]. revert s r s1 l H.
  match goal with |- forall s r s1 l, ?m s = _ -> _ => change (still (s_github J) m) end.
  apply still_bind; [apply still_name; now right|]. intro n. apply still_bind; [intros s r s1 l H; now injection H as _ <- _|]. intro x.
  destruct (r_ok _ x); [|apply still_ret]. apply still_bind; [apply still_lift|]. intros j s r s1 l H. now injection H as _ <- _.
Qed.
Lemma still_github : still (s_pypi J) github_.
Proof.
  intros s r s1 l H. unfold github_json in H. destruct (s_github _ s); [now injection H as _ <- _|]. revert s r s1 l H.
  match goal with |- forall s r s1 l, ?m s = _ -> _ => change (still (s_pypi J) m) end.
  apply still_bind; [apply still_lift|]. intro u. apply still_bind; [intros s r s1 l H; now injection H as _ <- _|]. intro x.
  destruct (r_ok _ x); [apply still_bind; [apply still_lift|]; intros j s r s1 l H; now injection H as _ <- _|].
  destruct (N.eqb _ _); [|apply still_ret]. apply still_bind; [apply still_lift|]. intro. apply still_ret.
Qed.
Lemma still_read K a : field K -> (a = APypi -> K = s_github J) -> (a = AGithub -> K = s_pypi J) -> still K (read a).
Proof.
  intros F Fp Fg. destruct a; cbn [PackageMemo.read]; unfold qmap; (apply still_bind; [|intro; apply still_ret]);
    auto using still_dist, still_kwargs, still_name, still_module.
  - apply still_bind; [now apply still_module|intro; apply still_ret].
  - rewrite (Fp eq_refl). apply still_pypi.
  - rewrite (Fg eq_refl). apply still_github.
Qed.

Lemma json_known K a s v s1 l j : read a s = (v, s1, l) -> (a = APypi /\ K = s_pypi J \/ a = AGithub /\ K = s_github J) ->
  K s1 = Some j -> K s = None -> v = Ok (VJson J (Some j)).
Proof.
  intros H C K1 K0. destruct C as [[-> ->]|[-> ->]]; cbn [PackageMemo.read] in H; unfold qmap, qbind at 1 in H.
  - destruct (pypi_ s) as [[r s2] l2] eqn:E. 
    assert (s2 = s1 /\ v = do x <- r ; Ok (VJson J x)) as [-> ->] by (destruct r; unfold qret in H; now injection H as <- <- _).
    clear H. unfold pypi_json in E. rewrite K0 in E. unfold qbind at 1 in E. destruct (name s) as [[[n|e] s3] l3] eqn:En; apply name_pypi in En as (P & _).
    2: { injection E as <- <- _. congruence. }
    unfold qbind, get_pypi in E. destruct (pypi _) as [x|e]; [|injection E as <- <- _; cbn in K1; congruence].
    destruct (r_ok _ x); [|unfold qret in E; injection E as <- <- _; cbn in K1; congruence].
    unfold qlift, keep_pypi in E. destruct (r_json _ x); injection E as <- <- _; cbn in *; congruence.
  - destruct (github_ s) as [[r s2] l2] eqn:E. 
    assert (s2 = s1 /\ v = do x <- r ; Ok (VJson J x)) as [-> ->] by (destruct r; unfold qret in H; now injection H as <- <- _).
    clear H. unfold github_json in E. rewrite K0 in E. unfold qbind, qlift, get_github in E. destruct uri_api as [u|e]; [|injection E as <- <- _; congruence].
    destruct (github _) as [x|e]; [|injection E as <- <- _; cbn in K1; congruence].
    destruct (r_ok _ x).
    + unfold keep_github in E. destruct (r_json _ x); injection E as <- <- _; cbn in *; congruence.
    + unfold qret in E. destruct (N.eqb _ _); [destruct (r_json _ x)|]; injection E as <- <- _; cbn in *; congruence.
Qed.

Lemma inv_step t s a v s1 l : inv t s -> read a s = (v, s1, l) -> inv (t ++ [mkReading J a v l]) s1.
Proof.
  intros [IK IR IP IG SP SG] H. pose proof (read_fair a s v s1 l H) as G. constructor.
  - intros x b w Hin A. apply in_app_or in Hin as [Hin|[<-|[]]].
    + eapply knows_goes; [exact G|]. eauto.
    + destruct A as (<- & E & N). cbn in E. subst v. cbn [x_attr]. now apply read_knows with (s := s) (l := l).
  - rewrite asked_snoc. cbn [x_asked]. destruct G. lia.
  - rewrite asked_snoc. cbn [x_asked]. destruct G. lia.
  - rewrite asked_snoc. cbn [x_asked]. destruct G. lia.
  - intros j Z. destruct (s_pypi _ s) as [j0|] eqn:E0.
    + pose proof (g_pypi _ _ _ G j0 E0) as Z0. rewrite Z in Z0. injection Z0 as ->. destruct (SP j0 eq_refl) as (x & Hin & A). exists x. split; [apply in_or_app; now left|assumption].
    + assert (a = APypi) as ->.
      { assert (X : a <> APypi -> s_pypi _ s1 = s_pypi _ s).
        { intro Na. apply (still_read (s_pypi J) a (or_introl eq_refl)) in H; auto. intro Y. now destruct Na. }
        destruct a; try reflexivity; (rewrite X in Z; [congruence|discriminate]). }
      exists (mkReading J APypi v l). split; [apply in_or_app; right; now left|]. split; [reflexivity|]. split; [|discriminate].
      exact (json_known (s_pypi J) APypi s v s1 l j H (or_introl (conj eq_refl eq_refl)) Z E0).
  - intros j Z. destruct (s_github _ s) as [j0|] eqn:E0.
    + pose proof (g_github _ _ _ G j0 E0) as Z0. rewrite Z in Z0. injection Z0 as ->. destruct (SG j0 eq_refl) as (x & Hin & A). exists x. split; [apply in_or_app; now left|assumption].
    + assert (a = AGithub) as ->.
      { assert (X : a <> AGithub -> s_github _ s1 = s_github _ s).
        { intro Na. apply (still_read (s_github J) a (or_intror eq_refl)) in H; auto. intro Y. now destruct Na. }
        destruct a; try reflexivity; (rewrite X in Z; [congruence|discriminate]). }
      exists (mkReading J AGithub v l). split; [apply in_or_app; right; now left|]. split; [reflexivity|]. split; [|discriminate].
      exact (json_known (s_github J) AGithub s v s1 l j H (or_intror (conj eq_refl eq_refl)) Z E0).
Qed.
(** Every reading of a history, with the state it was made in *)
Lemma reading_at L : forall t0 s0, inv t0 s0 -> forall t x u, readings L s0 = t ++ x :: u ->
  exists s s1, inv (t0 ++ t) s /\ read (x_attr _ x) s = (x_value _ x, s1, x_asked _ x).
Proof.
  induction L as [|a L IH]; intros t0 s0 Hi t x u H; cbn [PackageMemo.readings] in H; [now destruct t|].
  destruct (read a s0) as [[v s1] l] eqn:E. destruct t as [|y t].
  - injection H as <- _. exists s0, s1. rewrite app_nil_r. auto.
  - injection H as <- H. apply (inv_step t0 s0 a v s1 l Hi) in E. destruct (IH _ _ E _ _ _ H) as (s & s2 & I2 & R).
    exists s, s2. rewrite <- app_assoc in I2. auto.
Qed.

Theorem once L t x u : readings L (new J) = t ++ x :: u -> forall y a v, In y t -> answered J a v y -> x_attr _ x = a ->
  x_value _ x = Ok v /\ x_asked _ x = [].
Proof.
  intros H y a v Hin A <-. destruct (reading_at L [] (new J) inv_new t x u H) as (s & s1 & I & R). cbn [app] in I.
  pose proof (knows_reads s _ _ (i_knows _ _ I _ _ _ Hin A)) as K. rewrite K in R. now injection R as <- _ <-.
Qed.
Theorem asks_pypi L t x u : readings L (new J) = t ++ x :: u -> x_attr _ x = APypi ->
  (forall y j, In y t -> ~ answered J APypi (VJson J (Some j)) y) ->
  forall y n, In y t -> answered J AName (VName J n) y ->
  x_asked _ x = [ToPypi n] /\ x_value _ x = of_pypi J (pypi (asked J is_pypi t)).
Proof.
  intros H E No y n Hin A. destruct (reading_at L [] (new J) inv_new t x u H) as (s & s1 & I & R). cbn [app] in I. rewrite E in R.
  pose proof (knows_reads s _ _ (i_knows _ _ I _ _ _ Hin A)) as K. cbn [PackageMemo.read] in K, R. unfold qmap, qbind at 1 in K. unfold qmap, qbind at 1 in R.
  assert (N : name s = (Ok n, s, [])).
  { destruct (name s) as [[[n0|e] s2] l2]; [|discriminate]. unfold qret in K. rewrite app_nil_r in K. now injection K as -> -> ->. }
  destruct (s_pypi _ s) as [j|] eqn:Ep; [destruct (i_spypi _ _ I j Ep) as (z & Hz & Az); now destruct (No z j Hz)|].
  destruct (pypi_ s) as [[r s2] l2] eqn:Er. destruct (pypi_run _ _ _ _ Ep Er) as [(e & _ & Z)|(n0 & s3 & l3 & Z & -> & V & _)]; [rewrite N in Z; discriminate|].
  rewrite N in Z. injection Z as <- <- <-. rewrite <- (i_pypi _ _ I). destruct r; unfold qret in R; injection R as <- _ <-; split; auto.
Qed.
Theorem asks_github L t x u : readings L (new J) = t ++ x :: u -> x_attr _ x = AGithub ->
  (forall y j, In y t -> ~ answered J AGithub (VJson J (Some j)) y) ->
  forall w, uri_api = Ok w ->
  x_asked _ x = [ToGithub w] /\ x_value _ x = of_github J (github (asked J is_github t)).
Proof.
  intros H E No w U. destruct (reading_at L [] (new J) inv_new t x u H) as (s & s1 & I & R). cbn [app] in I. rewrite E in R.
  cbn [PackageMemo.read] in R. unfold qmap, qbind at 1 in R.
  destruct (s_github _ s) as [j|] eqn:Ep; [destruct (i_sgithub _ _ I j Ep) as (z & Hz & Az); now destruct (No z j Hz)|].
  destruct (github_ s) as [[r s2] l2] eqn:Er. destruct (github_run _ _ _ _ Ep Er) as [(e & Z & _)|(w0 & Z & -> & V & _)]; [congruence|].
  rewrite U in Z. injection Z as <-. rewrite <- (i_github _ _ I). destruct r; unfold qret in R; injection R as <- _ <-; split; auto.
Qed.

(** ** The runs of setup.py *)
Definition before_useless (n : nat) : Prop := forall i, i < n -> useless sk (runs i).
Definition first_run (n : nat) (o : outcome) : Prop := exists i, i < n /\ runs i = Ok o /\ ~ useless sk (Ok o) /\ before_useless i.
Definition tidy (s : mstate) : Prop :=
  if sk then match s_kwargs _ s with None => before_useless (n_runs _ s) | Some k => first_run (n_runs _ s) (OTriple k) end
  else match s_dist _ s with None => before_useless (n_runs _ s) | Some o => first_run (n_runs _ s) o end.
Definition spent (n : nat) : Prop := exists i, i < n /\ ~ useless sk (runs i).
Lemma spent_not n : spent n -> ~ before_useless n.
Proof. intros (i & Hi & U) B. exact (U (B i Hi)). Qed.
Definition orderly {A} (m : Q J A) : Prop := forall s r s1 l, tidy s -> m s = (r, s1, l) ->
  tidy s1 /\ n_runs _ s <= n_runs _ s1 /\ cnt is_setup l <= 1 /\ (cnt is_setup l = 1 -> before_useless (n_runs _ s)) /\
  (cnt is_setup l = 1 -> forall a, r = Ok a -> spent (n_runs _ s1)).
Definition idle {A} (m : Q J A) : Prop := forall s r s1 l, m s = (r, s1, l) ->
  s_dist _ s1 = s_dist _ s /\ s_kwargs _ s1 = s_kwargs _ s /\ n_runs _ s1 = n_runs _ s /\ cnt is_setup l = 0.
Lemma idle_orderly A (m : Q J A) : idle m -> orderly m.
Proof.
  intros Hm s r s1 l T H. apply Hm in H as (D & K & N & C). rewrite C, N. split; [|repeat split; lia].
  unfold tidy in *. now rewrite D, K, N.
Qed.
Lemma idle_ret A (a : A) : idle (qret J a). Proof. intros s r s1 l H. injection H as _ <- <-. auto. Qed.
Lemma idle_raise A e : idle (@qraise J A e). Proof. intros s r s1 l H. injection H as _ <- <-. auto. Qed.
Lemma idle_lift A (x : res A) : idle (qlift J x). Proof. intros s r s1 l H. injection H as _ <- <-. auto. Qed.
Lemma idle_bind A B (m : Q J A) (f : A -> Q J B) : idle m -> (forall a, idle (f a)) -> idle (qbind J m f).
Proof.
  intros Fm Ff s r s1 l H. unfold qbind in H. destruct (m s) as [[[a|e] s2] l2] eqn:E; apply Fm in E as (D & K & N & C).
  - destruct (f a s2) as [[r3 s3] l3] eqn:E3. apply Ff in E3 as (D2 & K2 & N2 & C2). injection H as _ <- <-. rewrite cnt_app. repeat split; try congruence. lia.
  - now injection H as _ <- <-.
Qed.
Lemma orderly_bind A B (m : Q J A) (f : A -> Q J B) : orderly m -> (forall a, orderly (f a)) -> orderly (qbind J m f).
Proof.
  intros Fm Ff s r s1 l T H. unfold qbind in H. destruct (m s) as [[[a|e] s2] l2] eqn:E; apply (Fm _ _ _ _ T) in E as (T2 & N2 & C2 & U2 & K2).
  - destruct (f a s2) as [[r3 s3] l3] eqn:E3. apply (Ff _ _ _ _ _ T2) in E3 as (T3 & N3 & C3 & U3 & K3). injection H as <- <- <-. rewrite cnt_app.
    split; [assumption|]. split; [lia|].
    assert (X : cnt is_setup l2 = 1 -> cnt is_setup l3 = 0).
    { intro Z. destruct (Nat.eq_dec (cnt is_setup l3) 1) as [Z3|]; [|lia]. destruct (spent_not _ (K2 Z a eq_refl) (U3 Z3)). }
    assert (Y : cnt is_setup l2 = 0 -> cnt is_setup l3 = 1 -> before_useless (n_runs _ s)).
    { intros _ Z3 i Hi. apply (U3 Z3). lia. }
    split; [lia|]. split.
    + intro Z. destruct (Nat.eq_dec (cnt is_setup l2) 1) as [Z2|]; [auto|apply Y; lia].
    + intros Z b Rb. destruct (Nat.eq_dec (cnt is_setup l2) 1) as [Z2|]; [|apply (K3 ltac:(lia) b Rb)].
      destruct (K2 Z2 a eq_refl) as (i & Hi & U). exists i. split; [lia|assumption].
  - injection H as <- <- <-. repeat split; try assumption; try lia. intros _ b Z. discriminate.
Qed.
Lemma orderly_dist : sk = false -> orderly dist_.
Proof.
  intros Ek s r s1 l T H. unfold setup_dist in H. destruct (s_dist _ s) as [o|] eqn:E.
  - exact (idle_orderly _ _ (idle_ret _ o) s r s1 l T H).
  - unfold tidy in T. rewrite Ek, E in T. unfold qbind, run_setup, keep_dist in H.
    assert (U : forall i, i < S (n_runs _ s) -> i < n_runs _ s \/ i = n_runs _ s) by lia.
    destruct (runs (n_runs _ s)) as [o|e] eqn:R; injection H as <- <- <-; cbn [n_runs s_dist s_kwargs app].
    + split; [|split; [lia|]; split; [cbn; lia|]; split; [intros _; exact T|]].
      * unfold tidy. rewrite Ek. cbn [s_dist n_runs]. exists (n_runs _ s). split; [lia|]. split; [assumption|]. split; [rewrite Ek; intro X; exact X|exact T].
      * intros _ a Z. exists (n_runs _ s). split; [cbn; lia|]. rewrite R, Ek. intro X; exact X.
    + split; [|split; [lia|]; split; [cbn; lia|]; split; [intros _; exact T|intros _ a Z; discriminate]].
      unfold tidy. rewrite Ek. cbn [s_dist n_runs]. rewrite E. intros i Hi. destruct (U i Hi) as [ | -> ]; [now apply T|]. now rewrite R.
Qed.
Lemma orderly_kwargs : sk = true -> orderly kwargs_.
Proof.
  intros Ek s r s1 l T H. unfold setup_kwargs in H. destruct (s_kwargs _ s) as [o|] eqn:E.
  - exact (idle_orderly _ _ (idle_ret _ o) s r s1 l T H).
  - unfold tidy in T. rewrite Ek, E in T. unfold qbind, run_setup, keep_kwargs, qraise in H.
    assert (U : forall i, i < S (n_runs _ s) -> i < n_runs _ s \/ i = n_runs _ s) by lia.
    destruct (runs (n_runs _ s)) as [[d|k]|e] eqn:R; injection H as <- <- <-; cbn [n_runs s_dist s_kwargs app].
    + split; [|split; [lia|]; split; [cbn; lia|]; split; [intros _; exact T|intros _ a Z; discriminate]].
      unfold tidy. rewrite Ek. cbn [s_kwargs n_runs]. rewrite E. intros i Hi. destruct (U i Hi) as [ | -> ]; [now apply T|]. rewrite R, Ek. exact I.
    + split; [|split; [lia|]; split; [cbn; lia|]; split; [intros _; exact T|]].
      * unfold tidy. rewrite Ek. cbn [s_kwargs n_runs]. exists (n_runs _ s). split; [lia|]. split; [assumption|]. split; [rewrite Ek; intro X; exact X|exact T].
      * intros _ a Z. exists (n_runs _ s). split; [cbn; lia|]. rewrite R, Ek. intro X; exact X.
    + split; [|split; [lia|]; split; [cbn; lia|]; split; [intros _; exact T|intros _ a Z; discriminate]].
      unfold tidy. rewrite Ek. cbn [s_kwargs n_runs]. rewrite E. intros i Hi. destruct (U i Hi) as [ | -> ]; [now apply T|]. now rewrite R.
Qed.
Lemma orderly_name : orderly name.
Proof.
  pose proof orderly_kwargs as OK_. pose proof orderly_dist as OD. unfold arg_packagename. destruct sk eqn:Ek; apply orderly_bind; auto; intro; apply idle_orderly, idle_lift.
Qed.
Lemma idle_of n p : idle (module_of J folder n p).
Proof. unfold module_of. destruct p as [l|]; [|apply idle_raise]. destruct existsb; [|apply idle_raise]. apply idle_bind; [apply idle_lift|intro; apply idle_ret]. Qed.
Lemma orderly_module : orderly module_.
Proof.
  pose proof orderly_name as ON. pose proof orderly_kwargs as OK_. pose proof orderly_dist as OD. unfold module. destruct sk eqn:Ek.
  - apply orderly_bind; auto. intro k. apply idle_orderly. destruct (k_name k), (k_packages k); auto using idle_raise, idle_of.
  - apply orderly_bind; auto. intro n. apply orderly_bind; auto. intros [d|k]; apply idle_orderly; auto using idle_raise, idle_of.
Qed.
Lemma orderly_pypi : orderly pypi_.
Proof.
  intros s r s1 l T H. unfold pypi_json in H. destruct (s_pypi _ s) as [j|]; [exact (idle_orderly _ _ (idle_ret _ (Some j)) s r s1 l T H)|].
  revert s r s1 l T H. match goal with |- forall s r s1 l, _ -> ?m s = _ -> _ => change (orderly m) end.
  apply orderly_bind; [apply orderly_name|]. intro n. apply idle_orderly. apply idle_bind; [intros s r s1 l H; now injection H as _ <- <-|]. intro x.
  destruct (r_ok _ x); [|apply idle_ret]. apply idle_bind; [apply idle_lift|]. intros j s r s1 l H. now injection H as _ <- <-.
Qed.
Lemma orderly_github : orderly github_.
Proof.
  apply idle_orderly. intros s r s1 l H. unfold github_json in H. destruct (s_github _ s) as [j|]; [exact (idle_ret _ (Some j) s r s1 l H)|].
  revert s r s1 l H. match goal with |- forall s r s1 l, ?m s = _ -> _ => change (idle m) end.
  apply idle_bind; [apply idle_lift|]. intro u. apply idle_bind; [intros s r s1 l H; now injection H as _ <- <-|]. intro x.
  destruct (r_ok _ x); [apply idle_bind; [apply idle_lift|]; intros j s r s1 l H; now injection H as _ <- <-|].
  destruct (N.eqb _ _); [|apply idle_ret]. apply idle_bind; [apply idle_lift|]. intro. apply idle_ret.
Qed.
Definition other : attr := if sk then ADist else AKwargs.
Lemma orderly_read a : a <> other -> orderly (read a).
Proof.
  intro N. destruct a; cbn [PackageMemo.read]; unfold qmap; (apply orderly_bind; [|intro; apply idle_orderly, idle_ret]);
    auto using orderly_name, orderly_module, orderly_pypi, orderly_github.
  - apply orderly_dist. unfold other in N. destruct sk; [now destruct N|reflexivity].
  - apply orderly_kwargs. unfold other in N. destruct sk; [reflexivity|now destruct N].
  - apply orderly_bind; [apply orderly_module|]. intro. apply idle_orderly, idle_ret.
Qed.
Lemma tidy_new : tidy (new J).
Proof. unfold tidy. destruct sk; cbn; intros i Hi; lia. Qed.
Lemma tidy_at L : ~ In other L -> forall t0 s0, inv t0 s0 -> tidy s0 -> forall t x u, readings L s0 = t ++ x :: u ->
  x_attr _ x <> other /\ exists s s1, inv (t0 ++ t) s /\ tidy s /\ read (x_attr _ x) s = (x_value _ x, s1, x_asked _ x).
Proof.
  induction L as [|a L IH]; intros No t0 s0 Hi Ht t x u H; cbn [PackageMemo.readings] in H; [now destruct t|].
  destruct (read a s0) as [[v s1] l] eqn:E. destruct t as [|y t].
  - injection H as <- _. split; [cbn; intro Z; apply No; now left|]. exists s0, s1. rewrite app_nil_r. auto.
  - injection H as <- H. pose proof (inv_step t0 s0 a v s1 l Hi E) as I1.
    apply orderly_read in E as (T1 & _); [|intro Z; apply No; now left|assumption].
    destruct (IH (fun Z => No (or_intror Z)) _ _ I1 T1 _ _ _ H) as (Na & s & s2 & I2 & T2 & R).
    split; [assumption|]. exists s, s2. rewrite <- app_assoc in I2. auto.
Qed.
Lemma cnt_in f q l : In q l -> f q = true -> 1 <= cnt f l.
Proof. intros Hin F. unfold cnt. assert (In q (filter f l)) as Z by (now apply filter_In). destruct (filter f l); [destruct Z|cbn; lia]. Qed.
Theorem runs_again L t x u : readings L (new J) = t ++ x :: u -> ~ In other L -> In ToSetup (x_asked _ x) ->
  asked J is_setup [x] = 1 /\ forall i, i < asked J is_setup t -> useless sk (runs i).
Proof.
  intros H No Hin. destruct (tidy_at L No [] (new J) inv_new tidy_new t x u H) as (Na & s & s1 & I & T & R). cbn [app] in I.
  apply (orderly_read _ Na _ _ _ _ T) in R as (_ & _ & C & U & _). rewrite (i_runs _ _ I) in U.
  pose proof (cnt_in is_setup _ _ Hin eq_refl) as C1. assert (Z : cnt is_setup (x_asked _ x) = 1) by lia.
  split; [|now apply U]. unfold asked. cbn [flat_map]. now rewrite app_nil_r.
Qed.

(** What the module is *)
Lemma str_in n l : existsb (fun p => str_eqb p n) l = true <-> In n l.
Proof.
  rewrite existsb_exists. split.
  - intros (x & Hin & E). apply str_eqb_eq in E. now subst.
  - intro Hin. exists n. split; [assumption|]. apply str_eqb_eq. reflexivity.
Qed.
Theorem module_found L t x u p : readings L (new J) = t ++ x :: u -> ~ In other L -> x_attr _ x = AModule -> x_value _ x = Ok (VPath J p) ->
  exists i o n l f, i <= asked J is_setup t /\ (forall j, j < i -> useless sk (runs j)) /\ runs i = Ok o /\ said sk o = Some (n, l) /\ In n l /\
    folder = Ok f /\ p = pp_join f (pp_parse n).
Proof.
  intros H No E V. destruct (tidy_at L No [] (new J) inv_new tidy_new t x u H) as (Na & s & s1 & I & T & R). cbn [app] in I.
  pose proof (orderly_read _ Na _ _ _ _ T R) as (T1 & _ & C & _). pose proof (read_fair _ _ _ _ _ R) as G.
  rewrite V in R. rewrite E in R. apply read_knows in R; [|discriminate]. cbn [knows] in R. destruct R as (n & l & f & K & X & F & ->).
  assert (Le : n_runs _ s1 <= S (asked J is_setup t)) by (rewrite (g_runs _ _ _ G), (i_runs _ _ I); lia).
  apply str_in in X. unfold tidy, first_run, before_useless in T1. unfold said. destruct sk.
  - destruct K as (k & K & K1 & K2). rewrite K in T1. destruct T1 as (i & Hi & Ri & _ & B). exists i, (OTriple k), n, l, f. rewrite ?K1, ?K2. split; [lia|]. split; [exact B|]. split; [exact Ri|]. auto.
  - destruct K as (d & K & K1 & K2). rewrite K in T1. destruct T1 as (i & Hi & Ri & _ & B). exists i, (ODist d), n, l, f. rewrite ?K1, ?K2. split; [lia|]. split; [exact B|]. split; [exact Ri|]. auto.
Qed.
Theorem module_missing L t x u i o n l : readings L (new J) = t ++ x :: u -> ~ In other L -> x_attr _ x = AModule ->
  i <= asked J is_setup t -> (forall j, j < i -> useless sk (runs j)) -> runs i = Ok o -> said sk o = Some (n, l) ->
  x_value _ x = (if in_dec (list_eq_dec N.eq_dec) n l then do f <- folder ; Ok (VPath J (pp_join f (pp_parse n))) else Err NotImplementedExn).
Proof.
  intros H No E Li B Ri S. destruct (tidy_at L No [] (new J) inv_new tidy_new t x u H) as (Na & s & s1 & I & T & R). cbn [app] in I.
  rewrite E in R. cbn [PackageMemo.read] in R. unfold qmap, qbind at 1 in R.
  assert (Same : forall o', first_run (n_runs _ s) o' -> o' = o).
  { intros o' (j & Hj & Rj & Uj & Bj). destruct (Nat.lt_trichotomy i j) as [Hij|[ -> | Hij]]; [|congruence|].
    - exfalso. specialize (Bj i Hij). rewrite Ri in Bj. unfold said in S. destruct sk, o; cbn in Bj; try contradiction; discriminate.
    - exfalso. specialize (B j Hij). rewrite Rj in B. now apply Uj. }
  assert (At : before_useless (n_runs _ s) -> runs (n_runs _ s) = Ok o).
  { intro Bn. rewrite (i_runs _ _ I) in *. destruct (Nat.eq_dec i (asked J is_setup t)) as [<-|Ne]; [assumption|]. exfalso.
    specialize (Bn i ltac:(lia)). rewrite Ri in Bn. unfold said in S. destruct sk, o; cbn in Bn; try contradiction; discriminate. }
  assert (Of : forall s' , exists s2 l2, module_of J folder n (Some l) s' = (if in_dec (list_eq_dec N.eq_dec) n l then do f <- folder ; Ok (pp_join f (pp_parse n)) else Err NotImplementedExn, s2, l2)).
  { intro s'. unfold module_of. destruct (in_dec (list_eq_dec N.eq_dec) n l) as [Hin|Hn].
    - apply str_in in Hin. rewrite Hin. unfold qbind, qlift, qret. destruct folder; eauto.
    - destruct existsb eqn:X; [apply str_in in X; contradiction|]. unfold qraise. eauto. }
  assert (M : exists s2 l2, module_ s = (if in_dec (list_eq_dec N.eq_dec) n l then do f <- folder ; Ok (pp_join f (pp_parse n)) else Err NotImplementedExn, s2, l2)).
  { unfold module, arg_packagename, tidy, said, first_run, before_useless in *. destruct sk.
    - destruct o as [d|k]; [discriminate|]. destruct (k_name k) as [n0|] eqn:Kn; [|discriminate]. destruct (k_packages k) as [[l0|]|] eqn:Kp; try discriminate. injection S as -> ->.
      unfold qbind at 1, setup_kwargs. destruct (s_kwargs _ s) as [k0|].
      + specialize (Same _ T). injection Same as ->. unfold qret. rewrite Kn, Kp. destruct (Of s) as (s2 & l2 & ->). eauto.
      + unfold qbind at 1, run_setup. rewrite (At T). unfold keep_kwargs. rewrite Kn, Kp.
        match goal with |- context [module_of J folder n (Some l) ?s'] => destruct (Of s') as (s2 & l2 & ->) end. eauto.
    - destruct o as [d|k]; [|discriminate]. destruct (d_packages d) as [l0|] eqn:Kp; [|discriminate]. injection S as <- ->.
      unfold qbind, setup_dist. destruct (s_dist _ s) as [k0|] eqn:Ed.
      + specialize (Same _ T). subst k0. unfold qret, qlift. rewrite Ed, Kp. destruct (Of s) as (s2 & l2 & ->). eauto.
      + unfold run_setup, qbind. rewrite (At T). unfold keep_dist, qlift, qret. cbn [s_dist]. cbv beta iota. rewrite Kp.
        match goal with |- context [module_of J folder (d_name d) (Some l) ?s'] => destruct (Of s') as (s2 & l2 & ->) end. eauto. }
  destruct M as (s2 & l2 & M). rewrite M in R. destruct (in_dec (list_eq_dec N.eq_dec) n l); [|now injection R as <- _ _]. destruct folder; unfold qret in R; cbn [rbind] in *; now injection R as <- _ _.
Qed.
End Proofs.

Theorem refused_raises :
  exists github uri, let t := readings unit false (fun _ => Err KeyError) (fun _ => Err KeyError) github (Err KeyError) (Ok uri) [AGithub; AGithub] (new unit) in
    (forall k, exists r, github k = Ok r /\ r_ok unit r = false) /\
    map (x_value unit) t = [Err ValueError; Err ValueError] /\ map (x_asked unit) t = [[ToGithub uri]; [ToGithub uri]].
Proof.
  exists (fun _ => Ok (mkResponse unit false 403 (Err ValueError))), $"https://api.github.com/repos/a/b". cbv zeta. split; [intro k; eexists; split; reflexivity|].
  split; vm_compute; reflexivity.
Qed.
Theorem kind_stays :
  exists runs k, runs 0 = Ok (OTriple k) /\ (forall i, exists d, runs (S i) = Ok (ODist d)) /\
    let t := readings unit false runs (fun _ => Err KeyError) (fun _ => Err KeyError) (Err KeyError) (Err KeyError) [AName; AName; AModule] (new unit) in
    map (x_value unit) t = [Err AttributeError; Err AttributeError; Err AttributeError] /\
    map (x_asked unit) t = [[ToSetup]; []; []].
Proof.
  exists (fun i => match i with 0 => Ok (OTriple (mkKwargs (Some $"idlib") None)) | _ => Ok (ODist (mkDist $"idlib" None)) end), (mkKwargs (Some $"idlib") None).
  split; [reflexivity|]. split; [intro i; eexists; reflexivity|]. split; vm_compute; reflexivity.
Qed.
