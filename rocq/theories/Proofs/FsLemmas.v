(** * Lemmas on the file system *)
From Coq Require Import String NArith ZArith Bool List Lia.
From Verif Require Import Model.Py Model.PurePath Model.Fs Model.PathOps Spec.FsSpec Proofs.PyLemmas.
Import ListNotations.

(** ** Entries *)
Lemma entry_cons y c es x : entry x ((y, c) :: es) = if str_eqb y x then Some c else entry x es.
Proof. unfold entry. cbn [find fst]. destruct (str_eqb y x); reflexivity. Qed.

Lemma entry_set x v es y : entry y (set_entry x v es) = if str_eqb x y then Some v else entry y es.
Proof.
  induction es as [|[z c] es IH]; cbn [set_entry].
  - rewrite entry_cons. reflexivity.
  - destruct (str_eqb z x) eqn:E.
    + apply str_eqb_eq in E. subst z. rewrite !entry_cons. destruct (str_eqb x y); reflexivity.
    + rewrite !entry_cons, IH. destruct (str_eqb z y) eqn:Z; [|reflexivity].
      apply str_eqb_eq in Z. subst z. destruct (str_eqb x y) eqn:X; [|reflexivity].
      apply str_eqb_eq in X. subst. now rewrite str_eqb_refl in E.
Qed.

Lemma entry_del x es y : entry y (del_entry x es) = if str_eqb x y then None else entry y es.
Proof.
  unfold del_entry. induction es as [|[z c] es IH]; cbn [filter fst].
  - destruct (str_eqb x y); reflexivity.
  - destruct (str_eqb z x) eqn:E; cbn [negb].
    + rewrite IH, entry_cons. apply str_eqb_eq in E. subst z. destruct (str_eqb x y); reflexivity.
    + rewrite !entry_cons, IH. destruct (str_eqb z y) eqn:Z; [|reflexivity].
      apply str_eqb_eq in Z. subst z. destruct (str_eqb x y) eqn:X; [|reflexivity].
      apply str_eqb_eq in X. subst. now rewrite str_eqb_refl in E.
Qed.

Lemma del_set_entry x v es : del_entry x (set_entry x v es) = del_entry x es.
Proof.
  unfold del_entry. induction es as [|[z c] es IH]; cbn [set_entry filter fst].
  - now rewrite str_eqb_refl.
  - destruct (str_eqb z x) eqn:E.
    + cbn [filter fst]. now rewrite str_eqb_refl.
    + cbn [filter fst]. rewrite E, IH. reflexivity.
Qed.

Lemma set_set_entry x u v es : set_entry x v (set_entry x u es) = set_entry x v es.
Proof.
  induction es as [|[z c] es IH]; cbn [set_entry].
  - now rewrite str_eqb_refl.
  - destruct (str_eqb z x) eqn:E; cbn [set_entry]; [now rewrite str_eqb_refl|]. now rewrite E, IH.
Qed.

Lemma entry_In x es c : entry x es = Some c -> In (x, c) es.
Proof.
  unfold entry. destruct (find _ es) as [[y d]|] eqn:E; [|discriminate]. intro H. injection H as ->.
  apply find_some in E as [E1 E2]. apply str_eqb_eq in E2. cbn in E2. now subst.
Qed.
Lemma entry_In_nodup x es c : NoDup (map fst es) -> In (x, c) es -> entry x es = Some c.
Proof.
  induction es as [|[y d] es IH]; intros N H; [destruct H|]. cbn [map fst] in N. inversion N; subst.
  rewrite entry_cons. destruct H as [H|H].
  - injection H as -> ->. now rewrite str_eqb_refl.
  - destruct (str_eqb y x) eqn:E; [|now apply IH]. apply str_eqb_eq in E. subst y. exfalso. apply H2.
    apply in_map_iff. now exists (x, c).
Qed.
Lemma entry_none x es : entry x es = None <-> ~ In x (map fst es).
Proof.
  induction es as [|[y d] es IH]; [cbn; tauto|]. rewrite entry_cons. cbn [map fst In].
  destruct (str_eqb y x) eqn:E.
  - apply str_eqb_eq in E. subst. split; [discriminate|tauto].
  - apply str_eqb_neq in E. rewrite IH. tauto.
Qed.

(** ** get *)
Lemma get_app n a b : get n (a ++ b) = match get n a with Some c => get c b | None => None end.
Proof.
  revert n. induction a as [|x a IH]; intro n; [reflexivity|]. cbn [app get].
  destruct n as [d xs|xs es|t]; try reflexivity. destruct (entry x es); [apply IH|reflexivity].
Qed.
Lemma get_snoc n a x : get n (a ++ [x]) =
  match get n a with Some (Dir _ es) => entry x es | _ => None end.
Proof.
  rewrite get_app. destruct (get n a) as [[d xs|xs es|t]|]; try reflexivity.
  cbn [get]. destruct (entry x es); reflexivity.
Qed.

Lemma below_refl p : below p p.
Proof. exists []. now rewrite app_nil_r. Qed.
Lemma below_app p r : below p (p ++ r).
Proof. now exists r. Qed.
Lemma below_trans a b c : below a b -> below b c -> below a c.
Proof. intros (r & ->) (s & ->). exists (r ++ s). now rewrite app_assoc. Qed.
Lemma below_nil p : below [] p.
Proof. now exists p. Qed.
Lemma below_cons x p q : below (x :: p) (x :: q) <-> below p q.
Proof. split; intros (r & E); exists r; [now injection E|now rewrite E]. Qed.
Lemma below_len a b : below a b -> (length a <= length b)%nat.
Proof. intros (r & ->). rewrite app_length. lia. Qed.
Lemma below_antisym a b : below a b -> below b a -> a = b.
Proof.
  intros (r & ->) H. apply below_len in H. rewrite app_length in H.
  destruct r; [now rewrite app_nil_r|cbn in H; lia].
Qed.
Lemma below_dec a b : {below a b} + {~ below a b}.
Proof.
  destruct (is_prefix a b) eqn:E.
  - left. now apply (prefixb_spec str_eqb str_eqb_eq).
  - right. intro H. apply (prefixb_spec str_eqb str_eqb_eq) in H. unfold is_prefix in E. congruence.
Qed.
Lemma is_prefix_spec a b : is_prefix a b = true <-> below a b.
Proof. apply (prefixb_spec str_eqb str_eqb_eq). Qed.
Lemma below_snoc a b x : below a (b ++ [x]) -> below a b \/ a = b ++ [x].
Proof.
  intros (r & E). destruct r as [|z r _] using rev_ind.
  - right. now rewrite app_nil_r in E.
  - left. rewrite app_assoc in E. apply app_inj_tail in E as [E _]. now exists r.
Qed.
Lemma place_dec (a b : place) : {a = b} + {a <> b}.
Proof. repeat decide equality. Qed.

(** What is above something is a directory. *)
Lemma get_below n p q c : get n q = Some c -> below p q -> exists d, get n p = Some d.
Proof. intros H (r & ->). rewrite get_app in H. destruct (get n p); [now eexists|discriminate]. Qed.
Lemma get_above n p x r c : get n (p ++ x :: r) = Some c -> exists xs es, get n p = Some (Dir xs es).
Proof.
  rewrite get_app. destruct (get n p) as [[d xs|xs es|t]|]; cbn [get]; intro H; try discriminate. now eexists _, _.
Qed.

(** ** put *)
Lemma get_put_below n p v r : (match p with [] => True | _ => exists xs es, get n (removelast p) = Some (Dir xs es) end) ->
  get (put n p v) (p ++ r) = get v r.
Proof.
  revert n. induction p as [|x p IH]; intros n H; [reflexivity|].
  destruct H as (xs & es & H). cbn [put app]. destruct p as [|y p].
  - cbn in H. injection H as ->. cbn [app get]. now rewrite entry_set, str_eqb_refl.
  - cbn [removelast] in H. cbn [get] in H. destruct n as [d xs'|xs' es'|t]; try discriminate.
    destruct (entry x es') as [c|] eqn:E; [|discriminate].
    cbn [get]. rewrite entry_set, str_eqb_refl. apply IH. exists xs, es. exact H.
Qed.

Lemma get_put_above n p x r v : get (put n (p ++ x :: r) v) p = option_map (fun c => put c (x :: r) v) (get n p).
Proof.
  revert n. induction p as [|y p IH]; intro n; [reflexivity|].
  cbn [app put get]. destruct n as [d xs|xs es|t]; try reflexivity.
  destruct (p ++ x :: r) as [|z l] eqn:E; [destruct p; discriminate|].
  destruct (entry y es) as [c|] eqn:F; cbn [get].
  - rewrite entry_set, str_eqb_refl. apply IH.
  - rewrite F. reflexivity.
Qed.

Lemma get_put_other n p q v : ~ below p q -> ~ below q p -> get (put n p v) q = get n q.
Proof.
  revert n q. induction p as [|x p IH]; intros n q H1 H2; [exfalso; apply H1, below_nil|].
  destruct q as [|y q]; [exfalso; apply H2, below_nil|].
  cbn [put]. destruct n as [d xs|xs es|t]; try reflexivity.
  destruct (str_eqb x y) eqn:E.
  - apply str_eqb_eq in E. subst y. rewrite below_cons in H1, H2. destruct p as [|z p].
    + exfalso. apply H1, below_nil.
    + destruct (entry x es) as [c|] eqn:F; [|reflexivity]. cbn [get]. rewrite entry_set, str_eqb_refl, F. now apply IH.
  - destruct p as [|z p]; [cbn [get]; now rewrite entry_set, E|].
    destruct (entry x es) as [c|]; [|reflexivity]. cbn [get]. now rewrite entry_set, E.
Qed.

Lemma look_put_other n p q v : ~ below p q -> look (put n p v) q = look n q.
Proof.
  intro H. unfold look. destruct (below_dec q p) as [(r & ->)|N].
  - destruct r as [|x r]; [exfalso; apply H; exists []; now rewrite !app_nil_r|].
    rewrite get_put_above. destruct (get n q) as [[d xs|xs es|t]|]; try reflexivity.
    cbn [option_map put]. destruct r; [reflexivity|]. destruct (entry x es); reflexivity.
  - now rewrite get_put_other.
Qed.

(** ** del *)
Lemma get_del_below n p r : p <> [] -> get (del n p) (p ++ r) = None.
Proof.
  revert n. induction p as [|x p IH]; intros n H; [congruence|]. cbn [del app].
  destruct n as [d xs|xs es|t]; try reflexivity. destruct p as [|y p].
  - cbn [get app]. now rewrite entry_del, str_eqb_refl.
  - destruct (entry x es) as [c|] eqn:E; cbn [get].
    + rewrite entry_set, str_eqb_refl. apply IH. discriminate.
    + now rewrite E.
Qed.

Lemma get_del_above n p x r : get (del n (p ++ x :: r)) p = option_map (fun c => del c (x :: r)) (get n p).
Proof.
  revert n. induction p as [|y p IH]; intro n; [reflexivity|].
  cbn [app del get]. destruct n as [d xs|xs es|t]; try reflexivity.
  destruct (p ++ x :: r) as [|z l] eqn:E; [destruct p; discriminate|].
  destruct (entry y es) as [c|] eqn:F; cbn [get].
  - rewrite entry_set, str_eqb_refl. apply IH.
  - rewrite F. reflexivity.
Qed.

Lemma get_del_other n p q : ~ below p q -> ~ below q p -> get (del n p) q = get n q.
Proof.
  revert n q. induction p as [|x p IH]; intros n q H1 H2; [exfalso; apply H1, below_nil|].
  destruct q as [|y q]; [exfalso; apply H2, below_nil|].
  cbn [del]. destruct n as [d xs|xs es|t]; try reflexivity.
  destruct (str_eqb x y) eqn:E.
  - apply str_eqb_eq in E. subst y. rewrite below_cons in H1, H2. destruct p as [|z p].
    + exfalso. apply H1, below_nil.
    + destruct (entry x es) as [c|] eqn:F; [|reflexivity]. cbn [get]. rewrite entry_set, str_eqb_refl, F. now apply IH.
  - destruct p as [|z p]; [cbn [get]; now rewrite entry_del, E|].
    destruct (entry x es) as [c|]; [|reflexivity]. cbn [get]. now rewrite entry_set, E.
Qed.

Lemma look_del_other n p q : ~ below p q -> look (del n p) q = look n q.
Proof.
  intro H. unfold look. destruct (below_dec q p) as [(r & ->)|N].
  - destruct r as [|x r]; [exfalso; apply H; exists []; now rewrite !app_nil_r|].
    rewrite get_del_above. destruct (get n q) as [[d xs|xs es|t]|]; try reflexivity.
    cbn [option_map del]. destruct r; [reflexivity|]. destruct (entry x es); reflexivity.
  - now rewrite get_del_other.
Qed.

Lemma look_del_below n p q : p <> [] -> below p q -> look (del n p) q = None.
Proof. intros H (r & ->). unfold look. now rewrite get_del_below. Qed.

(** Removing below and then the whole is removing the whole. *)
Lemma del_del n p r : p <> [] -> del (del n (p ++ r)) p = del n p.
Proof.
  destruct r as [|z r].
  - rewrite app_nil_r. revert n. induction p as [|x p IH]; intros n H; [congruence|].
    cbn [del]. destruct n as [d xs|xs es|t]; try reflexivity. destruct p as [|y p].
    + unfold del_entry. f_equal. clear. induction es as [|e es IH]; [reflexivity|]. cbn [filter].
      destruct (negb _) eqn:E; [cbn [filter]; now rewrite E, IH|assumption].
    + destruct (entry x es) as [c|] eqn:E; [|now rewrite E]. rewrite entry_set, str_eqb_refl, set_set_entry, IH by discriminate. reflexivity.
  - revert n. induction p as [|x p IH]; intros n H; [congruence|]. cbn [app].
    destruct n as [d xs|xs es|t]; try reflexivity. destruct p as [|y p].
    + cbn [app del]. destruct (entry x es); [|reflexivity]. now rewrite del_set_entry.
    + cbn [app del]. destruct (entry x es) as [c|] eqn:E; [|now rewrite E].
      rewrite entry_set, str_eqb_refl, set_set_entry. f_equal. f_equal. apply IH. discriminate.
Qed.

(** ** look *)
Lemma look_dir n q xs : look n q = Some (ADir xs) <-> exists es, get n q = Some (Dir xs es).
Proof.
  unfold look. destruct (get n q) as [[d x|x es|t]|]; split; intro H; try discriminate; try (destruct H; discriminate).
  - injection H as ->. now eexists.
  - destruct H as (es' & H). now injection H as -> ->.
Qed.
Lemma look_none n q : look n q = None <-> get n q = None.
Proof. unfold look. destruct (get n q) as [[d x|x es|t]|]; split; congruence. Qed.
Lemma look_link n q t : look n q = Some (ALink t) <-> get n q = Some (Link t).
Proof. unfold look. destruct (get n q) as [[d x|x es|u]|]; split; intro H; try discriminate; congruence. Qed.
Lemma look_file n q d xs : look n q = Some (AFile d xs) <-> get n q = Some (File d xs).
Proof. unfold look. destruct (get n q) as [[e x|x es|u]|]; split; intro H; try discriminate; congruence. Qed.

(** What is above something is there. *)
Lemma look_above n p x r : look n (p ++ x :: r) <> None -> exists xs, look n p = Some (ADir xs).
Proof.
  intro H. destruct (get n (p ++ x :: r)) as [c|] eqn:E; [|exfalso; apply H; now apply look_none].
  apply get_above in E as (xs & es & E). exists xs. apply look_dir. eauto.
Qed.
Lemma look_below_none n p q : look n p = None -> below p q -> look n q = None.
Proof. rewrite !look_none. intros H (r & ->). now rewrite get_app, H. Qed.

(** ** Lookup of paths *)
Lemma walk_eq root follow b cur comps : walk_from root follow b cur comps =
  match get root cur with
  | None => Fail ENOENT
  | Some n =>
      match comps with
      | [] => Found cur n
      | c :: rest =>
          match n with
          | Dir _ es =>
              if str_eqb c $"." then walk_from root follow b cur rest
              else if str_eqb c $".." then walk_from root follow b (removelast cur) rest
              else match entry c es with
                   | None => match rest with [] => Missing cur c | _ => Fail ENOENT end
                   | Some (Link t) =>
                       if (match rest with [] => negb follow | _ => false end)
                       then Found (cur ++ [c]) (Link t)
                       else match b with
                            | O => Fail ELOOP
                            | S b' =>
                                match t with
                                | [] => Fail ENOENT
                                | _ => walk_from root follow b'
                                         (if startswith t $"/" then [] else cur) (kcomps t ++ rest)
                                end
                            end
                   | Some _ => walk_from root follow b (cur ++ [c]) rest
                   end
          | _ => Fail ENOTDIR
          end
      end
  end.
Proof. destruct b, comps; reflexivity. Qed.

Section Walk.
Variable root : node.

Lemma walk_found_get follow b : forall cur comps p n,
  walk_from root follow b cur comps = Found p n -> get root p = Some n.
Proof.
  induction b as [|b IHb]; intros cur comps; revert cur; induction comps as [|c rest IH]; intros cur p n H; rewrite walk_eq in H;
    destruct (get root cur) as [m|] eqn:G; try discriminate; try (injection H as <- <-; assumption);
    destruct m as [d xs|xs es|t]; try discriminate;
    destruct (str_eqb c $"."); try (now apply IH in H); destruct (str_eqb c $".."); try (now apply IH in H);
    destruct (entry c es) as [[d' xs'|xs' es'|t']|] eqn:E; try (now apply IH in H); try (destruct rest; discriminate).
  - destruct (match rest with [] => negb follow | _ => false end) eqn:F; [|discriminate].
    injection H as <- <-. now rewrite get_snoc, G.
  - destruct (match rest with [] => negb follow | _ => false end) eqn:F.
    + injection H as <- <-. now rewrite get_snoc, G.
    + destruct t' as [|a t']; [discriminate|]. now apply IHb in H.
Qed.

(** Not following the last link finds the same unless it is a link. *)
Lemma walk_nofollow b : forall cur comps p n,
  walk_from root false b cur comps = Found p n -> (forall t, n <> Link t) -> walk_from root true b cur comps = Found p n.
Proof.
  induction b as [|b IHb]; intros cur comps; revert cur; induction comps as [|c rest IH]; intros cur p n H N; rewrite walk_eq in H; rewrite walk_eq;
    destruct (get root cur) as [m|] eqn:G; try discriminate; try assumption;
    destruct m as [d xs|xs es|t]; try discriminate;
    destruct (str_eqb c $"."); try (now apply IH); destruct (str_eqb c $".."); try (now apply IH);
    destruct (entry c es) as [[d' xs'|xs' es'|t']|] eqn:E; try (now apply IH); try (destruct rest; discriminate).
  - destruct rest; [|discriminate]. cbn in H. injection H as <- <-. exfalso. now apply (N t').
  - destruct rest as [|c' rest].
    + cbn in H. injection H as <- <-. exfalso. now apply (N t').
    + cbn [negb] in *. destruct t' as [|a t']; [discriminate|]. now apply IHb.
Qed.

Lemma walk_follow b : forall cur comps p n,
  walk_from root true b cur comps = Found p n -> exists p' n', walk_from root false b cur comps = Found p' n'.
Proof.
  induction b as [|b IHb]; intros cur comps; revert cur; induction comps as [|c rest IH]; intros cur p n H; rewrite walk_eq in H; rewrite walk_eq;
    destruct (get root cur) as [m|] eqn:G; try discriminate; try (now eexists _, _);
    destruct m as [d xs|xs es|t]; try discriminate;
    destruct (str_eqb c $"."); try (now apply IH in H); destruct (str_eqb c $".."); try (now apply IH in H);
    destruct (entry c es) as [[d' xs'|xs' es'|t']|] eqn:E; try (now apply IH in H); try (destruct rest; discriminate).
  - destruct rest as [|c' rest].
    + cbn [negb]. now eexists _, _.
    + cbn [negb] in *. destruct t' as [|a t']; [discriminate|]. now apply IHb in H.
Qed.

(** A path with one more component. *)
Lemma walk_snoc_found b x : forall cur comps p n,
  x <> $"." -> x <> $".." ->
  walk_from root false b cur (comps ++ [x]) = Found p n ->
  exists q xs es, walk_from root true b cur comps = Found q (Dir xs es) /\ p = q ++ [x].
Proof.
  intros cur comps p n D1 D2. apply str_eqb_neq in D1, D2. revert cur comps p n.
  assert (E0 : forall b cur p n, walk_from root false b cur [x] = Found p n ->
    exists q xs es, walk_from root true b cur [] = Found q (Dir xs es) /\ p = q ++ [x]).
  { intros b' cur p n H. rewrite walk_eq in H; rewrite walk_eq; destruct (get root cur) as [m|] eqn:G; try discriminate;
    destruct m as [d xs|xs es|t]; try discriminate; rewrite D1, D2 in H;
    exists cur, xs, es; (split; [reflexivity|]);
    destruct (entry x es) as [[d' xs'|xs' es'|t']|] eqn:E; try discriminate; try (cbn [negb] in H; injection H as <- _; reflexivity);
    rewrite walk_eq, get_snoc, G, E in H; injection H as <- _; reflexivity. }
  induction b as [|b IHb]; intros cur comps; revert cur; induction comps as [|c rest IH]; intros cur p n H;
    try (exact (E0 _ _ _ _ H)); rewrite walk_eq in H; rewrite walk_eq; cbn [app] in H;
    destruct (get root cur) as [m|] eqn:G; try discriminate;
    destruct m as [d xs|xs es|t]; try discriminate;
    destruct (str_eqb c $"."); try (now apply IH in H); destruct (str_eqb c $".."); try (now apply IH in H);
    destruct (entry c es) as [[d' xs'|xs' es'|t']|] eqn:E; try (now apply IH in H);
    try (destruct (rest ++ [x]) eqn:Z; [destruct rest; discriminate|discriminate]).
  destruct (rest ++ [x]) as [|z l] eqn:Z; [destruct rest; discriminate|]. rewrite <- Z in H.
  assert (F : (match rest with [] => negb true | _ => false end) = false) by (destruct rest; reflexivity).
  rewrite F. destruct t' as [|a t']; [discriminate|]. rewrite app_assoc in H. now apply IHb in H.
Qed.

(** A place that is there is found by its names. *)
Lemma walk_place follow b : forall l cur n, Forall good_name l -> get root (cur ++ l) = Some n ->
  (follow = true -> forall t, n <> Link t) -> walk_from root follow b cur l = Found (cur ++ l) n.
Proof.
  induction l as [|x l IH]; intros cur n N G F.
  - rewrite app_nil_r in *. rewrite walk_eq; now rewrite G.
  - inversion N as [|? ? (N1 & N2 & N3 & N4) N5]; subst. apply str_eqb_neq in N2, N3.
    pose proof G as G'. change (x :: l) with ([x] ++ l) in G'. rewrite app_assoc, get_app, get_snoc in G'.
    assert (K : walk_from root follow b (cur ++ [x]) l = Found (cur ++ x :: l) n).
    { change (x :: l) with ([x] ++ l). rewrite app_assoc. apply IH; [assumption| |assumption]. rewrite <- app_assoc. exact G. }
    rewrite walk_eq; destruct (get root cur) as [[d xs|xs es|t]|]; try discriminate; rewrite N2, N3;
      destruct (entry x es) as [[d' xs'|xs' es'|t']|] eqn:E; try discriminate; try exact K;
      (destruct l as [|y l]; [|discriminate]); cbn [get] in G'; injection G' as <-;
      (destruct follow; [exfalso; now apply (F eq_refl t')|reflexivity]).
Qed.

(** The last name of a place may be missing. *)
Lemma walk_missing follow b : forall l cur x xs es, Forall good_name l -> good_name x ->
  get root (cur ++ l) = Some (Dir xs es) -> entry x es = None ->
  walk_from root follow b cur (l ++ [x]) = Missing (cur ++ l) x.
Proof.
  induction l as [|y l IH]; intros cur x xs es N (X1 & X2 & X3 & X4) G E.
  - apply str_eqb_neq in X2, X3. rewrite app_nil_r in *. rewrite walk_eq; cbn [app]; rewrite G, X2, X3, E; reflexivity.
  - inversion N as [|? ? (N1 & N2 & N3 & N4) N5]; subst. apply str_eqb_neq in N2, N3.
    pose proof G as G'. change (y :: l) with ([y] ++ l) in G'. rewrite app_assoc, get_app, get_snoc in G'.
    assert (K : walk_from root follow b (cur ++ [y]) (l ++ [x]) = Missing (cur ++ y :: l) x).
    { change (y :: l) with ([y] ++ l). rewrite app_assoc. apply (IH (cur ++ [y]) x xs es); try assumption; [now repeat split|].
      rewrite <- app_assoc. exact G. }
    rewrite walk_eq; cbn [app]; destruct (get root cur) as [[d xs0|xs0 es0|t]|]; try discriminate; rewrite N2, N3;
      destruct (entry y es0) as [[d' xs'|xs' es'|t']|] eqn:E0; try discriminate; try exact K;
      (destruct l as [|z l]; [cbn in G'; discriminate|discriminate]).
Qed.
End Walk.

(** In a file system with less in it a path leads to the same place or nowhere. *)
Definition pruned (fs fs' : node) : Prop := forall q, look fs' q = look fs q \/ look fs' q = None.

Lemma walk_pruned fs fs' follow b : pruned fs fs' -> forall cur comps p n',
  walk_from fs' follow b cur comps = Found p n' -> exists n, walk_from fs follow b cur comps = Found p n.
Proof.
  intro P. revert follow.
  assert (PD : forall q xs es', get fs' q = Some (Dir xs es') -> exists es, get fs q = Some (Dir xs es)).
  { intros q xs es' H. assert (L : look fs' q = Some (ADir xs)) by (apply look_dir; eauto).
    destruct (P q) as [E|E]; [rewrite E in L; now apply look_dir in L|congruence]. }
  assert (PE : forall q xs es es' c n', get fs q = Some (Dir xs es) -> get fs' q = Some (Dir xs es') -> entry c es' = Some n' ->
    exists n, entry c es = Some n /\ look fs (q ++ [c]) = look fs' (q ++ [c])).
  { intros q xs es es' c n' G G' E. assert (L : get fs' (q ++ [c]) = Some n') by (now rewrite get_snoc, G').
    assert (L' : look fs' (q ++ [c]) <> None) by (rewrite look_none; congruence).
    destruct (P (q ++ [c])) as [Z|Z]; [|contradiction].
    destruct (get fs (q ++ [c])) as [n|] eqn:K; [|exfalso; apply L'; rewrite Z; now apply look_none].
    exists n. split; [|now symmetry]. now rewrite get_snoc, G in K. }
  induction b as [|b IHb]; intros follow cur comps; revert cur; induction comps as [|c rest IH]; intros cur p n' H; rewrite walk_eq in H; rewrite walk_eq;
    destruct (get fs' cur) as [m'|] eqn:G'; try discriminate.
  1,3: injection H as <- _; destruct (get fs cur) as [m|] eqn:G; [eexists; reflexivity|];
       exfalso; destruct (P cur) as [E|E]; [|apply look_none in E; congruence];
       apply look_none in G; rewrite G in E; apply look_none in E; congruence.
  all: destruct m' as [d' xs'|xs' es'|t']; try discriminate;
    destruct (PD _ _ _ G') as (es & G); rewrite G;
    destruct (str_eqb c $"."); [now apply IH in H|]; destruct (str_eqb c $".."); [now apply IH in H|];
    destruct (entry c es') as [n1'|] eqn:E'; [|destruct rest; discriminate];
    destruct (PE _ _ _ _ _ _ G G' E') as (n1 & E & K); rewrite E;
    assert (K1 : get fs (cur ++ [c]) = Some n1) by (now rewrite get_snoc, G);
    assert (K2 : get fs' (cur ++ [c]) = Some n1') by (now rewrite get_snoc, G');
    unfold look in K; rewrite K1, K2 in K;
    destruct n1 as [d1 x1|x1 e1|t1], n1' as [d2 x2|x2 e2|t2]; try discriminate; try (now apply IH in H).
  - destruct (match rest with [] => negb follow | _ => false end); [|discriminate].
    injection H as <- _. now eexists.
  - injection K as ->. destruct (match rest with [] => negb follow | _ => false end).
    + injection H as <- _. now eexists.
    + destruct t2; [discriminate|]. now apply IHb in H.
Qed.

(** ** Depth and goodness *)
Lemma depth_entry xs es x c : entry x es = Some c -> (PathOps.depth c < PathOps.depth (Dir xs es))%nat.
Proof.
  intro H. apply entry_In in H. cbn [PathOps.depth]. induction es as [|[y d] es IH]; [destruct H|].
  cbn [fold_right snd]. destruct H as [H|H]; [injection H as -> ->; lia|]. apply IH in H. lia.
Qed.
Lemma depth_get : forall p n c, get n p = Some c -> (PathOps.depth c <= PathOps.depth n)%nat.
Proof.
  induction p as [|x p IH]; intros n c H; [injection H as ->; lia|]. cbn [get] in H.
  destruct n as [d xs|xs es|t]; try discriminate. destruct (entry x es) as [m|] eqn:E; [|discriminate].
  apply IH in H. pose proof (depth_entry xs es x m E). lia.
Qed.

Lemma good_get : forall p n c, good n -> get n p = Some c -> good c.
Proof.
  induction p as [|x p IH]; intros n c G H; [now injection H as <-|]. cbn [get] in H.
  destruct n as [d xs|xs es|t]; try discriminate. destruct (entry x es) as [m|] eqn:E; [|discriminate].
  inversion G; subst. eapply IH; [|exact H]. apply entry_In in E. eauto.
Qed.
Lemma good_names : forall p n c, good n -> get n p = Some c -> Forall good_name p.
Proof.
  induction p as [|x p IH]; intros n c G H; [constructor|]. cbn [get] in H.
  destruct n as [d xs|xs es|t]; try discriminate. destruct (entry x es) as [m|] eqn:E; [|discriminate].
  inversion G; subst. apply entry_In in E. constructor; [|eapply IH; [|exact H]; eauto].
  apply H3. apply in_map_iff. now exists (x, m).
Qed.

(** ** Good file systems stay good *)
Lemma map_fst_set_entry x v es : In x (map fst es) -> map fst (set_entry x v es) = map fst es.
Proof.
  induction es as [|[y c] es IH]; intro H; [destruct H|]. cbn [set_entry]. destruct (str_eqb y x) eqn:E.
  - apply str_eqb_eq in E. now subst.
  - cbn [map fst]. f_equal. apply IH. destruct H as [H|H]; [|assumption]. cbn in H. subst. now rewrite str_eqb_refl in E.
Qed.
Lemma In_set_entry x v es y c : In (y, c) (set_entry x v es) -> (y = x /\ c = v) \/ In (y, c) es.
Proof.
  induction es as [|[z d] es IH]; cbn [set_entry]; intro H.
  - destruct H as [H|[]]. injection H as <- <-. now left.
  - destruct (str_eqb z x).
    + destruct H as [H|H]; [injection H as <- <-; now left|right; now right].
    + destruct H as [H|H]; [right; now left|]. destruct (IH H); [now left|right; now right].
Qed.
Lemma map_fst_set_new x v es : ~ In x (map fst es) -> map fst (set_entry x v es) = map fst es ++ [x].
Proof.
  induction es as [|[y c] es IH]; intro H; [reflexivity|]. cbn [set_entry]. destruct (str_eqb y x) eqn:E.
  - apply str_eqb_eq in E. exfalso. apply H. now left.
  - cbn [map fst app]. f_equal. apply IH. intro K. apply H. now right.
Qed.
Lemma NoDup_app_snoc {A} (l : list A) x : NoDup l -> ~ In x l -> NoDup (l ++ [x]).
Proof.
  induction l as [|y l IH]; intros N H; [constructor; [easy|constructor]|]. inversion N; subst. cbn. constructor.
  - rewrite in_app_iff. intros [K|[->|[]]]; [contradiction|apply H; now left].
  - apply IH; [assumption|]. intro K. apply H. now right.
Qed.
Lemma good_set xs x v es : good (Dir xs es) -> good_name x -> good v -> good (Dir xs (set_entry x v es)).
Proof.
  intros G N V. inversion G as [| |? ? A B C]; subst.
  assert (I : forall y, In y (map fst (set_entry x v es)) -> y = x \/ In y (map fst es)).
  { intros y Hy. apply in_map_iff in Hy as ([z c] & <- & Hz). apply In_set_entry in Hz as [[-> _]|Hz]; [now left|].
    right. apply in_map_iff. now exists (z, c). }
  constructor.
  - destruct (in_dec str_dec x (map fst es)) as [J|J]; [now rewrite map_fst_set_entry|].
    rewrite map_fst_set_new by assumption. apply NoDup_app_snoc; assumption.
  - intros y Hy. destruct (I y Hy) as [->|K]; [assumption|now apply B].
  - intros y c Hy. apply In_set_entry in Hy as [[_ ->]|Hy]; [assumption|now apply (C y)].
Qed.
Lemma good_del_entry xs x es : good (Dir xs es) -> good (Dir xs (del_entry x es)).
Proof.
  intro G. inversion G as [| |? ? A B C]; subst. unfold del_entry.
  constructor.
  - clear G B C. induction es as [|[y c] es IH]; [constructor|]. cbn [map fst] in A. inversion A as [|? ? A1 A2]; subst. cbn [filter fst].
    destruct (negb (str_eqb y x)); [|now apply IH]. cbn [map fst]. constructor; [|now apply IH].
    intro K. apply A1. apply in_map_iff in K as ([z d] & E & K). apply filter_In in K as [K _]. apply in_map_iff. now exists (z, d).
  - intros y K. apply B. apply in_map_iff in K as ([z d] & E & K). apply filter_In in K as [K _]. apply in_map_iff. now exists (z, d).
  - intros y c K. apply filter_In in K as [K _]. now apply (C y).
Qed.
Lemma good_del : forall p n, good n -> good (del n p).
Proof.
  induction p as [|x p IH]; intros n G; [assumption|]. cbn [del]. destruct n as [d xs|xs es|t]; try assumption.
  destruct p as [|y p]; [now apply good_del_entry|]. destruct (entry x es) as [c|] eqn:E; [|assumption].
  inversion G as [| |? ? A B C]; subst. apply entry_In in E. apply good_set; [assumption| |].
  - apply B, in_map_iff. now exists (x, c).
  - apply IH. now apply (C x).
Qed.
Lemma good_put : forall p n v, good n -> Forall good_name p -> good v -> good (put n p v).
Proof.
  induction p as [|x p IH]; intros n v G N V; [assumption|]. cbn [put]. inversion N; subst.
  destruct n as [d xs|xs es|t]; try assumption.
  destruct p as [|y p]; [now apply good_set|]. destruct (entry x es) as [c|] eqn:E; [|assumption].
  inversion G as [| |? ? A B C]; subst. apply entry_In in E. apply good_set; [assumption|assumption|].
  apply IH; try assumption. now apply (C x).
Qed.
Lemma good_fs_del n p : good_fs n -> good_fs (del n p).
Proof.
  intros (G & xs & es & ->). split; [now apply good_del|]. destruct p as [|x p]; [now exists xs, es|].
  cbn [del]. destruct p; [now eexists _, _|]. destruct (entry x es); now eexists _, _.
Qed.
Lemma good_fs_put n p v : good_fs n -> p <> [] -> Forall good_name p -> good v -> good_fs (put n p v).
Proof.
  intros (G & xs & es & ->) K N V. split; [now apply good_put|]. destruct p as [|x p]; [congruence|].
  cbn [put]. destruct p; [now eexists _, _|]. destruct (entry x es); now eexists _, _.
Qed.
