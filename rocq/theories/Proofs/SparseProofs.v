From Coq Require Import String NArith ZArith Bool List Lia.
From Coq Require Import Init.Byte.
From Verif Require Import Model.Py Model.PurePath Model.Fs Model.PathOps Model.Sparse Spec.FsSpec Spec.LoopSpec Spec.SparseSpec
  Proofs.PyLemmas Proofs.FsLemmas Proofs.RunLemmas Proofs.RmtreeProofs Proofs.RmdirtreeProofs.
Import ListNotations.

(** ** Attributes of a node *)
Lemma xget_In k xs v : xget k xs = Some v -> In (k, v) xs.
Proof.
  unfold xget. destruct (find _ xs) as [[k' v']|] eqn:F; [|discriminate]. intro H. injection H as ->.
  apply find_some in F as [I E]. cbn in E. apply str_eqb_eq in E. now subst.
Qed.
Lemma xget_none k xs : xget k xs = None -> forall v, ~ In (k, v) xs.
Proof.
  unfold xget. destruct (find _ xs) as [[k' v']|] eqn:F; [discriminate|]. intros _ v I.
  apply (find_none _ _ F) in I. cbn in I. now rewrite str_eqb_refl in I.
Qed.
Lemma xget_some k xs v : In (k, v) xs -> exists v', xget k xs = Some v'.
Proof. intro I. destruct (xget k xs) eqn:E; [eauto|]. exfalso. exact (xget_none _ _ E v I). Qed.
Lemma xget_xset k v xs k' : xget k' (xset k v xs) = if str_eqb k k' then Some v else xget k' xs.
Proof.
  induction xs as [|[a b] xs IH]; cbn [xset].
  - unfold xget. cbn [find fst]. now destruct (str_eqb k k').
  - destruct (str_eqb a k) eqn:E.
    + apply str_eqb_eq in E. subst. unfold xget. cbn [find fst]. now destruct (str_eqb k k').
    + unfold xget in *. cbn [find fst]. destruct (str_eqb a k') eqn:E'.
      * apply str_eqb_eq in E'. subst. destruct (str_eqb k k') eqn:K; [|reflexivity]. apply str_eqb_eq in K. subst. now rewrite str_eqb_refl in E.
      * exact IH.
Qed.
Lemma xget_xdel k xs k' : xget k' (xdel k xs) = if str_eqb k k' then None else xget k' xs.
Proof.
  induction xs as [|[a b] xs IH]; [unfold xget; cbn; now destruct (str_eqb k k')|]. unfold xdel in *. cbn [filter fst].
  destruct (str_eqb a k) eqn:E; cbn [negb].
  - rewrite IH. apply str_eqb_eq in E. subst. unfold xget. cbn [find fst]. now destruct (str_eqb k k').
  - unfold xget in *. cbn [find fst]. destruct (str_eqb a k') eqn:E'; [|exact IH].
    apply str_eqb_eq in E'. subst. destruct (str_eqb k k') eqn:K; [|reflexivity]. apply str_eqb_eq in K. subst. now rewrite str_eqb_refl in E.
Qed.

Lemma get_with_xattrs n xs x r : get (with_xattrs n xs) (x :: r) = get n (x :: r).
Proof. now destruct n. Qed.
Lemma good_with_xattrs n xs : good n -> good (with_xattrs n xs).
Proof. intro G. inversion G; subst; now constructor. Qed.

Definition thing_xattrs (t : thing) : option xattrs := match t with AFile _ xs | ADir xs => Some xs | ALink _ => None end.

Lemma put_dir_ok fs p n : get fs p = Some n -> match p with [] => True | _ => exists xs es, get fs (removelast p) = Some (Dir xs es) end.
Proof.
  intro H. destruct p as [|x p]; [exact Logic.I|]. rewrite (app_removelast_last [] (l := x :: p)) in H by discriminate. now apply get_above in H.
Qed.

Lemma look_put_xattrs fs p n xs q : get fs p = Some n -> q <> p -> look (put fs p (with_xattrs n xs)) q = look fs q.
Proof.
  intros G N. destruct (below_dec p q) as [(r & ->)|B]; [|now apply look_put_other].
  unfold look. rewrite get_put_below by now apply (put_dir_ok _ _ n). rewrite get_app, G.
  destruct r as [|x r]; [now rewrite app_nil_r in N|]. now rewrite get_with_xattrs.
Qed.
Lemma get_put_self fs p n v : get fs p = Some n -> get (put fs p v) p = Some v.
Proof. intro G. exact (get_put_same p fs v n G). Qed.

(** ** getxattr *)
Definition getx (fs : node) (cwd : place) (p : ppath) (k : str) : res bytes :=
  match walk fs cwd true p with
  | Found _ n => match node_xattrs n with
                 | Some xs => match xget k xs with Some v => Ok v | None => Err NoStreamErr end
                 | None => Err AttributeError
                 end
  | Missing _ _ | Fail _ => Err AttributeError
  end.
Lemma getxattr_run p k w : no_fault w -> exists w', p_getxattr p k w = (getx (w_fs w) (w_cwd w) p (xkey k), w') /\ same w w'.
Proof.
  intro N. unfold p_getxattr, catch, sys_getxattr, ask. rewrite N. unfold lookup, getx.
  destruct (walk (w_fs w) (w_cwd w) true p) as [q n|d x|e] eqn:W; cbn [rbind snd fail].
  - destruct (node_xattrs n) as [xs|]; [destruct (xget (xkey k) xs)|]; (eexists; split; [reflexivity|now repeat split]).
  - eexists; split; [reflexivity|now repeat split].
  - unfold walk in W. apply walk_fail in W. destruct e; try discriminate; (eexists; split; [reflexivity|now repeat split]).
Qed.

Lemma length_removelast {A} (d : A) (l : list A) : l <> [] -> S (length (removelast l)) = length l.
Proof. intro N. pose proof (app_removelast_last d N) as E. apply (f_equal (@length A)) in E. rewrite app_length in E. cbn in E. lia. Qed.

Lemma removelast_neq (l : list str) : l <> [] -> l <> removelast l.
Proof. intros N E. pose proof (@length_removelast str [] l N) as L. rewrite <- E in L. lia. Qed.

Lemma parent_eqb p : pp_eqb p (pp_parent p) = match pp_parts p with [] => true | _ => false end.
Proof.
  destruct (pp_parts p) as [|x l] eqn:E.
  - apply pp_eqb_eq. destruct p as [a l]. cbn in *. now subst.
  - destruct (pp_eqb p (pp_parent p)) eqn:K; [|reflexivity]. apply pp_eqb_eq in K. destruct p as [a l']. cbn in *. subst.
    exfalso. unfold pp_parent in K. injection K as K. revert K. exact (removelast_neq (x :: l) ltac:(discriminate)).
Qed.

(** The first component on the way up that has an answer. *)
Fixpoint answer (fs : node) (cwd : place) (a : bool) (up : list str) : res (option bool) :=
  match up with
  | [] => Ok None
  | x :: r => match getx fs cwd (mkPP a (rev up)) (xkey sparse_key) with
              | Ok v => Ok (Some (bytes_eqb v [x31]))
              | Err NoStreamErr => answer fs cwd a r
              | Err e => Err e
              end
  end.
Lemma sparse_run a : forall up fuel w, no_fault w -> (length up <= fuel)%nat ->
  exists w', sparse_root fuel (mkPP a (rev up)) w = (answer (w_fs w) (w_cwd w) a up, w') /\ same w w'.
Proof.
  induction up as [|x up IH]; intros fuel w N F.
  - exists w. split; [|apply same_refl]. destruct fuel; cbn [sparse_root]; now rewrite parent_eqb.
  - assert (E : sparse_root fuel (mkPP a (rev (x :: up))) w = catch (let! v <- p_getxattr (mkPP a (rev (x :: up))) sparse_key ; ret (Some (bytes_eqb v [x31])))
             (fun e => match e with
                       | NoStreamErr => match fuel with O => raise OutOfFuel | S f => sparse_root f (pp_parent (mkPP a (rev (x :: up)))) end
                       | _ => raise e
                       end) w).
    { destruct fuel; cbn [sparse_root]; rewrite parent_eqb; cbn [pp_parts]; (destruct (rev (x :: up)) eqn:R; [cbn [rev] in R; now apply app_eq_nil in R|reflexivity]). }
    rewrite E. clear E. unfold catch, bind. destruct (getxattr_run (mkPP a (rev (x :: up))) sparse_key w N) as (w1 & E1 & S1).
    rewrite E1. cbn [answer]. destruct (getx _ _ (mkPP a (rev (x :: up))) (xkey sparse_key)) as [v|e].
    + exists w1. now split.
    + destruct e; try (exists w1; now split). destruct fuel as [|fuel]; [cbn in F; lia|].
      unfold pp_parent. cbn [pp_abs pp_parts rev]. rewrite removelast_last.
      destruct (IH fuel w1) as (w2 & E2 & S2); [now apply (no_fault_same w)|cbn in F; lia|].
      exists w2. destruct S1 as (F1 & C1 & H1 & T1). rewrite F1, C1 in E2. split; [exact E2|]. apply (same_trans _ w1); [|assumption]. now repeat split.
Qed.

Lemma is_sparse_run p w : no_fault w -> exists w', same w w' /\ p_is_sparse p w =
  (do r <- answer (w_fs w) (w_cwd w) (pp_abs p) (rev (pp_parts p)) ; Ok (match r with None => false | Some _ => true end), w').
Proof.
  intro N. unfold p_is_sparse, bind. destruct (sparse_run (pp_abs p) (rev (pp_parts p)) (length (pp_parts p)) w N) as (w' & E & S).
  - rewrite rev_length. lia.
  - rewrite rev_involutive in E. destruct p as [a l]. cbn [pp_abs pp_parts] in *. rewrite E. exists w'. split; [assumption|].
    destruct (answer (w_fs w) (w_cwd w) a (rev l)); reflexivity.
Qed.

Lemma mark_key : xkey sparse_key = sparse_mark. Proof. reflexivity. Qed.

(** An answer says what there is. *)
Lemma answer_spec fs cwd a : forall up r, answer fs cwd a up = Ok r ->
  (r <> None <-> exists l m, l <> [] /\ rev up = l ++ m /\ exists q n xs v, walk fs cwd true (mkPP a l) = Found q n /\ node_xattrs n = Some xs /\ In (sparse_mark, v) xs).
Proof.
  induction up as [|x up IH]; intros r H.
  - injection H as <-. split; [congruence|]. intros (l & m & Nl & E & _). cbn in E. destruct l; [congruence|discriminate].
  - cbn [answer] in H. destruct (getx fs cwd (mkPP a (rev (x :: up))) (xkey sparse_key)) as [v|e] eqn:Gx.
    + injection H as <-. split; [intros _|intros _; discriminate]. exists (rev (x :: up)), [].
      split; [cbn; intro E; now apply app_eq_nil in E|]. rewrite app_nil_r. split; [reflexivity|].
      unfold getx in Gx. destruct (walk fs cwd true (mkPP a (rev (x :: up)))) as [q n|d y|e]; try discriminate.
      destruct (node_xattrs n) as [xs|] eqn:X; [|discriminate]. rewrite mark_key in Gx. destruct (xget sparse_mark xs) as [v'|] eqn:Xg; [|discriminate].
      apply xget_In in Xg. now exists q, n, xs, v'.
    + assert (e = NoStreamErr /\ answer fs cwd a up = Ok r) as [-> H'] by (destruct e; try discriminate; now split).
      apply IH in H'. rewrite H'. split.
      * intros (l & m & Nl & E & K). exists l, (m ++ [x]). split; [assumption|]. cbn [rev]. rewrite E. now rewrite app_assoc.
      * intros (l & m & Nl & E & K). destruct m as [|y m] using rev_ind; [|clear IHm].
        -- exfalso. rewrite app_nil_r in E. destruct K as (q & n & xs & v & W & X & I). unfold getx in Gx. rewrite E, W, X, mark_key in Gx.
           destruct (xget_some _ _ _ I) as (v' & Xv). rewrite Xv in Gx. discriminate.
        -- cbn [rev] in E. rewrite app_assoc in E. apply app_inj_tail in E as [E _]. now exists l, m.
Qed.

Lemma sparse_lexical fs cwd fault p b w' : (forall t, fault t = None) -> p_is_sparse p (start fs cwd fault) = (Ok b, w') ->
  b = true <-> exists l m, l <> [] /\ pp_parts p = l ++ m /\
    exists q n xs v, walk fs cwd true (mkPP (pp_abs p) l) = Found q n /\ node_xattrs n = Some xs /\ In (sparse_mark, v) xs.
Proof.
  intros N H. destruct (is_sparse_run p (start fs cwd fault) N) as (w1 & _ & E). rewrite E in H. injection H as H _.
  change (w_fs (start fs cwd fault)) with fs in H. change (w_cwd (start fs cwd fault)) with cwd in H.
  destruct (answer fs cwd (pp_abs p) (rev (pp_parts p))) as [r|e] eqn:A; [|discriminate]. apply Ok_inj in H.
  apply answer_spec in A. rewrite rev_involutive in A. rewrite <- A. subst b. destruct r; split; congruence.
Qed.

Lemma there_get fs q : there fs q <-> exists n xs, get fs q = Some n /\ node_xattrs n = Some xs.
Proof.
  unfold there, look. split.
  - intros (xs & H). destruct (get fs q) as [[d z|z es|t]|]; (destruct H as [H|(d' & H)]; try discriminate); injection H as H; subst; now eexists _, _.
  - intros (n & xs & -> & H). destruct n; try discriminate; injection H as ->; exists xs; [right; now eexists|now left].
Qed.
Lemma attr_get fs q k v : attr_at fs q k v <-> exists n xs, get fs q = Some n /\ node_xattrs n = Some xs /\ In (k, v) xs.
Proof.
  unfold attr_at, look. split.
  - intros (xs & H & I). destruct (get fs q) as [[d z|z es|t]|]; (destruct H as [H|(d' & H)]; try discriminate); injection H as H; subst; now eexists _, _.
  - intros (n & xs & -> & H & I). destruct n; try discriminate; injection H as ->; exists xs; (split; [|assumption]); [right; now eexists|now left].
Qed.

Lemma answer_total fs cwd : good_fs fs -> forall up, there fs (rev up) -> exists r, answer fs cwd true up = Ok r.
Proof.
  intros G. induction up as [|x up IH]; intro T; [now exists None|]. cbn [answer].
  pose proof T as T'. apply there_get in T as (n & xs & Gn & X).
  unfold getx. change (mkPP true (rev (x :: up))) with (path_of (rev (x :: up))). rewrite (walk_of _ _ _ _ _ G Gn) by (intros _ t ->; discriminate).
  rewrite X. destruct (xget (xkey sparse_key) xs); [now eexists|]. apply IH. cbn [rev] in Gn. apply get_above in Gn as (z & es & Gd).
  apply there_get. now exists (Dir z es), z.
Qed.

Lemma sparse_exact fs cwd fault Q : good_fs fs -> (forall t, fault t = None) -> there fs Q ->
  exists b w', p_is_sparse (path_of Q) (start fs cwd fault) = (Ok b, w') /\ w_fs w' = fs /\
    (b = true <-> exists R, R <> [] /\ below R Q /\ marked fs R).
Proof.
  intros G N T. destruct (is_sparse_run (path_of Q) (start fs cwd fault) N) as (w' & S & E).
  change (w_fs (start fs cwd fault)) with fs in E. change (w_cwd (start fs cwd fault)) with cwd in E.
  destruct (answer_total fs cwd G (rev Q)) as (r & A); [now rewrite rev_involutive|].
  unfold path_of in E at 2 3. cbn [pp_abs pp_parts] in E. rewrite A in E. cbn [rbind] in E.
  eexists _, w'. split; [exact E|]. split; [now destruct S|].
  rewrite (sparse_lexical _ _ _ _ _ _ N E). cbn [path_of pp_abs pp_parts]. apply there_get in T as (nQ & xQ & GQ & XQ). split.
  - intros (l & m & Nl & -> & q & n & xs & v & W & X & I). exists l. split; [assumption|]. split; [apply below_app|].
    exists v. apply attr_get. destruct (get_below fs l (l ++ m) _ GQ (below_app l m)) as (n' & Gn').
    exists n, xs. split; [|now split]. assert (NL : forall t, n' <> Link t).
    { intros t ->. destruct m as [|y m]; [rewrite app_nil_r, Gn' in GQ; injection GQ as <-; discriminate|]. rewrite get_app, Gn' in GQ. discriminate. }
    change (mkPP true l) with (path_of l) in W. rewrite (walk_of _ _ _ _ _ G Gn') in W by (intros _; apply NL). injection W as _ <-. assumption.
  - intros (R & NR & (m & ->) & (v & M)). apply attr_get in M as (n & xs & Gn & X & I). exists R, m. split; [assumption|]. split; [reflexivity|].
    exists R, n, xs, v. split; [|now split]. change (mkPP true R) with (path_of R). apply walk_of; [assumption|assumption|intros _ t ->; discriminate].
Qed.

(** ** Setting and removing an attribute *)
Lemma setxattr_of w Q n xs k v : no_fault w -> good_fs (w_fs w) -> get (w_fs w) Q = Some n -> node_xattrs n = Some xs ->
  exists w', p_setxattr (path_of Q) k v w = (Ok tt, w') /\ changed (put (w_fs w) Q (with_xattrs n (xset (xkey k) v xs))) w w'.
Proof.
  intros N G Gn X. unfold p_setxattr, sys_setxattr. apply sys_ok; [assumption|]. unfold lookup.
  rewrite (walk_of _ _ _ _ _ G Gn) by (intros _ t ->; discriminate). cbn [rbind fst snd]. now rewrite X.
Qed.
Lemma delxattr_of w Q n xs k : no_fault w -> good_fs (w_fs w) -> get (w_fs w) Q = Some n -> node_xattrs n = Some xs ->
  exists w', p_delxattr (path_of Q) k false w = (Ok tt, w') /\ w_cwd w' = w_cwd w /\ w_fault w' = w_fault w /\
    ((xget (xkey k) xs = None /\ w_fs w' = w_fs w) \/ w_fs w' = put (w_fs w) Q (with_xattrs n (xdel (xkey k) xs))).
Proof.
  intros N G Gn X. unfold p_delxattr, catch, sys_removexattr.
  destruct (xget (xkey k) xs) as [v|] eqn:V.
  - destruct (sys_ok (fun fs cwd => do r <- lookup true (path_of Q) fs cwd ;
      match node_xattrs (snd r) with
      | Some xs => match xget (xkey k) xs with Some _ => Ok (tt, put fs (fst r) (with_xattrs (snd r) (xdel (xkey k) xs))) | None => fail ENODATA end
      | None => fail EPERM end) w tt (put (w_fs w) Q (with_xattrs n (xdel (xkey k) xs))) N) as (w' & E & (A & B & C & D)).
    + unfold lookup. rewrite (walk_of _ _ _ _ _ G Gn) by (intros _ t ->; discriminate). cbn [rbind fst snd]. now rewrite X, V.
    + rewrite E. exists w'. repeat split; auto.
  - destruct (sys_err (fun fs cwd => do r <- lookup true (path_of Q) fs cwd ;
      match node_xattrs (snd r) with
      | Some xs => match xget (xkey k) xs with Some _ => Ok (tt, put fs (fst r) (with_xattrs (snd r) (xdel (xkey k) xs))) | None => fail ENODATA end
      | None => fail EPERM end) w (OSErr ENODATA) N) as (w' & E & (A & B & C & D)).
    + unfold lookup. rewrite (walk_of _ _ _ _ _ G Gn) by (intros _ t ->; discriminate). cbn [rbind fst snd]. now rewrite X, V.
    + rewrite E. exists w'. repeat split; auto.
Qed.

Lemma good_fs_xattrs fs Q n xs : good_fs fs -> get fs Q = Some n -> good_fs (put fs Q (with_xattrs n xs)).
Proof.
  intros G Gn. pose proof (good_get _ _ _ (proj1 G) Gn) as Gg. destruct Q as [|x Q].
  - cbn [put]. injection Gn as <-. destruct G as (G & z & es & ->). split; [now apply good_with_xattrs|]. now eexists _, _.
  - apply good_fs_put; [assumption|discriminate|now apply (good_names _ fs n (proj1 G))|now apply good_with_xattrs].
Qed.
Lemma look_with_xattrs n ys t : look (with_xattrs n ys) [] = Some t -> thing_xattrs t = node_xattrs (with_xattrs n ys).
Proof. destruct n; cbn; intro H; injection H as <-; reflexivity. Qed.
Lemma node_with_xattrs n xs ys : node_xattrs n = Some xs -> node_xattrs (with_xattrs n ys) = Some ys.
Proof. now destruct n. Qed.
Lemma In_xset k v xs k' v' : k <> k' -> (In (k', v') (xset k v xs) <-> In (k', v') xs).
Proof.
  intro N. induction xs as [|[a b] xs IH]; cbn [xset In].
  - split; [intros [E|[]]; injection E as -> _; congruence|tauto].
  - destruct (str_eqb a k) eqn:E; cbn [In].
    + apply str_eqb_eq in E. subst. split; (intros [E|E]; [injection E as -> _; congruence|now right]).
    + now rewrite IH.
Qed.
Lemma In_xdel k xs k' v' : In (k', v') (xdel k xs) <-> In (k', v') xs /\ k' <> k.
Proof.
  unfold xdel. rewrite filter_In. cbn [fst]. split; intros [A B]; (split; [assumption|]).
  - intros ->. now rewrite str_eqb_refl in B.
  - apply str_eqb_neq in B. now rewrite B.
Qed.

Lemma mark_spec fs cwd fault Q : good_fs fs -> (forall t, fault t = None) -> there fs Q ->
  exists w', p_mark_sparse (path_of Q) (start fs cwd fault) = (Ok tt, w') /\ good_fs (w_fs w') /\ marked (w_fs w') Q /\
    (forall k v, k <> sparse_mark -> (attr_at (w_fs w') Q k v <-> attr_at fs Q k v)) /\ forall q, q <> Q -> look (w_fs w') q = look fs q.
Proof.
  intros G N T. apply there_get in T as (n & xs & Gn & X).
  destruct (setxattr_of (start fs cwd fault) Q n xs sparse_key [x31] N G Gn X) as (w' & E & (F & _)).
  exists w'. split; [exact E|]. change (w_fs (start fs cwd fault)) with fs in F. rewrite F, mark_key.
  assert (Gn' : get (put fs Q (with_xattrs n (xset sparse_mark [x31] xs))) Q = Some (with_xattrs n (xset sparse_mark [x31] xs))) by exact (get_put_self _ _ _ _ Gn).
  pose proof (node_with_xattrs n xs (xset sparse_mark [x31] xs) X) as X'.
  split; [now apply good_fs_xattrs|]. split; [|split].
  - exists [x31]. apply attr_get. eexists _, _. split; [exact Gn'|]. split; [exact X'|]. apply xget_In. now rewrite xget_xset, str_eqb_refl.
  - intros k v Nk. rewrite !attr_get. split.
    + intros (n' & xs' & A & B & C). rewrite Gn' in A. injection A as <-. rewrite X' in B. injection B as <-. apply In_xset in C; [|congruence]. eauto.
    + intros (n' & xs' & A & B & C). rewrite Gn in A. injection A as <-. rewrite X in B. injection B as <-. eexists _, _. split; [exact Gn'|]. split; [exact X'|]. apply In_xset; [congruence|assumption].
  - intros q Nq. now apply look_put_xattrs.
Qed.
Lemma clear_spec fs cwd fault Q : good_fs fs -> (forall t, fault t = None) -> there fs Q ->
  exists w', p_clear_sparse (path_of Q) (start fs cwd fault) = (Ok tt, w') /\ good_fs (w_fs w') /\ ~ marked (w_fs w') Q /\
    (forall k v, k <> sparse_mark -> (attr_at (w_fs w') Q k v <-> attr_at fs Q k v)) /\ forall q, q <> Q -> look (w_fs w') q = look fs q.
Proof.
  intros G N T. apply there_get in T as (n & xs & Gn & X).
  destruct (delxattr_of (start fs cwd fault) Q n xs sparse_key N G Gn X) as (w' & E & _ & _ & F).
  exists w'. split; [exact E|]. change (w_fs (start fs cwd fault)) with fs in F. rewrite mark_key in F. destruct F as [[V F]|F]; rewrite F.
  - split; [assumption|]. split; [|split; [reflexivity|reflexivity]]. intros (v & M). apply attr_get in M as (n' & xs' & A & B & C).
    rewrite Gn in A. injection A as <-. rewrite X in B. injection B as <-. exact (xget_none _ _ V v C).
  - assert (Gn' : get (put fs Q (with_xattrs n (xdel sparse_mark xs))) Q = Some (with_xattrs n (xdel sparse_mark xs))) by exact (get_put_self _ _ _ _ Gn).
    pose proof (node_with_xattrs n xs (xdel sparse_mark xs) X) as X'.
    split; [now apply good_fs_xattrs|]. split; [|split].
    + intros (v & M). apply attr_get in M as (n' & xs' & A & B & C). rewrite Gn' in A. injection A as <-. rewrite X' in B. injection B as <-.
      now apply In_xdel in C.
    + intros k v Nk. rewrite !attr_get. split.
      * intros (n' & xs' & A & B & C). rewrite Gn' in A. injection A as <-. rewrite X' in B. injection B as <-. apply In_xdel in C as [C _]. eauto.
      * intros (n' & xs' & A & B & C). rewrite Gn in A. injection A as <-. rewrite X in B. injection B as <-. eexists _, _. split; [exact Gn'|]. split; [exact X'|]. now apply In_xdel.
    + intros q Nq. now apply look_put_xattrs.
Qed.

Lemma sparse_no_effect fs cwd fault p r w' : p_is_sparse p (start fs cwd fault) = (r, w') -> states w' = [fs; fs].
Proof.
  assert (S : forall fuel p w r w', sparse_root fuel p w = (r, w') -> same w w').
  { assert (Sg : forall p w r w', p_getxattr p sparse_key w = (r, w') -> same w w').
    { intros q w r0 w0 H. apply catch_inv in H as [(b & H & ->)|(e & w1 & H & K)]; apply ask_inv in H as [S _]; [assumption|].
      destruct e; try (injection K as _ <-; assumption). destruct e; injection K as _ <-; assumption. }
    induction fuel as [|fuel IH]; intros q w r0 w0 H; cbn [sparse_root] in H;
      (destruct (pp_eqb q (pp_parent q)); [injection H as _ <-; apply same_refl|]);
      (apply catch_inv in H as [(b & H & ->)|(e & w1 & H & K)];
       [apply bind_inv in H as [(v & w2 & H & E)|(e & H & E)]; [|discriminate]; injection E as _ <-; now apply Sg in H|]);
      (apply bind_inv in H as [(v & w2 & H & E)|(e' & H & E)]; [discriminate|]; apply Sg in H; injection E as ->).
    - destruct e'; injection K as _ <-; assumption.
    - destruct e'; try (injection K as _ <-; assumption). apply IH in K. now apply (same_trans _ w1). }
  intro H. unfold p_is_sparse in H. apply bind_inv in H as [(v & w2 & H & E)|(e & H & ->)]; apply S in H; [injection E as _ <-|]; destruct H as (A & _ & B & _); unfold states; rewrite A, B; reflexivity.
Qed.

Lemma cache_always is_root marker w b w' : c_is_sparse is_root marker w = (Ok b, w') -> b = true.
Proof.
  intro H. unfold c_is_sparse, c_sparse_root, bind in H. destruct is_root; [now injection H|].
  destruct (marker w) as [[m|e] w1]; [now injection H|discriminate].
Qed.

(** Nothing there: line 311 of getxattr looks up a name that the module lacks. *)
Lemma sparse_nothing fs cwd fault p : (forall t, fault t = None) -> pp_parts p <> [] -> (forall q n, walk fs cwd true p <> Found q n) ->
  fst (p_is_sparse p (start fs cwd fault)) = Err AttributeError.
Proof.
  intros N Np W. destruct (is_sparse_run p (start fs cwd fault) N) as (w' & _ & ->). cbn [fst w_fs w_cwd start].
  destruct p as [a l]. cbn [pp_abs pp_parts] in *. destruct (exists_last Np) as (l' & x & ->). rewrite rev_app_distr. cbn [rev app answer].
  unfold getx. rewrite rev_involutive. destruct (walk fs cwd true (mkPP a (l' ++ [x]))) as [q n|d y|e]; [now destruct (W q n)|reflexivity..].
Qed.
