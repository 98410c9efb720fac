(** * Lemmas on the names of ssh remotes *)
From Coq Require Import String NArith ZArith Bool List Lia.
From Verif Require Import Model.Py Model.PurePath Model.RemoteTree Model.SshName Spec.SshNameSpec Proofs.PyLemmas Proofs.PathLemmas.
Import ListNotations.

Lemma proper_norm p : proper p <-> norm_path p.
Proof.
  unfold proper, norm_path, norm_part, real_part. rewrite Forall_forall. split; intros H x X.
  - destruct (H x X) as (A & B & C). split; [|exact C]. destruct (str_eqb x []) eqn:E; [apply str_eqb_eq in E; contradiction|].
    destruct (str_eqb x $".") eqn:E2; [apply str_eqb_eq in E2; contradiction|reflexivity].
  - destruct (H x X) as (A & C). split; [|split; [|exact C]]; intros ->; discriminate.
Qed.
Lemma remote_file_eq anchor p : ssh_rpath anchor p = remote_file anchor p.
Proof. reflexivity. Qed.
Lemma split1_none c s : ~ In c s -> split1 c s = None.
Proof.
  induction s as [|x s IH]; intros N; [reflexivity|]. cbn. destruct (N.eqb x c) eqn:E.
  - apply N.eqb_eq in E. destruct N. now left.
  - rewrite IH; [reflexivity|]. intros H. apply N. now right.
Qed.
Lemma split1_app c a b : ~ In c a -> split1 c (a ++ c :: b) = Some (a, b).
Proof.
  induction a as [|x a IH]; intros N; cbn; [now rewrite N.eqb_refl|]. destruct (N.eqb x c) eqn:E.
  - apply N.eqb_eq in E. destruct N. now left.
  - rewrite IH; [reflexivity|]. intros H. apply N. now right.
Qed.
Lemma split1_some c s a b : split1 c s = Some (a, b) -> s = a ++ c :: b /\ ~ In c a.
Proof.
  revert a b. induction s as [|x s IH]; intros a b H; [discriminate|]. cbn in H. destruct (N.eqb x c) eqn:E.
  - apply N.eqb_eq in E. injection H as <- <-. subst x. split; [reflexivity|intros []].
  - destruct (split1 c s) as [[a' b']|]; [|discriminate]. injection H as <- <-. destruct (IH _ _ eq_refl) as [-> N].
    split; [reflexivity|]. intros [->|X]; [now rewrite N.eqb_refl in E|auto].
Qed.
Lemma init_shape hp host anchor : ssh_init hp = Ok (host, anchor) ->
  ~ In (chr ":") host /\ proper anchor /\ exists path, hp = host ++ $":" ++ path /\ anchor = pp_parse path.
Proof.
  unfold ssh_init. destruct (split1 (chr ":") hp) as [[h path]|] eqn:E; [|discriminate]. intros H. injection H as <- <-.
  apply split1_some in E as [-> N]. split; [exact N|]. split; [apply proper_norm, norm_parse|]. now exists path.
Qed.
Lemma new_proper host a : (forall p, a = NPath p -> proper p) -> proper (ssh_new host a).
Proof.
  intros H. destruct a as [s|p]; [|now apply H]. cbn. destruct (startswith _ _); [destruct (split1 _ _) as [[? ?]|]|]; apply proper_norm, norm_parse.
Qed.
Lemma new_id host s : ~ In (chr ":") host -> ssh_new host (NText (host ++ $":" ++ s)) = pp_parse s.
Proof.
  intros N. unfold ssh_new. rewrite app_assoc, startswith_app. rewrite <- app_assoc. cbn [app]. change ($":" ++ s) with (chr ":" :: s).
  now rewrite split1_app.
Qed.
Lemma new_other host s : startswith s (host ++ $":") = false -> ssh_new host (NText s) = pp_parse s.
Proof. intros H. unfold ssh_new. now rewrite H. Qed.

Lemma proper_file anchor p : proper anchor -> proper p -> proper (remote_file anchor p).
Proof. rewrite !proper_norm. apply norm_join. Qed.
Lemma str_inj p q : proper p -> proper q -> pp_str p = pp_str q -> p = q.
Proof. rewrite !proper_norm. intros A B E. now rewrite <- (pp_parse_str p A), E, pp_parse_str. Qed.
Lemma again host anchor p : ~ In (chr ":") host -> pp_abs anchor = true -> proper anchor -> proper p ->
  ssh_new host (NText (ssh_id host anchor p)) = remote_file anchor p /\
  ssh_id host anchor (ssh_new host (NText (ssh_id host anchor p))) = ssh_id host anchor p.
Proof.
  intros N A PA P. unfold ssh_id at 1 3. rewrite new_id, remote_file_eq by exact N.
  rewrite pp_parse_str by (now apply proper_norm, proper_file). split; [reflexivity|].
  unfold ssh_id. rewrite !remote_file_eq. do 2 f_equal. f_equal. unfold remote_file at 1.
  replace (pp_abs (remote_file anchor p)) with true; [reflexivity|]. unfold remote_file. now destruct (pp_abs p) eqn:E.
Qed.
Lemma app_sep (c : N) (a b x y : str) : ~ In c a -> ~ In c b -> a ++ c :: x = b ++ c :: y -> a = b /\ x = y.
Proof.
  intros A B E. pose proof (split1_app c a x A) as K. rewrite E, split1_app in K by exact B. injection K as <- <-. auto.
Qed.
Lemma id_inj host anchor p host' anchor' p' : ~ In (chr ":") host -> ~ In (chr ":") host' ->
  proper anchor -> proper anchor' -> proper p -> proper p' ->
  ssh_id host anchor p = ssh_id host' anchor' p' <-> host = host' /\ remote_file anchor p = remote_file anchor' p'.
Proof.
  intros N N' A A' P P'. unfold ssh_id. rewrite !remote_file_eq. split.
  - intros E. cbn [app] in E. apply app_sep in E as [-> E]; [|assumption..]. split; [reflexivity|].
    apply str_inj in E; [exact E|now apply proper_file..].
  - intros [-> ->]. reflexivity.
Qed.
Lemma parent_of p : proper p -> ssh_parent p = pp_parent p.
Proof.
  intros P. unfold ssh_parent. destruct (str_eqb _ _) eqn:E; [|reflexivity]. apply str_eqb_eq, str_inj in E; [now symmetry| |exact P].
  intros x X. apply P. cbn in X. clear -X. induction (pp_parts p) as [|y l IH]; [destruct X|]. cbn in X. destruct l; [destruct X|].
  destruct X as [<-|X]; [now left|right; auto].
Qed.
Lemma removelast_in {A} (x : A) l : In x (removelast l) -> In x l.
Proof.
  induction l as [|y l IH]; [intros []|]. cbn. destruct l; [intros []|]. intros [<-|X]; [now left|right; auto].
Qed.
Lemma proper_parent p : proper p -> proper (pp_parent p).
Proof. intros P x X. apply P. now apply removelast_in. Qed.
Lemma parent_file anchor p : proper p -> pp_parts p <> [] -> remote_file anchor (ssh_parent p) = pp_parent (remote_file anchor p).
Proof.
  intros P N. rewrite parent_of by exact P. unfold remote_file, pp_parent at 1 2. cbn [pp_abs pp_parts]. destruct (pp_abs p) eqn:E.
  - unfold pp_parent. now rewrite E.
  - unfold pp_parent. cbn [pp_abs pp_parts]. f_equal. now rewrite removelast_app.
Qed.
Lemma eq_remote host anchor p host' anchor' p' : ~ In (chr ":") host -> ~ In (chr ":") host' ->
  proper anchor -> proper anchor' -> proper p -> proper p' ->
  exists b, ssh_eq host anchor p (ORemote host' anchor' p') = Ok b /\
    (b = true <-> host = host' /\ remote_file anchor p = remote_file anchor' p').
Proof.
  intros. eexists. split; [reflexivity|]. rewrite str_eqb_eq. now apply id_inj.
Qed.

Lemma above_step p x : above (mkPP (pp_abs p) (pp_parts p ++ [x])) = p :: above p.
Proof.
  unfold above. cbn [pp_abs pp_parts]. rewrite app_length, Nat.add_1_r, seq_S, rev_app_distr. cbn [rev app map Nat.add].
  f_equal.
  - rewrite firstn_app, firstn_all, Nat.sub_diag, firstn_O, app_nil_r. now destruct p.
  - apply map_ext_in. intros k K. apply in_rev, in_seq in K. f_equal. rewrite firstn_app.
    replace (k - length (pp_parts p)) with 0 by lia. now rewrite firstn_O, app_nil_r.
Qed.
Lemma snoc {A} (l : list A) : l = [] \/ exists m x, l = m ++ [x].
Proof. destruct l as [|y l] using rev_ind; [now left|right; eauto]. Qed.
Lemma from_above host anchor : ~ In (chr ":") host -> proper anchor -> forall n p, length (pp_parts p) = n -> proper p ->
  forall f, n < f -> parents_from f host anchor p = Ok (p :: above p).
Proof.
  intros NH PA. induction n as [|n IH]; intros p L P f F; (destruct f as [|f]; [lia|]); cbn [parents_from].
  - assert (Z : pp_parts p = []) by (destruct (pp_parts p); [reflexivity|discriminate]).
    assert (K : ssh_parent p = p). { rewrite parent_of by exact P. unfold pp_parent. rewrite Z. destruct p as [a l]. cbn in *. now subst. }
    rewrite K. cbn [ssh_eq rbind]. rewrite str_eqb_refl. unfold above. now rewrite Z.
  - destruct (snoc (pp_parts p)) as [Z|(m & x & Z)]; [rewrite Z in L; discriminate|].
    assert (K : ssh_parent p = mkPP (pp_abs p) m). { rewrite parent_of by exact P. unfold pp_parent. rewrite Z. now rewrite removelast_last. }
    assert (PM : proper (mkPP (pp_abs p) m)). { intros y Y. apply P. rewrite Z. apply in_or_app. now left. }
    rewrite K. cbn [ssh_eq rbind]. destruct (str_eqb _ _) eqn:E.
    + apply str_eqb_eq in E. apply id_inj in E as [_ E]; [|assumption..]. exfalso. unfold remote_file in E. cbn [pp_abs pp_parts] in E.
      rewrite Z in E. destruct (pp_abs p); apply (f_equal pp_parts) in E; cbn [pp_parts] in E.
      * rewrite Z in E. apply (f_equal (@length _)) in E. rewrite app_length in E. cbn in E. lia.
      * apply app_inv_head in E. apply (f_equal (@length _)) in E. rewrite app_length in E. cbn in E. lia.
    + rewrite IH; [|rewrite Z, app_length in L; cbn in *; lia|exact PM|lia]. cbn [rbind]. do 2 f_equal.
      rewrite <- (above_step (mkPP (pp_abs p) m) x). cbn [pp_abs pp_parts]. rewrite <- Z. now destruct p.
Qed.
Lemma parents_above host anchor p : ~ In (chr ":") host -> proper anchor -> proper p -> pp_parts p <> [] ->
  ssh_parents host anchor p = Ok (above p).
Proof.
  intros NH PA P N. destruct (snoc (pp_parts p)) as [Z|(m & x & Z)]; [contradiction|]. unfold ssh_parents.
  assert (K : ssh_parent p = mkPP (pp_abs p) m). { rewrite parent_of by exact P. unfold pp_parent. rewrite Z. now rewrite removelast_last. }
  rewrite K. rewrite (from_above host anchor NH PA (length m)); [|reflexivity| |].
  - f_equal. rewrite <- (above_step (mkPP (pp_abs p) m) x). cbn [pp_abs pp_parts]. rewrite <- Z. now destruct p.
  - intros y Y. apply P. rewrite Z. apply in_or_app. now left.
  - rewrite Z, app_length. cbn. lia.
Qed.
