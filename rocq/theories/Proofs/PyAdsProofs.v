(** * Proofs about the object with the streams of a file *)
From Coq Require Import String NArith ZArith Bool List Lia Permutation.
From Verif Require Import Model.Py Model.PurePath Model.Fs Model.Ads Model.PyAds Spec.AdsSpec Spec.PyAdsSpec.
From Verif Require Import Proofs.PyLemmas Proofs.AdsProofs.
Import ListNotations.

(** ** Texts *)
Lemma seps_out s : clean s -> ~ In 47%N s /\ ~ In 92%N s /\ ~ In (chr ":") s.
Proof. intro C. repeat split; apply (no_sep _ _ C); [apply slash_sep|apply back_sep|apply colon_sep]. Qed.
Lemma base_clean s : clean s -> base_name s = s.
Proof.
  intro C. destruct (seps_out s C) as (A & B & D). unfold base_name.
  assert (E : match s with _ :: c :: r => if N.eqb c (chr ":") then r else s | _ => s end = s).
  { destruct s as [|x [|c r]]; try reflexivity. destruct (N.eqb_spec c (chr ":")) as [->|_]; [|reflexivity]. destruct D. right. now left. }
  rewrite E, (replace1_none 47 92 s A), (split_none 92 s B). reflexivity.
Qed.
Lemma parts_plain t : ~ In 47%N t -> ~ In 92%N t -> t <> [] -> t <> $"." -> win_parts t = [t].
Proof.
  intros A B N0 N1. unfold win_parts. rewrite (replace1_none 47 92 t A), (split_none 92 t B). cbn [filter].
  destruct (str_eqb t []) eqn:E0; [apply str_eqb_eq in E0; contradiction|]. destruct (str_eqb t $".") eqn:E1; [apply str_eqb_eq in E1; contradiction|]. reflexivity.
Qed.
Lemma split_at c : forall a b, ~ In c a -> split c (a ++ c :: b) = a :: split c b.
Proof.
  induction a as [|x a IH]; intros b H; cbn [split app]; [now rewrite N.eqb_refl|].
  destruct (N.eqb_spec x c) as [->|_]; [destruct H; now left|]. rewrite IH; [reflexivity|]. intro I. apply H. now right.
Qed.
Lemma second_name n : clean n -> second ($":" ++ n ++ $":$DATA") = n.
Proof.
  intro C. destruct (seps_out n C) as (_ & _ & D). unfold second. change ($":" ++ n ++ $":$DATA") with ([] ++ chr ":" :: n ++ chr ":" :: $"$DATA").
  rewrite split_at by (intros []). rewrite split_at by exact D. reflexivity.
Qed.
Lemma remove_in x : forall l, In x l -> NoDup l -> exists l', list_remove x l = Some l' /\ NoDup l' /\ forall y, In y l' <-> y <> x /\ In y l.
Proof.
  induction l as [|a l IH]; intros I ND; [destruct I|]. inversion_clear ND as [|? ? N1 N2]. cbn [list_remove]. destruct (str_eqb a x) eqn:E.
  - apply str_eqb_eq in E. subst a. exists l. split; [reflexivity|]. split; [assumption|]. intro y. cbn [In]. split.
    + intro H. split; [intros ->; contradiction|now right].
    + intros (A & [B|B]); [now destruct A|assumption].
  - assert (Na : a <> x). { intros ->. assert (Z : str_eqb x x = true) by now apply str_eqb_eq. congruence. }
    destruct I as [I|I]; [contradiction|]. destruct (IH I N2) as (l' & -> & ND' & H). eexists. split; [reflexivity|]. split.
    + constructor; [|assumption]. rewrite H. tauto.
    + intro y. cbn [In]. rewrite H. split; [intros [<-|(A & B)]; [split; [assumption|now left]|split; [assumption|now right]]|].
      intros (A & [B|B]); [now left|right; now split].
Qed.
Lemma remove_out x : forall l, ~ In x l -> list_remove x l = None.
Proof.
  induction l as [|a l IH]; intro H; [reflexivity|]. cbn [list_remove]. destruct (str_eqb a x) eqn:E; [apply str_eqb_eq in E; destruct H; now left|].
  rewrite IH; [reflexivity|]. intro I. apply H. now right.
Qed.

(** ** Paths *)
Section Where.
Variables (cwd : list str) (p : wpath) (q : list str).
Hypothesis Hn : named cwd p q.
Lemma file_path a name : ads_file a = p -> clean name -> full cwd (full_filename a name) = removelast q ++ [last q [] ++ $":" ++ name].
Proof.
  intros Ea Cn. destruct (q_parts cwd p q Hn) as (D & l & x & E & F & (Cx & Nx & Nx2) & ND).
  assert (Eq : q = (D :: l) ++ [x]) by now rewrite E. rewrite Eq, removelast_last, last_last. destruct (seps_out x Cx) as (Xs & Xb & _). destruct (seps_out name Cn) as (Ns & Nb & _).
  assert (W : win_parts (x ++ $":" ++ name) = [x ++ $":" ++ name]).
  { apply parts_plain.
    - intro I. rewrite !in_app_iff in I. destruct I as [I|[I|I]]; [exact (Xs I)| |exact (Ns I)]. destruct I as [I|[]]. discriminate.
    - intro I. rewrite !in_app_iff in I. destruct I as [I|[I|I]]; [exact (Xb I)| |exact (Nb I)]. destruct I as [I|[]]. discriminate.
    - destruct x; discriminate.
    - intro I. apply (f_equal (@length N)) in I. rewrite !app_length in I. destruct Cx as (Cx & _). destruct x; [now destruct Cx|]. cbn in I. lia. }
  assert (Pl : ~ In $".." ((D :: l) ++ [x ++ $":" ++ name])).
  { pose proof (q_plain cwd p q Hn) as Q. rewrite Eq in Q. intro I. apply in_app_iff in I. destruct I as [I|[I|[]]]; [apply Q; rewrite in_app_iff; now left|].
    assert (J : In (chr ":") $"..") by (rewrite <- I; rewrite !in_app_iff; right; left; now left). vm_compute in J. intuition discriminate. }
  unfold full_filename. rewrite Ea. unfold full. cbn [wp_abs wp_parts]. destruct Hn as (D' & l' & E' & _ & _ & _ & [(A & P)|(A & r & C & L & N0 & S1)]).
  - rewrite A, P, Eq, removelast_last, last_last, W. now rewrite climb_id.
  - destruct (exists_last N0) as (m & y & Em). rewrite Em in *. assert (Y : D' :: r ++ m = D :: l /\ y = x).
    { rewrite E', L in Eq. apply app_inj_tail. rewrite <- Eq. cbn [app]. now rewrite <- app_assoc. } destruct Y as (Y & ->).
    rewrite A, C, removelast_last, last_last, W, app_assoc. change ((D' :: r) ++ m) with (D' :: r ++ m). rewrite Y. now rewrite climb_id.
Qed.
End Where.

Section Volume.
Variables (up : N -> N) (legal : str -> bool) (order : list (str * bytes) -> list (str * bytes)).
Hypothesis Horder : forall l, Permutation (order l) l.
Variables (cwd : list str) (p : wpath) (q : list str).
Hypothesis Hn : named cwd p q.
Variable K : str -> Prop.
Hypothesis Hk : proper up legal K.
Notation step := (ads_step up legal cwd).

Lemma k_clean k : K k -> clean k. Proof. intro H. now apply (proj1 Hk) in H as ((H & _) & _). Qed.
Lemma aim_k a k : ads_file a = p -> K k -> aim up legal cwd (full_filename a k) = Ok (q, Some k).
Proof.
  intros Ea H. pose proof (proj1 Hk k H) as ((C & _) & L). apply (aim_stream up legal cwd p q Hn (full_filename a k) k C L). now apply (file_path cwd p q Hn).
Qed.
Lemma names_nodup (l : list (str * bytes)) : (forall n v, In (n, v) l -> K n) -> NoDup (map fst l) -> NoDup (map (map up) (map fst l)).
Proof.
  induction l as [|[a b] l IH]; intros H ND; [constructor|]. cbn [map fst] in ND |- *. inversion_clear ND as [|? ? N1 N2]. constructor.
  - intro I. apply in_map_iff in I. destruct I as (n & E & I). pose proof I as I'. apply in_map_iff in I. destruct I as ([n' v] & Ei & I). cbn [fst] in Ei. subst n'.
    apply N1. assert (n = a) as <-; [|exact I']. apply (proj2 Hk); [apply (H n v); now right|apply (H a b); now left|exact E].
  - apply IH; [|assumption]. intros n v I. apply (H n v). now right.
Qed.
Lemma nodup_back (l : list (str * bytes)) : NoDup (map (map up) (map fst l)) -> NoDup (map fst l).
Proof. apply NoDup_map_inv. Qed.
Lemma dict_find D l k : (forall k v, D k = Some v <-> In (k, v) l) -> (forall n v, In (n, v) l -> K n) -> NoDup (map fst l) -> K k -> find_stream up k l = D k.
Proof.
  intros Ha Sn ND H. destruct (find_stream up k l) as [v|] eqn:E.
  - apply stream_find in E. destruct E as (n & F & I). assert (n = k) as -> by (apply (proj2 Hk); [exact (Sn n v I)|assumption|exact F]). symmetry. now apply Ha.
  - destruct (D k) as [v|] eqn:A; [|reflexivity]. apply Ha in A. rewrite (stream_in up k l v (names_nodup l Sn ND) A) in E. discriminate.
Qed.
Lemma exists_k a d k f : ads_file a = p -> K k -> find_file up d q = Some f ->
  win_exists up legal cwd (full_filename a k) d = match find_stream up k (w_streams f) with Some _ => true | None => false end.
Proof. intros Ea H Hf. unfold win_exists. now rewrite (aim_k a k Ea H), Hf. Qed.

Notation agree := (agree up p q K).
Notation frame := (frame up q).
Definition same_data (d d' : disk) : Prop := forall q' , match find_file up d' q' with Some f => Some (w_data f) | None => None end = match find_file up d q' with Some f => Some (w_data f) | None => None end.
Lemma put_data d f g : find_file up d q = Some f -> w_data g = w_data f -> same_data d (put_file up q g d).
Proof.
  intros Hf E q'. rewrite find_put. destruct (alike_place up q q') eqn:A; [|reflexivity]. apply place_spec in A.
  assert (X : find_file up d q' = find_file up d q).
  { unfold find_file. assert (Y : find (fun e => alike_place up (fst e) q') d = find (fun e => alike_place up (fst e) q) d); [|now rewrite Y].
    clear -A. induction d as [|e d IH]; [reflexivity|]. cbn [find]. assert (Z : alike_place up (fst e) q' = alike_place up (fst e) q).
    { apply eq_true_iff_eq. rewrite !place_spec, A. reflexivity. } rewrite Z, IH. reflexivity. }
  rewrite X, Hf. now rewrite E.
Qed.

Lemma add_step D a d data k v : agree D a d data -> K k -> exists r a' d' D',
  add_string up legal cwd k v a d = (r, (a', d')) /\ adds D k v (do b <- r ; Ok (AnBool b)) D' /\ agree D' a' d' data /\ frame d d' /\ same_data d d'.
Proof.
  intros ((f & Hf & Hd & ND & Ha & Sn) & Ea & NL & HL) H. unfold add_string, adds. rewrite (base_clean k (k_clean k H)), (exists_k a d k f Ea H Hf), (dict_find D _ k Ha Sn ND H).
  destruct (D k) as [w|] eqn:Dk.
  - exists (Ok false), a, d, D. split; [reflexivity|]. split; [now split|]. split; [|now split].
    split; [exists f; now repeat (split; [assumption|])|]. now repeat (split; [assumption|]).
  - unfold win_write. rewrite (aim_k a k Ea H), Hf.
    assert (NF : forall n w, In (n, w) (w_streams f) -> ~ folded up n k).
    { intros n w I F. assert (n = k) as -> by (apply (proj2 Hk); [exact (Sn n w I)|assumption|exact F]). apply Ha in I. congruence. }
    rewrite (put_new up k v (w_streams f) NF). eexists (Ok true), _, _, (fun k' => if str_eqb k' k then Some v else D k').
    assert (Ekk : str_eqb k k = true) by now apply str_eqb_eq.
    assert (Nk : forall k', k' <> k -> str_eqb k' k = false). { intros k' X. destruct (str_eqb k' k) eqn:E; [apply str_eqb_eq in E; contradiction|reflexivity]. }
    split; [reflexivity|]. cbn [rbind]. split.
    { split; [reflexivity|]. rewrite Ekk. split; [reflexivity|]. intros k' X. now rewrite (Nk k' X). }
    split; [|split; [apply frame_put|now apply put_data with (f := f)]]. split.
    + eexists. split; [rewrite find_put, place_refl; reflexivity|]. cbn [w_data w_streams]. split; [assumption|]. split.
      { rewrite map_app. apply NoDup_app_one; [assumption|]. intro I. apply in_map_iff in I. destruct I as ([n w] & E & I). cbn [fst] in E. subst n. apply (NF k w I). reflexivity. }
      split.
      * intros k' w. rewrite in_app_iff. cbn [In]. destruct (str_eqb k' k) eqn:E.
        -- apply str_eqb_eq in E. subst k'. split; [intro X; injection X as <-; right; now left|]. intros [I|[I|[]]]; [destruct (NF k w I); reflexivity|now injection I as <-].
        -- rewrite Ha. split; [now left|]. intros [I|[I|[]]]; [assumption|]. injection I as <- <-. congruence.
      * intros n w I. apply in_app_iff in I. destruct I as [I|[I|[]]]; [exact (Sn n w I)|]. injection I as <- <-. assumption.
    + cbn [ads_file ads_streams]. split; [assumption|]. split.
      * apply NoDup_app_one; [assumption|]. rewrite HL. congruence.
      * intro k'. rewrite in_app_iff, HL. cbn [In]. destruct (str_eqb k' k) eqn:E.
        -- apply str_eqb_eq in E. subst k'. split; [discriminate|]. intros _. right. now left.
        -- split; [intros [I|[I|[]]]; [assumption|subst; congruence]|now left].
Qed.
Lemma del_step D a d data k : agree D a d data -> K k -> exists r a' d' D',
  delete up legal cwd k a d = (r, (a', d')) /\ answers (in_cwd up cwd d) D (CDelete k) (do b <- r ; Ok (AnBool b)) D' /\ agree D' a' d' data /\ frame d d' /\ same_data d d'.
Proof.
  intros ((f & Hf & Hd & ND & Ha & Sn) & Ea & NL & HL) H. unfold delete, win_unlink. cbn [answers]. rewrite (aim_k a k Ea H), Hf, (dict_find D _ k Ha Sn ND H).
  destruct (D k) as [w|] eqn:Dk.
  - assert (IL : In k (ads_streams a)) by (apply HL; congruence). destruct (remove_in k _ IL NL) as (l' & -> & NL' & HL').
    assert (Nk : forall k', k' <> k -> str_eqb k' k = false). { intros k' X. destruct (str_eqb k' k) eqn:E; [apply str_eqb_eq in E; contradiction|reflexivity]. }
    assert (Ekk : str_eqb k k = true) by now apply str_eqb_eq.
    assert (DI := drop_in up k (w_streams f) (fun n w0 I F => proj2 Hk n k (Sn n w0 I) H F)).
    eexists (Ok true), _, _, (fun k' => if str_eqb k' k then None else D k'). split; [reflexivity|]. cbn [rbind]. split.
    { split; [reflexivity|]. rewrite Ekk. split; [reflexivity|]. intros k' X. now rewrite (Nk k' X). }
    split; [|split; [apply frame_put|now apply put_data with (f := f)]]. split.
    + eexists. split; [rewrite find_put, place_refl; reflexivity|]. cbn [w_data w_streams]. split; [assumption|]. split.
      { apply nodup_back. apply drop_nodup. now apply names_nodup. }
      split.
      * intros k' v. rewrite DI. destruct (str_eqb k' k) eqn:E.
        -- apply str_eqb_eq in E. subst k'. split; [discriminate|]. intros (X & _). now destruct X.
        -- rewrite Ha. split; [|now intros (_ & I)]. intro I. split; [|assumption]. intros ->. congruence.
      * intros n v I. apply DI in I. now apply (Sn n v).
    + cbn [ads_file ads_streams]. split; [assumption|]. split; [assumption|]. intro k'. rewrite HL', HL. destruct (str_eqb k' k) eqn:E.
      * apply str_eqb_eq in E. subst k'. split; [intros (X & _); now destruct X|intro X; now destruct X].
      * split; [now intros (_ & I)|]. intro I. split; [|assumption]. intros ->. congruence.
  - exists (Ok false), a, d, D. split; [reflexivity|]. split; [now repeat split|]. split; [|now split].
    split; [exists f; now repeat (split; [assumption|])|]. now repeat (split; [assumption|]).
Qed.
Lemma aim_cwd k : working cwd -> K k -> aim up legal cwd (text_path k) = Ok (cwd ++ [k], None).
Proof.
  intros (Dr & r & C & ND & F) H. pose proof (proj1 Hk k H) as ((Ck & N1 & N2) & _). destruct (seps_out k Ck) as (A & B & Cl).
  assert (T : text_path k = mkWP false [k]).
  { assert (W : win_parts k = [k]) by (apply parts_plain; [assumption|assumption|exact (proj1 Ck)|assumption]).
    unfold text_path. rewrite W. destruct k as [|l [|c [|b t]]]; try reflexivity. destruct (N.eqb_spec c (chr ":")) as [->|_]; [|reflexivity]. destruct Cl. right. now left. }
  rewrite T. unfold aim, full. cbn [wp_abs wp_parts]. rewrite climb_id.
  2:{ rewrite C. intros [I|I]; [now destruct ND|]. apply in_app_iff in I. destruct I as [I|[I|[]]]; [|contradiction]. rewrite Forall_forall in F. now apply F in I as (_ & _ & I). }
  cbn [rev app]. rewrite last_last, removelast_last. unfold stream_of. rewrite (cut_none _ k Cl). destruct k as [|c k]; [now destruct Ck|]. cbn [rbind fst snd].
  assert (X : existsb (has (chr ":")) (tl cwd) = false).
  { rewrite C. cbn [tl]. destruct (existsb _ r) eqn:E; [|reflexivity]. apply existsb_exists in E. destruct E as (y & I & Y). rewrite Forall_forall in F.
    apply F in I. destruct I as (Cy & _). unfold has in Y. apply existsb_exists in Y. destruct Y as (z & I & Ez). apply N.eqb_eq in Ez. subst z. destruct (no_sep _ _ Cy colon_sep I). }
  now rewrite X.
Qed.
Lemma stays D a d data : agree D a d data -> exists D' : dict, agree D' a d data /\ forall k, D' k = D k.
Proof. intro H. now exists D. Qed.
Lemma one_step D a d data c : working cwd -> agree D a d data -> asks K c -> exists r a' d' D',
  step c a d = (r, (a', d')) /\ answers (in_cwd up cwd d) D c r D' /\ agree D' a' d' data /\ frame d d' /\ same_data d d'.
Proof.
  intros Wk Ag H. destruct c as [k v|k|k|k| |]; cbn [asks] in H.
  - destruct (add_step D a d data k v Ag H) as (r & a' & d' & D' & E & R). cbn [ads_step]. rewrite E. unfold as_bool. cbn [fst snd]. now exists (do b <- r ; Ok (AnBool b)), a', d', D'.
  - cbn [ads_step]. unfold add_file, win_exists, win_read. rewrite (aim_cwd k Wk H). cbn [rbind fst snd answers]. unfold in_cwd at 1. destruct (find_file up d (cwd ++ [k])) as [g|].
    + destruct (w_data g) as [v|].
      * destruct (add_step D a d data k v Ag H) as (r & a' & d' & D' & E & R). rewrite E. unfold as_bool. cbn [fst snd]. now exists (do b <- r ; Ok (AnBool b)), a', d', D'.
      * unfold as_bool. cbn [fst snd rbind]. exists (Err (OSErr EACCES)), a, d, D. now repeat (split; [first [reflexivity|assumption|now split]|]).
    + unfold as_bool. cbn [fst snd rbind]. exists (Ok (AnBool false)), a, d, D. now repeat (split; [first [reflexivity|assumption|now split]|]).
  - destruct (del_step D a d data k Ag H) as (r & a' & d' & D' & E & R). cbn [ads_step]. rewrite E. unfold as_bool. cbn [fst snd]. now exists (do b <- r ; Ok (AnBool b)), a', d', D'.
  - pose proof Ag as ((f & Hf & Hd & ND & Ha & Sn) & Ea & NL & HL). cbn [ads_step answers]. unfold get_content, win_read. rewrite (aim_k a k Ea H). cbn [rbind fst snd]. rewrite Hf, (dict_find D _ k Ha Sn ND H).
    exists (match D k with Some v => Ok (AnBytes v) | None => Err (OSErr ENOENT) end), a, d, D. split; [now destruct (D k)|]. now repeat (split; [first [reflexivity|assumption|now split]|]).
  - pose proof Ag as (_ & _ & NL & HL). cbn [ads_step answers]. exists (Ok (AnNames (ads_streams a))), a, d, D. split; [reflexivity|]. split; [split; [now exists (ads_streams a)|reflexivity]|]. now repeat (split; [first [reflexivity|assumption]|]).
  - pose proof Ag as (_ & _ & NL & HL). cbn [ads_step answers]. exists (Ok (AnBool (Nat.ltb 0 (length (ads_streams a))))), a, d, D. split; [reflexivity|]. split.
    { split; [|reflexivity]. eexists. split; [reflexivity|]. destruct (ads_streams a) as [|k l] eqn:E; cbn [length Nat.ltb Nat.leb].
      - split; [discriminate|]. intros (k & X). now apply HL in X.
      - split; [|reflexivity]. intros _. exists k. apply HL. now left. }
    now repeat (split; [first [reflexivity|assumption]|]).
Qed.
Lemma around_kept A d d' D c r D' : (forall k, A k = in_cwd up cwd d k) -> same_data d d' -> answers (in_cwd up cwd d) D c r D' -> answers A D c r D' /\ forall k, A k = in_cwd up cwd d' k.
Proof.
  intros E S0 H. split.
  - destruct c; cbn [answers] in *; try exact H. now rewrite E.
  - intro k. rewrite E. unfold in_cwd. symmetry. apply S0.
Qed.
Lemma run_told A : working cwd -> forall cs D a d data rs a' d', (forall k, A k = in_cwd up cwd d k) -> agree D a d data -> Forall (asks K) cs ->
  ads_run up legal cwd cs a d = (rs, (a', d')) -> exists D', told A D cs rs D' /\ agree D' a' d' data /\ frame d d'.
Proof.
  intro Wk. induction cs as [|c cs IH]; intros D a d data rs a' d' EA Ag F E; cbn [ads_run] in E.
  - injection E as <- <- <-. exists D. split; [constructor|]. split; [assumption|]. intros ? _. reflexivity.
  - inversion_clear F as [|? ? H F']. destruct (one_step D a d data c Wk Ag H) as (r & a1 & d1 & D1 & E1 & An & Ag1 & Fr & Sd). rewrite E1 in E. cbn [fst snd] in E.
    destruct (ads_run up legal cwd cs a1 d1) as (l & a2 & d2) eqn:E2. injection E as <- <- <-. destruct (around_kept A d d1 D c r D1 EA Sd An) as (An' & EA1).
    destruct (IH D1 a1 d1 data l a2 d2 EA1 Ag1 F' E2) as (D' & T & Ag2 & Fr2). exists D'. split; [now apply told_cons with D1|]. split; [assumption|].
    intros q' X. now rewrite (Fr2 q' X), (Fr q' X).
Qed.

(** ** A new object *)
Lemma init_agree D d data : stored up K D d q data -> agree D (ads_new up order cwd p d) d data.
Proof.
  intros (f & Hf & Hd & ND & Ha & Sn). split; [exists f; now repeat (split; [assumption|])|]. split; [reflexivity|]. unfold ads_new. cbn [ads_streams].
  assert (E : init_streams up order cwd p d = map fst (order (w_streams f))).
  { unfold init_streams, win_streams. rewrite (full_id cwd p q Hn), Hf.
    assert (M : forall l, (forall e, In e l -> clean (fst e)) -> map second (map (fun e : str * bytes => $":" ++ fst e ++ $":$DATA") l) = map fst l).
    { induction l as [|e l IH]; intro X; [reflexivity|]. cbn [map]. rewrite second_name by (apply X; now left). rewrite IH; [reflexivity|]. intros e' I. apply X. now right. }
    assert (Cl : forall e, In e (order (w_streams f)) -> clean (fst e)).
    { intros [n v] I. apply (Permutation_in _ (Horder _)) in I. apply k_clean. exact (Sn n v I). }
    destruct (w_data f) as [b|].
    - cbn [app]. now rewrite M.
    - cbn [app]. destruct (order (w_streams f)) as [|e l]; [reflexivity|]. destruct e as [n v]. cbn [map fst]. rewrite second_name by exact (Cl (n, v) (or_introl eq_refl)). rewrite M by (intros e' I; apply Cl; now right).
      pose proof (Cl (n, v) (or_introl eq_refl)) as (N0 & _). cbn [fst] in N0. destruct n; [now destruct N0|reflexivity]. }
  rewrite E. assert (Pm : Permutation (map fst (order (w_streams f))) (map fst (w_streams f))) by (apply Permutation_map, Horder). split.
  - apply (Permutation_NoDup (Permutation_sym Pm)). exact ND.
  - intro k. split.
    + intro I. apply (Permutation_in _ Pm) in I. apply in_map_iff in I. destruct I as ([n v] & X & I). cbn [fst] in X. subst n. apply Ha in I. congruence.
    + intro X. apply (Permutation_in _ (Permutation_sym Pm)). destruct (D k) as [v|] eqn:Dk; [|now destruct X]. apply Ha in Dk. now apply (in_map fst) in Dk.
Qed.
End Volume.

(** ** The statements *)
Lemma object_dictionary up legal order cwd p q K D d data cs rs a' d' :
  (forall l, Permutation (order l) l) -> working cwd -> named cwd p q -> proper up legal K -> stored up K D d q data -> Forall (asks K) cs ->
  ads_run up legal cwd cs (ads_new up order cwd p d) d = (rs, (a', d')) ->
  exists D', told (in_cwd up cwd d) D cs rs D' /\ stored up K D' d' q data /\
    (NoDup (ads_streams a') /\ forall k, In k (ads_streams a') <-> D' k <> None) /\
    forall q', map (map up) q' <> map (map up) q -> find_file up d' q' = find_file up d q'.
Proof.
  intros Ho Wk Hn Hk Hs F E. pose proof (init_agree up legal order Ho cwd p q Hn K Hk D d data Hs) as Ag.
  destruct (run_told up legal cwd p q Hn K Hk (in_cwd up cwd d) Wk cs D _ d data rs a' d' (fun k => eq_refl) Ag F E) as (D' & T & (St & _ & NL & HL) & Fr).
  exists D'. now repeat (split; [assumption|]).
Qed.

(** A name with a directory is written without it and listed with it. *)
Lemma whole_name_listed up legal cwd p q K k dir v a d f :
  named cwd p q -> proper up legal K -> K k -> ads_file a = p -> find_file up d q = Some f -> find_stream up k (w_streams f) = None ->
  base_name (dir ++ 92%N :: k) = k -> exists d',
    add_string up legal cwd (dir ++ 92%N :: k) v a d = (Ok true, (mkAds p (ads_streams a ++ [dir ++ 92%N :: k]), d')) /\
    exists f', find_file up d' q = Some f' /\ find_stream up k (w_streams f') = Some v.
Proof.
  intros Hn Hk H Ea Hf Hs Hb. unfold add_string. rewrite Hb, (exists_k up legal cwd p q Hn K Hk a d k f Ea H Hf), Hs. unfold win_write. rewrite (aim_k up legal cwd p q Hn K Hk a k Ea H), Hf, Ea.
  eexists. split; [reflexivity|]. eexists. split; [rewrite find_put, place_refl; reflexivity|]. cbn [w_streams].
  assert (NF : forall n w, In (n, w) (w_streams f) -> ~ folded up n k).
  { intros n w I F. unfold find_stream in Hs. destruct (find (fun e => alike up (fst e) k) (w_streams f)) as [[? ?]|] eqn:E; [discriminate|].
    apply (find_none _ _ E) in I. cbn [fst] in I. apply alike_spec in F. congruence. }
  rewrite put_new by exact NF. clear Hf. unfold find_stream in *. induction (w_streams f) as [|[n w] l IH]; cbn [app find fst] in *.
  - assert (X : alike up k k = true) by now apply alike_spec. now rewrite X.
  - destruct (alike up n k); [discriminate|]. apply IH; [assumption|]. intros n' w' I. apply (NF n' w'). now right.
Qed.

(** Another spelling of a name: the stream goes, the answer is False and the name stays. *)
Lemma spelling_deletes up legal cwd p q K D a d data k k' :
  named cwd p q -> proper up legal K -> agree up p q K D a d data -> K k -> D k <> None ->
  clean k' -> legal k' = true -> folded up k' k -> k' <> k -> exists d',
    delete up legal cwd k' a d = (Ok false, (a, d')) /\ In k (ads_streams a) /\
    exists f', find_file up d' q = Some f' /\ find_stream up k (w_streams f') = None.
Proof.
  intros Hn Hk ((f & Hf & Hd & ND & Ha & Sn) & Ea & NL & HL) H Dk C L F Ne. unfold delete, win_unlink.
  rewrite (aim_stream up legal cwd p q Hn (full_filename a k') k' C L (file_path cwd p q Hn a k' Ea C)), Hf.
  assert (A : forall n, alike up n k' = alike up n k). { intro n. apply eq_true_iff_eq. rewrite !alike_spec. unfold folded in *. now rewrite F. }
  assert (Fs : forall l, find_stream up k' l = find_stream up k l).
  { intro l. unfold find_stream. assert (X : find (fun e : str * bytes => alike up (fst e) k') l = find (fun e => alike up (fst e) k) l); [|now rewrite X].
    induction l as [|e l IH]; [reflexivity|]. cbn [find]. now rewrite A, IH. }
  rewrite Fs, (dict_find up legal K Hk D _ k Ha Sn ND H). destruct (D k) as [v|] eqn:E; [|now destruct Dk].
  assert (Out : ~ In k' (ads_streams a)).
  { intro I. apply HL in I. destruct (D k') as [w|] eqn:E'; [|now destruct I]. apply Ha in E'. apply Ne. apply (proj2 Hk); [exact (Sn k' w E')|assumption|exact F]. }
  rewrite (remove_out k' _ Out). eexists. split; [reflexivity|]. split; [apply HL; congruence|]. eexists. split; [rewrite find_put, place_refl; reflexivity|]. cbn [w_streams].
  destruct (find_stream up k (drop_stream up k' (w_streams f))) as [w|] eqn:Z; [|reflexivity]. apply stream_find in Z. destruct Z as (n & Fn & I). unfold drop_stream in I. apply filter_In in I. destruct I as (_ & I). cbn [fst] in I.
  rewrite A in I. apply alike_spec in Fn. now rewrite Fn in I.
Qed.
