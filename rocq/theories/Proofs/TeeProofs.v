(** * Writing files in a chain of generators *)
From Coq Require Import String NArith ZArith Bool List Lia Arith.
From Verif Require Import Model.Py Model.PurePath Model.Fs Model.PathOps Model.Copy Model.Tee
  Spec.FsSpec Spec.LoopSpec Spec.CopySpec Spec.TeeSpec Proofs.FsLemmas Proofs.RunLemmas Proofs.MoveLemmas Proofs.CopyProofs Proofs.SysidProofs Proofs.CopyMetaProofs.
From Verif Require Proofs.RmdirtreeProofs.
Import ListNotations.

Lemma slot_of s cwd p T : is_dir_at s [] -> writes s cwd p T -> slot s T.
Proof.
  intros (xs0 & L0) [(d & xs & W)|(d & x & W & ->)].
  - apply walk_found_get in W. split; [|left; eauto]. destruct T as [|y T _] using rev_ind.
    + apply look_dir in L0 as (es & L0). congruence.
    + exists T, y. split; [reflexivity|]. apply get_above in W as (xs' & es' & W). exists xs'. apply look_dir. eauto.
  - apply walk_missing_inv in W as (xs & es & Gd & E). split.
    + exists d, x. split; [reflexivity|]. exists xs. apply look_dir. eauto.
    + right. now rewrite get_snoc, Gd.
Qed.
Lemma walk_moved fs T d ys cwd follow p : slot fs T ->
  moved T d ys (walk fs cwd follow p) (walk (put fs T (File d ys)) cwd follow p) \/ exists e, walk fs cwd follow p = Fail e.
Proof.
  intro HT. assert (Q : forall c, moved T d ys (walk_from fs follow max_links c (pp_parts p)) (walk_from (put fs T (File d ys)) follow max_links c (pp_parts p)) \/
    exists e, walk_from fs follow max_links c (pp_parts p) = Fail e).
  { intro c. destruct (walk_file fs T d ys HT follow max_links c (pp_parts p)) as [H|H]; [now left|right]. rewrite walk_eq, H. eauto. }
  apply Q.
Qed.
Lemma writes_put fs T d ys cwd p T' : is_dir_at fs [] -> slot fs T -> writes fs cwd p T' -> writes (put fs T (File d ys)) cwd p T'.
Proof.
  intros R HT W. destruct (walk_moved fs T d ys cwd true p HT) as [M|(e & M)].
  2:{ destruct W as [(d' & x' & W)|(D & x & W & _)]; congruence. }
  destruct W as [(d' & x' & W)|(D & x & W & ->)]; rewrite W in M; cbn [moved] in M.
  - destruct M as (n' & M). pose proof (walk_found_get _ _ _ _ _ _ _ M) as G'. pose proof (walk_found_get _ _ _ _ _ _ _ W) as G.
    left. destruct (list_eq_dec (list_eq_dec N.eq_dec) T' T) as [->|N].
    + rewrite (slot_get _ _ _ HT) in G'. injection G' as <-. eauto.
    + rewrite (slot_other _ _ _ _ _ _ HT G N) in G'. injection G' as <-. eauto.
  - destruct M as [M|(E & M)]; [right; eauto|]. left. rewrite E. eauto.
Qed.
Lemma file_look fs T x y q : slot fs T -> q <> T -> look (put fs T (File x y)) q = look fs q.
Proof. intros HT N. exact (put_look fs T (File x y) q HT Logic.I N). Qed.
Lemma root_put fs T d ys : is_dir_at fs [] -> slot fs T -> is_dir_at (put fs T (File d ys)) [].
Proof.
  intros (xs & L) HT. pose proof HT as ((D & x & E & _) & _). exists xs. rewrite (file_look fs T _ _ [] HT); [exact L|]. rewrite E. now destruct D.
Qed.

Section Tee.
Variables (size n : nat) (fs : node) (cwd : place) (self : ppath) (S : place) (d : bytes) (xs : xattrs) (ts : list part).
Hypothesis Hn : (0 < n)%nat.
Hypothesis Ap : apart fs cwd S ts.
Let Ts := map where_ ts.

Record env (s : node) : Prop := mkEnv {
  e_root : is_dir_at s [];
  e_self : walk s cwd true self = Found S (File d xs);
  e_writes : forall p a T, In (p, a, T) ts -> writes s cwd p T;
  e_rest : only_in Ts fs s }.
Lemma in_places p a T : In (p, a, T) ts -> In T Ts.
Proof. intro I. apply in_map_iff. exists (p, a, T). now split. Qed.
Lemma env_slot s p a T : env s -> In (p, a, T) ts -> slot s T.
Proof. intros E I. exact (slot_of _ _ _ _ (e_root _ E) (e_writes _ E _ _ _ I)). Qed.
Lemma env_put s p a T x y : env s -> In (p, a, T) ts -> env (put s T (File x y)).
Proof.
  intros E I. pose proof (env_slot _ _ _ _ E I) as HT. pose proof (in_places _ _ _ I) as IT. split.
  - apply root_put; [apply E|exact HT].
  - apply still_leads; [exact HT| |apply E]. intros ->. now apply Ap.
  - intros p' a' T' I'. apply writes_put; [apply E|exact HT|]. exact (e_writes _ E _ _ _ I').
  - intros q Nq. rewrite (file_look _ _ _ _ _ HT); [now apply E|]. intros ->. now apply Nq.
Qed.

Definition file (s : node) (T : place) (x : bytes) : Prop := look s T = Some (AFile x (file_xattrs fs T)).
Definition seen (s : node) : Prop := env s /\ forall p a T, In (p, a, T) ts -> written fs d a T s.
Lemma same_part p a p' a' T : In (p, a, T) ts -> In (p', a', T) ts -> a = a'.
Proof.
  destruct Ap as (Nd & _). intros I I'. clear - Nd I I'. induction ts as [|t l IH]; [contradiction|]. cbn [map] in Nd. apply NoDup_cons_iff in Nd as [N Nd].
  destruct I as [->|I], I' as [E|I'].
  - congruence.
  - elim N. apply in_map_iff. now exists (p', a', T).
  - subst t. elim N. apply in_map_iff. now exists (p, a, T).
  - now apply IH.
Qed.
Lemma seen_put s p a T m : seen s -> In (p, a, T) ts -> seen (put s T (File (before fs a T ++ firstn m d) (file_xattrs fs T))).
Proof.
  intros [E W] I. pose proof (env_slot _ _ _ _ E I) as HT. split; [exact (env_put _ _ _ _ _ _ E I)|].
  intros p' a' T' I'. destruct (list_eq_dec (list_eq_dec N.eq_dec) T' T) as [->|N].
  - right. exists m. rewrite (same_part _ _ _ _ _ I' I). apply look_file, slot_get, HT.
  - pose proof (W _ _ _ I') as Q. unfold written in *. rewrite (file_look _ _ _ _ _ HT N). exact Q.
Qed.

(** ** Steps *)
(** [w] goes to [w']: all states are seen, and of the files only those of [l] differ. *)
Definition go (l : list place) (w w' : world) : Prop :=
  w_cwd w' = w_cwd w /\ w_fault w' = w_fault w /\ (Forall seen (states w) -> Forall seen (states w')) /\
  (forall q, ~ In q l -> look (w_fs w') q = look (w_fs w) q).
Lemma go_same l w w' : same w w' -> go l w w'.
Proof. intros (F & C & H & T). split; [exact C|]. split; [exact T|]. split; [unfold states; now rewrite F, H|]. intros q _. now rewrite F. Qed.
Lemma go_trans l w1 w2 w3 : go l w1 w2 -> go l w2 w3 -> go l w1 w3.
Proof. intros (A1 & A2 & A3 & A4) (B1 & B2 & B3 & B4). split; [congruence|]. split; [congruence|]. split; [auto|]. intros q I. rewrite B4, A4; auto. Qed.
Lemma go_more l l' w w' : incl l l' -> go l w w' -> go l' w w'.
Proof. intros I (A1 & A2 & A3 & A4). split; [exact A1|]. split; [exact A2|]. split; [exact A3|]. intros q N. apply A4. intro H. apply N, I, H. Qed.
Lemma go_put p a T m w w' : In (p, a, T) ts -> seen (w_fs w) -> changed (put (w_fs w) T (File (before fs a T ++ firstn m d) (file_xattrs fs T))) w w' -> go [T] w w'.
Proof.
  intros I Se (F & C & H & Fa). split; [exact C|]. split; [exact Fa|]. split.
  - intro Q. unfold states in *. rewrite F, H. pose proof (seen_put _ _ _ _ m Se I). apply Forall_inv_tail in Q. constructor; [assumption|]. now constructor.
  - intros q N. rewrite F. apply file_look; [exact (env_slot _ _ _ _ (proj1 Se) I)|]. intros ->. apply N. now left.
Qed.
Definition fault_in (w : world) (e : exn) : Prop := exists t, w_fault w t = Some e.

(** an open file: what is in it and what is in the buffer is what was given *)
Definition holds (out : bytes) (s : node) (T : place) (a : bool) (buf : bytes) : Prop :=
  exists m, file s T (before fs a T ++ firstn m d) /\ firstn m d ++ buf = out.
Lemma append_run p a T m b w r w' : In (p, a, T) ts -> seen (w_fs w) -> file (w_fs w) T (before fs a T ++ firstn m d) -> firstn m d ++ b = firstn (length (firstn m d ++ b)) d ->
  sys_append T b w = (r, w') -> go [T] w w' /\
  ((r = Ok tt /\ file (w_fs w') T (before fs a T ++ firstn m d ++ b)) \/ (exists e, r = Err e /\ fault_in w e /\ same w w')).
Proof.
  intros I Se Fl E H. apply look_file in Fl. destruct (append_step _ _ _ _ _ _ _ Fl H) as [(e & -> & Sm & Fa)|(-> & Ch)].
  - split; [now apply go_same|]. right. exists e. split; [reflexivity|]. split; [now exists (w_tick w)|exact Sm].
  - rewrite <- app_assoc, E in Ch. split; [exact (go_put _ _ _ _ _ _ I Se Ch)|]. left. split; [reflexivity|]. rewrite E. destruct Ch as (-> & _).
    apply look_file, slot_get, (env_slot _ _ _ _ (proj1 Se) I).
Qed.
Lemma flush_run p a T out buf w r w' : In (p, a, T) ts -> seen (w_fs w) -> holds out (w_fs w) T a buf -> out = firstn (length out) d ->
  flush T buf w = (r, w') -> go [T] w w' /\
  ((r = Ok tt /\ file (w_fs w') T (before fs a T ++ out)) \/ (exists e, r = Err e /\ fault_in w e /\ same w w')).
Proof.
  intros I Se (m & Fl & E) Eo H. unfold flush in H. destruct buf as [|c buf].
  - injection H as <- <-. rewrite app_nil_r in E. split; [apply go_same, same_refl|]. left. split; [reflexivity|]. now rewrite <- E.
  - rewrite <- E in Eo |- *. exact (append_run _ _ _ _ _ _ _ _ I Se Fl Eo H).
Qed.
Lemma go_seen l w w' : go l w w' -> Forall seen (states w) -> Forall seen (states w') /\ seen (w_fs w').
Proof. intros (_ & _ & Q & _) Se. specialize (Q Se). split; [exact Q|]. now apply Forall_inv in Q. Qed.
Lemma fault_go l w w' e : go l w w' -> fault_in w' e -> fault_in w e.
Proof. intros (_ & F & _) (t & Q). exists t. now rewrite <- F. Qed.
Lemma write_run p a T out buf c w r buf' w' : In (p, a, T) ts -> Forall seen (states w) -> holds out (w_fs w) T a buf -> out ++ c = firstn (length (out ++ c)) d ->
  write size T buf c w = ((r, buf'), w') -> go [T] w w' /\
  ((r = Ok tt /\ holds (out ++ c) (w_fs w') T a buf') \/ (exists e, r = Err e /\ fault_in w e /\ holds out (w_fs w') T a buf')).
Proof.
  intros I Se Ho Eo H. unfold write in H. destruct (Nat.leb (length buf + length c) size).
  - injection H as <- <- <-. split; [apply go_same, same_refl|]. left. split; [reflexivity|]. destruct Ho as (m & Fl & E). exists m. split; [exact Fl|]. now rewrite app_assoc, E.
  - assert (Eo1 : out = firstn (length out) d).
    { assert (Q : firstn (length out) (out ++ c) = firstn (length out) (firstn (length (out ++ c)) d)) by now rewrite <- Eo.
      rewrite firstn_app, firstn_all, Nat.sub_diag, app_nil_r in Q. rewrite firstn_firstn in Q. rewrite app_length, Nat.min_l in Q by lia. exact Q. }
    pose proof (Forall_inv Se) as Se0. destruct (flush T buf w) as [r1 w1] eqn:E1. destruct (flush_run _ _ _ _ _ _ _ _ I Se0 Ho Eo1 E1) as (G1 & [(-> & Fl)|(e & -> & Fa & Sm)]).
    2:{ injection H as <- <- <-. split; [exact G1|]. right. exists e. split; [reflexivity|]. split; [exact Fa|]. destruct Sm as (-> & _). exact Ho. }
    destruct (go_seen _ _ _ G1 Se) as [Se1 Se1']. rewrite Eo1 in Fl. destruct (Nat.leb (length c) size).
    + injection H as <- <- <-. split; [exact G1|]. left. split; [reflexivity|]. exists (length out). split; [exact Fl|]. now rewrite <- Eo1.
    + destruct (sys_append T c w1) as [r2 w2] eqn:E2.
      assert (Ea : firstn (length out) d ++ c = firstn (length (firstn (length out) d ++ c)) d) by (rewrite <- Eo1; exact Eo).
      destruct (append_run _ _ _ (length out) c w1 _ _ I Se1' Fl Ea E2) as (G2 & [(-> & Fl2)|(e & -> & Fa & Sm)]).
      * injection H as <- <- <-. split; [exact (go_trans _ _ _ _ G1 G2)|]. left. split; [reflexivity|]. exists (length (out ++ c)). rewrite <- Eo, app_nil_r. split; [|reflexivity]. rewrite Eo1 at 1. exact Fl2.
      * injection H as <- <- <-. split; [exact (go_trans _ _ _ _ G1 G2)|]. right. exists e. split; [reflexivity|]. split; [exact (fault_go _ _ _ _ G1 Fa)|].
        destruct Sm as (-> & _). exists (length out). split; [exact Fl|]. now rewrite app_nil_r, <- Eo1.
Qed.
Lemma leave_run {A} p a T out buf e w r w' : In (p, a, T) ts -> Forall seen (states w) -> holds out (w_fs w) T a buf -> out = firstn (length out) d -> fault_in w e ->
  @leave A T buf e w = (r, w') -> go [T] w w' /\ exists e', r = Err e' /\ fault_in w e'.
Proof.
  intros I Se Ho Eo Fa H. unfold leave in H. destruct (flush T buf w) as [r1 w1] eqn:E1.
  destruct (flush_run _ _ _ _ _ _ _ _ I (Forall_inv Se) Ho Eo E1) as (G1 & [(-> & _)|(e' & -> & Fa' & _)]); injection H as <- <-; (split; [exact G1|]); eauto.
Qed.

(** ** The source *)
Definition source (g : gen) (pos : nat) : Prop := exists fuel, g = read_gen fuel n S pos /\ (pos <= length d)%nat /\ (length d < fuel + pos)%nat.
Lemma source_file w : seen (w_fs w) -> get (w_fs w) S = Some (File d xs).
Proof. intros [E _]. exact (walk_found_get _ _ _ _ _ _ _ (e_self _ E)). Qed.
Lemma source_next g pos w r w' : source g pos -> seen (w_fs w) -> next g w = (r, w') -> same w w' /\
  ((exists c g', r = Ok (Some (c, g')) /\ source g' (pos + length c) /\ c = firstn n (skipn pos d) /\ c <> []) \/
   (r = Ok None /\ pos = length d) \/ (exists e, r = Err e /\ fault_in w e)).
Proof.
  intros (fuel & -> & Lp & Lf) Se H. destruct fuel as [|fuel]; [lia|]. cbn [read_gen next] in H. pose proof (source_file _ Se) as G.
  apply bind_inv in H as [(c & w1 & H1 & H)|(e & H1 & ->)]; destruct (read_step _ _ _ _ _ _ _ _ G H1) as [Sm Q].
  - destruct Q as [Q|(e & Q & _)]; [|discriminate]. assert (c = firstn n (skipn pos d)) as E by congruence. clear Q. destruct c as [|b c].
    + injection H as <- <-. split; [exact Sm|]. right. left. split; [reflexivity|]. assert (L : length (firstn n (skipn pos d)) = 0%nat) by now rewrite <- E.
      rewrite firstn_length, skipn_length in L. lia.
    + injection H as <- <-. split; [exact Sm|]. left. exists (b :: c), (read_gen fuel n S (pos + length (b :: c))). split; [reflexivity|]. split; [|split; [exact E|discriminate]].
      exists fuel. split; [reflexivity|]. assert (L : length (b :: c) = Nat.min n (length d - pos)) by (rewrite E, firstn_length, skipn_length; reflexivity). cbn [length] in L |- *. lia.
  - split; [exact Sm|]. right. right. destruct Q as [Q|(e' & Q & F)]; [discriminate|]. exists e. split; [reflexivity|]. exists (w_tick w). congruence.
Qed.
Lemma source_close g pos w : source g pos -> close g w = (Ok tt, w).
Proof. intros (fuel & -> & _). now destruct fuel. Qed.
Lemma next_out pos c : c = firstn n (skipn pos d) -> (pos <= length d)%nat -> firstn pos d ++ c = firstn (pos + length c) d.
Proof. intros -> _. apply firstn_skipn_app. Qed.
Lemma prefix_len k : firstn k d = firstn (length (firstn k d)) d.
Proof. rewrite firstn_length. destruct (Nat.le_ge_cases k (length d)); [now rewrite Nat.min_l|]. rewrite Nat.min_r by assumption. now rewrite !firstn_all2. Qed.

(** ** Open chains *)
Definition opened : Type := (part * bytes)%type.
Definition oplace (e : opened) : place := where_ (fst e).
Definition oflag (e : opened) : bool := snd (asked (fst e)).
Definition ochain (l : list opened) (g : gen) : gen := fold_right (fun e g => tee_open size (oplace e) (snd e) g) g l.
Definition wf (l : list opened) : Prop := NoDup (map oplace l) /\ forall e, In e l -> In (fst e) ts.
Definition oholds (out : bytes) (s : node) (e : opened) : Prop := holds out s (oplace e) (oflag e) (snd e).
Definition full (out : bytes) (s : node) (e : opened) : Prop := file s (oplace e) (before fs (oflag e) (oplace e) ++ out).
Lemma wf_tail e l : wf (e :: l) -> wf l /\ ~ In (oplace e) (map oplace l) /\ In (fst (asked (fst e)), oflag e, oplace e) ts.
Proof.
  intros [Nd I]. cbn [map] in Nd. apply NoDup_cons_iff in Nd as [N Nd]. split; [split; [exact Nd|intros x Hx; apply I; now right]|]. split; [exact N|].
  specialize (I e (or_introl eq_refl)). destruct e as [[[p a] T] b]. exact I.
Qed.
Lemma holds_look out s s' T a buf : look s' T = look s T -> holds out s T a buf -> holds out s' T a buf.
Proof. intros L (m & F & E). exists m. split; [|exact E]. unfold file in *. now rewrite L. Qed.
Lemma all_holds out l l' w w' : go l' w w' -> (forall e, In e l -> ~ In (oplace e) l') -> Forall (oholds out (w_fs w)) l -> Forall (oholds out (w_fs w')) l.
Proof. intros G N F. rewrite Forall_forall in *. intros e I. apply (holds_look _ (w_fs w)); [|now apply F]. now apply G, N. Qed.
Lemma all_full out l l' w w' : go l' w w' -> (forall e, In e l -> ~ In (oplace e) l') -> Forall (full out (w_fs w)) l -> Forall (full out (w_fs w')) l.
Proof. intros G N F. rewrite Forall_forall in *. intros e I. unfold full, file. destruct G as (_ & _ & _ & G). rewrite G by now apply N. now apply F. Qed.
Lemma others e l : ~ In (oplace e) (map oplace l) -> forall e', In e' l -> ~ In (oplace e') [oplace e].
Proof. intros N e' I [Q|[]]. apply N. rewrite Q. now apply in_map. Qed.
Lemma sub1 e l : incl [oplace e] (map oplace (e :: l)).
Proof. intros q [<-|[]]. now left. Qed.
Lemma sub2 e l : incl (map oplace l) (map oplace (e :: l)).
Proof. intros q I. now right. Qed.

Lemma tee_close q buf g w : close (tee_open size q buf g) w = match flush q buf w with (r, w1) => (r, snd (close g w1)) end.
Proof. now destruct g. Qed.
Lemma tee_next q buf g w : next (tee_open size q buf g) w =
  match next g w with
  | (Err e, w1) => leave q buf e w1
  | (Ok None, w1) => match flush q buf w1 with (Ok _, w2) => (Ok None, w2) | (Err e, w2) => (Err e, w2) end
  | (Ok (Some (b, g')), w1) => pass size q buf b g' (fun buf' => tee_open size q buf' g') w1
  end.
Proof. now destruct g. Qed.
Lemma consume_eq k g w : consume k g w =
  match k with
  | Some O => let '(r, w1) := close g w in (([], r), w1)
  | _ => match next g w with
         | (Err e, w1) => (([], Err e), w1)
         | (Ok None, w1) => (([], Ok tt), w1)
         | (Ok (Some (b, g')), w1) => let '((bs, r), w2) := consume (match k with Some (Datatypes.S j) => Some j | _ => None end) g' w1 in ((b :: bs, r), w2)
         end
  end.
Proof. now destruct g. Qed.

Lemma chain_close src pos out : source src pos -> out = firstn (length out) d -> forall l w r w', wf l -> Forall seen (states w) -> Forall (oholds out (w_fs w)) l ->
  close (ochain l src) w = (r, w') -> go (map oplace l) w w' /\
  (no_fault w -> Forall (full out (w_fs w')) l) /\ (r = Ok tt -> match l with e :: _ => full out (w_fs w') e | [] => True end) /\
  (r = Ok tt \/ exists e, r = Err e /\ fault_in w e).
Proof.
  intros So Eo. induction l as [|e l IH]; intros w r w' Wf Se Ho H.
  - cbn [ochain fold_right] in H. rewrite (source_close _ _ _ So) in H. injection H as <- <-. split; [apply go_same, same_refl|]. split; [constructor|]. split; [trivial|now left].
  - apply wf_tail in Wf as (Wf & N & I). change (ochain (e :: l) src) with (tee_open size (oplace e) (snd e) (ochain l src)) in H. rewrite tee_close in H.
    apply Forall_cons_iff in Ho as [He Ho]. destruct (flush (oplace e) (snd e) w) as [r1 w1] eqn:E1.
    destruct (flush_run _ _ _ _ _ _ _ _ I (Forall_inv Se) He Eo E1) as (G1 & Q1). destruct (go_seen _ _ _ G1 Se) as [Se1 _].
    destruct (close (ochain l src) w1) as [r2 w2] eqn:E2. cbn [snd] in H. injection H as <- <-.
    destruct (IH _ _ _ Wf Se1 (all_holds _ _ _ _ _ G1 (others _ _ N) Ho) E2) as (G2 & F2 & _).
    assert (Fe : r1 = Ok tt -> full out (w_fs w2) e).
    { intro R. destruct Q1 as [(_ & Q)|(e' & Q & _)]; [|congruence]. unfold full, file. destruct G2 as (_ & _ & _ & G2). rewrite G2 by exact N. exact Q. }
    split; [exact (go_trans _ _ _ _ (go_more _ _ _ _ (sub1 e l) G1) (go_more _ _ _ _ (sub2 e l) G2))|]. split; [|split].
    + intro Nf. constructor.
      * apply Fe. destruct Q1 as [(Q & _)|(e' & _ & (t & Q) & _)]; [exact Q|]. rewrite (Nf t) in Q. discriminate.
      * apply F2. intro t. destruct G1 as (_ & Q & _). rewrite Q. apply Nf.
    + exact Fe.
    + destruct Q1 as [(Q & _)|(e' & Q & F & _)]; [now left|right; eauto].
Qed.
Lemma forget_run src pos out l w : source src pos -> out = firstn (length out) d -> wf l -> Forall seen (states w) -> Forall (oholds out (w_fs w)) l ->
  go (map oplace l) w (snd (forget (ochain l src) w)).
Proof.
  intros So Eo Wf Se Ho. unfold forget. cbn [snd]. destruct (close (ochain l src) w) as [r w'] eqn:E. cbn [snd]. now destruct (chain_close src pos out So Eo l w r w' Wf Se Ho E).
Qed.
(** what a chain gives, from a position *)
Definition gave (l : list opened) (pos : nat) (w : world) (r : res (option (bytes * gen))) (w' : world) : Prop :=
  (exists c l' src', r = Ok (Some (c, ochain l' src')) /\ map fst l' = map fst l /\ source src' (pos + length c) /\ c = firstn n (skipn pos d) /\ c <> [] /\
     Forall (oholds (firstn (pos + length c) d) (w_fs w')) l') \/
  (r = Ok None /\ pos = length d /\ Forall (full d (w_fs w')) l) \/
  (exists e, r = Err e /\ fault_in w e).
Lemma places_fst (l l' : list opened) : map fst l' = map fst l -> map oplace l' = map oplace l.
Proof. intro E. assert (Q : forall k : list opened, map oplace k = map where_ (map fst k)) by (intro k; rewrite map_map; reflexivity). now rewrite !Q, E. Qed.
Lemma wf_fst (l l' : list opened) : map fst l' = map fst l -> wf l -> wf l'.
Proof.
  intros E [Nd I]. assert (E' : map oplace l' = map oplace l) by now apply places_fst. split; [now rewrite E'|].
  intros e Ie. apply (in_map fst) in Ie. rewrite E in Ie. apply in_map_iff in Ie as (e0 & Q & Ie). rewrite <- Q. now apply I.
Qed.
Lemma pass_run e l l0 src pos0 pos c w r w' : wf (e :: l) -> Forall seen (states w) -> source src (pos + length c) -> (pos <= length d)%nat -> c = firstn n (skipn pos d) -> c <> [] -> map fst (e :: l) = map fst l0 -> pos0 = pos ->
  oholds (firstn pos d) (w_fs w) e -> Forall (oholds (firstn (pos + length c) d) (w_fs w)) l ->
  pass size (oplace e) (snd e) c (ochain l src) (fun b => tee_open size (oplace e) b (ochain l src)) w = (r, w') ->
  go (map oplace (e :: l)) w w' /\ gave l0 pos0 w r w'.
Proof.
  intros Wf0 Se So Lp Ec Nc Ef -> He Ho H. pose proof (wf_tail _ _ Wf0) as (Wf & N & I). unfold pass in H.
  destruct (write size (oplace e) (snd e) c w) as [[r1 buf'] w1] eqn:E1.
  assert (Eo : firstn pos d ++ c = firstn (length (firstn pos d ++ c)) d) by (rewrite (next_out _ _ Ec Lp); apply prefix_len).
  destruct (write_run _ _ _ _ _ _ _ _ _ _ I Se He Eo E1) as (G1 & Q1). destruct (go_seen _ _ _ G1 Se) as [Se1 _].
  pose proof (all_holds _ _ _ _ _ G1 (others _ _ N) Ho) as Ho1. destruct Q1 as [(-> & Q1)|(ex & -> & Fa & Q1)].
  - injection H as <- <-. split; [exact (go_more _ _ _ _ (sub1 e l) G1)|]. left. exists c, ((fst e, buf') :: l), src. split; [reflexivity|]. split; [exact Ef|]. split; [exact So|]. split; [exact Ec|]. split; [exact Nc|].
    constructor; [|exact Ho1]. unfold oholds, oplace, oflag. cbn [fst snd]. rewrite <- (next_out _ _ Ec Lp). exact Q1.
  - destruct (leave (oplace e) buf' ex w1) as [r2 w2] eqn:E2. injection H as <- <-.
    assert (Fa1 : fault_in w1 ex) by (destruct Fa as (t & Fa); exists t; destruct G1 as (_ & Q & _); now rewrite Q).
    destruct (leave_run _ _ _ _ _ _ _ _ _ I Se1 Q1 (prefix_len pos) Fa1 E2) as (G2 & e2 & -> & Fa2). destruct (go_seen _ _ _ G2 Se1) as [Se2 _].
    pose proof (all_holds _ _ _ _ _ G2 (others _ _ N) Ho1) as Ho2. pose proof (forget_run _ _ _ _ _ So (prefix_len _) Wf Se2 Ho2) as G3.
    split; [|right; right; exists e2; split; [reflexivity|exact (fault_go _ _ _ _ G1 Fa2)]].
    exact (go_trans _ _ _ _ (go_trans _ _ _ _ (go_more _ _ _ _ (sub1 e l) G1) (go_more _ _ _ _ (sub1 e l) G2)) (go_more _ _ _ _ (sub2 e l) G3)).
Qed.
Lemma chain_next src pos : source src pos -> forall l w r w', wf l -> Forall seen (states w) -> Forall (oholds (firstn pos d) (w_fs w)) l ->
  next (ochain l src) w = (r, w') -> go (map oplace l) w w' /\ gave l pos w r w'.
Proof.
  intros So. assert (Lp : (pos <= length d)%nat) by (destruct So as (f & _ & L & _); exact L).
  induction l as [|e l IH]; intros w r w' Wf Se Ho H.
  - cbn [ochain fold_right] in H. destruct (source_next _ _ _ _ _ So (Forall_inv Se) H) as (Sm & Q). split; [now apply go_same|].
    destruct Q as [(c & g' & -> & So' & Ec & Nc)|[(-> & Q)|Q]].
    + left. exists c, [], g'. repeat (split; [assumption || reflexivity|]). constructor.
    + right. left. split; [reflexivity|]. split; [exact Q|constructor].
    + now right; right.
  - pose proof Wf as Wf0. apply wf_tail in Wf as (Wf & N & I). apply Forall_cons_iff in Ho as [He Ho].
    change (ochain (e :: l) src) with (tee_open size (oplace e) (snd e) (ochain l src)) in H. rewrite tee_next in H.
    destruct (next (ochain l src) w) as [r1 w1] eqn:E1. destruct (IH _ _ _ Wf Se Ho E1) as (G1 & Q1). destruct (go_seen _ _ _ G1 Se) as [Se1 Se1'].
    assert (He1 : oholds (firstn pos d) (w_fs w1) e) by (apply (holds_look _ (w_fs w)); [now apply G1|exact He]).
    destruct Q1 as [(c & l' & src' & -> & Ef & So' & Ec & Nc & Ho')|[(-> & Ed & Fu)|(ex & -> & Fa)]].
    + assert (Wf1 : wf (e :: l')) by (apply (wf_fst (e :: l)); [cbn [map]; now rewrite Ef|exact Wf0]).
      destruct (pass_run e l' (e :: l) src' pos pos c w1 r w' Wf1 Se1 So' Lp Ec Nc) as (G2 & Q2); [cbn [map]; now rewrite Ef|reflexivity|exact He1|exact Ho'|exact H|].
      split.
      * refine (go_trans _ _ _ _ (go_more _ _ _ _ (sub2 e l) G1) _). cbn [map] in G2 |- *. now rewrite <- (places_fst _ _ Ef).
      * destruct Q2 as [Q2|[Q2|(ex & -> & Fa)]]; [now left|now right; left|]. right. right. exists ex. split; [reflexivity|exact (fault_go _ _ _ _ G1 Fa)].
    + destruct (flush (oplace e) (snd e) w1) as [r2 w2] eqn:E2. destruct (flush_run _ _ _ _ _ _ _ _ I Se1' He1 (prefix_len pos) E2) as (G2 & Q2).
      assert (G : go (map oplace (e :: l)) w w2) by exact (go_trans _ _ _ _ (go_more _ _ _ _ (sub2 e l) G1) (go_more _ _ _ _ (sub1 e l) G2)).
      destruct Q2 as [(-> & Q2)|(ex & -> & Fa & _)]; injection H as <- <-; (split; [exact G|]).
      * right. left. split; [reflexivity|]. split; [exact Ed|]. constructor; [|exact (all_full _ _ _ _ _ G2 (others _ _ N) Fu)]. rewrite Ed, firstn_all in Q2. exact Q2.
      * right. right. exists ex. split; [reflexivity|exact (fault_go _ _ _ _ G1 Fa)].
    + assert (Fa1 : fault_in w1 ex) by (destruct Fa as (t & Fa); exists t; destruct G1 as (_ & Q & _); now rewrite Q).
      destruct (leave_run _ _ _ _ _ _ _ _ _ I Se1 He1 (prefix_len pos) Fa1 H) as (G2 & e2 & -> & Fa2).
      split; [exact (go_trans _ _ _ _ (go_more _ _ _ _ (sub2 e l) G1) (go_more _ _ _ _ (sub1 e l) G2))|].
      right. right. exists e2. split; [reflexivity|exact (fault_go _ _ _ _ G1 Fa2)].
Qed.

(** ** Taking chunks *)
Definition pfull (out : bytes) (s : node) (t : part) : Prop := file s (where_ t) (before fs (snd (asked t)) (where_ t) ++ out).
Lemma full_parts out s l : Forall (full out s) l -> Forall (pfull out s) (map fst l).
Proof. intro F. rewrite Forall_forall in *. intros t I. apply in_map_iff in I as (e & <- & I). exact (F e I). Qed.
Definition fits (c : bytes) : Prop := (0 < length c <= n)%nat.
Definition took (k : option nat) (ps : list part) (pos : nat) (w : world) (cs : list bytes) (r : res unit) (w' : world) : Prop :=
  Forall fits cs /\ concat cs = firstn (length (concat cs)) (skipn pos d) /\
  (r = Ok tt -> match k with
                | None => concat cs = skipn pos d /\ Forall (pfull d (w_fs w')) ps
                | Some j => concat cs = firstn (j * n) (skipn pos d) /\ (match ps with t :: _ => pfull (firstn (pos + j * n) d) (w_fs w') t | [] => True end) /\
                            (no_fault w -> Forall (pfull (firstn (pos + j * n) d) (w_fs w')) ps)
                end) /\
  (r = Ok tt \/ exists e, r = Err e /\ fault_in w e).
Lemma firstn_pieces {A} (L : list A) k m : firstn k L ++ firstn m (skipn (length (firstn k L)) L) = firstn (k + m) L.
Proof.
  rewrite firstn_length. destruct (Nat.le_ge_cases k (length L)) as [H|H].
  - rewrite Nat.min_l by assumption. rewrite <- (firstn_skipn k L) at 3. rewrite firstn_app, firstn_length, Nat.min_l by assumption. replace (k + m - k)%nat with m by lia.
    rewrite (firstn_all2 (firstn k L)); [reflexivity|]. rewrite firstn_length. lia.
  - rewrite Nat.min_r by assumption. rewrite skipn_all, firstn_nil, app_nil_r. rewrite !firstn_all2 by lia. reflexivity.
Qed.
Lemma firstn_self {A} m (L : list A) : firstn m L = firstn (length (firstn m L)) L.
Proof. rewrite firstn_length. destruct (Nat.le_ge_cases m (length L)); [now rewrite Nat.min_l|]. rewrite Nat.min_r by assumption. now rewrite !firstn_all2. Qed.
Lemma piece_fits pos c : c = firstn n (skipn pos d) -> c <> [] -> fits c.
Proof. intros E N. split; [destruct c; [congruence|cbn [length]; lia]|]. rewrite E, firstn_length. lia. Qed.
Lemma skip_twice {A} a b (L : list A) : skipn (a + b) L = skipn b (skipn a L).
Proof. revert L. induction a as [|a IH]; intro L; [reflexivity|]. destruct L; [now rewrite !skipn_nil|]. cbn [Nat.add skipn]. apply IH. Qed.
Lemma skip_more pos c : c = firstn n (skipn pos d) -> skipn (pos + length c) d = skipn (length (firstn n (skipn pos d))) (skipn pos d).
Proof. intros <-. apply skip_twice. Qed.
Lemma to_end pos c j : (pos <= length d)%nat -> c = firstn n (skipn pos d) -> firstn (pos + length c + j * n) d = firstn (pos + Datatypes.S j * n) d.
Proof.
  intros Lp E. assert (L : length c = Nat.min n (length d - pos)) by (rewrite E, firstn_length, skipn_length; reflexivity). cbn [Nat.mul].
  destruct (Nat.le_ge_cases n (length d - pos)) as [H|H]; [f_equal; lia|]. rewrite !firstn_all2 by lia. reflexivity.
Qed.
Lemma skipn_end : skipn (length d) d = [].
Proof. apply skipn_all. Qed.
Lemma took_none k ps pos w w' : pos = length d -> Forall (pfull d (w_fs w')) ps -> took k ps pos w [] (Ok tt) w'.
Proof.
  intros Ed F. split; [constructor|]. split; [reflexivity|]. split; [|now left]. intros _. rewrite Ed, skipn_end. destruct k as [j|]; [|now split].
  rewrite firstn_nil. split; [reflexivity|]. rewrite firstn_all2 by lia. split; [|now intros _]. destruct ps; [trivial|]. now apply Forall_inv in F.
Qed.
Lemma took_err k ps pos w e w' : fault_in w e -> took k ps pos w [] (Err e) w'.
Proof. intro F. split; [constructor|]. split; [reflexivity|]. split; [discriminate|]. right. eauto. Qed.
Lemma took_more k ps pos c w w1 cs r w' l : (pos <= length d)%nat -> c = firstn n (skipn pos d) -> c <> [] -> k <> Some 0%nat -> go l w w1 ->
  took (match k with Some (Datatypes.S j) => Some j | _ => None end) ps (pos + length c) w1 cs r w' -> took k ps pos w (c :: cs) r w'.
Proof.
  intros Lp Ec Nc Nk G (F1 & F2 & F3 & F4). split; [constructor; [now apply (piece_fits pos)|exact F1]|]. cbn [concat].
  split; [|split].
  - rewrite F2, (skip_more _ _ Ec). rewrite Ec at 1 2. rewrite firstn_pieces. apply firstn_self.
  - intro R. specialize (F3 R). destruct k as [[|j]|]; [congruence| |].
    + destruct F3 as (A1 & A2 & A3). rewrite (to_end _ _ _ Lp Ec) in A2, A3. split; [|split; [exact A2|]].
      * rewrite A1, (skip_more _ _ Ec). rewrite Ec at 1. now rewrite firstn_pieces.
      * intro Nf. apply A3. intro t. destruct G as (_ & Q & _). rewrite Q. apply Nf.
    + destruct F3 as (A1 & A2). split; [|exact A2]. rewrite A1, (skip_more _ _ Ec). rewrite Ec at 1.
      rewrite firstn_length. destruct (Nat.le_ge_cases n (length (skipn pos d))) as [H|H].
      * rewrite Nat.min_l by assumption. apply firstn_skipn.
      * rewrite Nat.min_r by assumption. rewrite skipn_all, app_nil_r. now apply firstn_all2.
  - destruct F4 as [F4|(e & F4 & F5)]; [now left|right]. exists e. split; [exact F4|exact (fault_go _ _ _ _ G F5)].
Qed.
Lemma consume_open : forall b src pos, source src pos -> (length d - pos < b)%nat -> forall k l w cs r w', wf l -> Forall seen (states w) -> Forall (oholds (firstn pos d) (w_fs w)) l ->
  consume k (ochain l src) w = ((cs, r), w') -> go (map oplace l) w w' /\ took k (map fst l) pos w cs r w'.
Proof.
  induction b as [|b IH]; intros src pos So Lb k l w cs r w' Wf Se Ho H; [lia|].
  assert (Lp : (pos <= length d)%nat) by (destruct So as (f & _ & L & _); exact L).
  rewrite consume_eq in H. assert (Dk : k = Some 0%nat \/ k <> Some 0%nat) by (destruct k as [[|j]|]; [now left|right; discriminate|right; discriminate]).
  destruct Dk as [->|Nk].
  - destruct (close (ochain l src) w) as [r1 w1] eqn:E1. injection H as <- <- <-.
    destruct (chain_close src pos _ So (prefix_len pos) l w r1 w1 Wf Se Ho E1) as (G & A1 & A2 & A3). split; [exact G|].
    split; [constructor|]. split; [reflexivity|]. split; [|exact A3]. intro R. cbn [Nat.mul]. rewrite Nat.add_0_r. split; [reflexivity|]. split.
    + specialize (A2 R). destruct l; [exact Logic.I|exact A2].
    + intro Nf. now apply full_parts, A1.
  - assert (H' : match next (ochain l src) w with
         | (Err e, w1) => (([], Err e), w1)
         | (Ok None, w1) => (([], Ok tt), w1)
         | (Ok (Some (b, g')), w1) => let '((bs, r), w2) := consume (match k with Some (Datatypes.S j) => Some j | _ => None end) g' w1 in ((b :: bs, r), w2)
         end = ((cs, r), w')) by (destruct k as [[|j]|]; [congruence|exact H|exact H]). clear H. rename H' into H.
    destruct (next (ochain l src) w) as [r1 w1] eqn:E1. destruct (chain_next src pos So l w r1 w1 Wf Se Ho E1) as (G & Q). destruct (go_seen _ _ _ G Se) as [Se1 _].
    destruct Q as [(c & l' & src' & -> & Ef & So' & Ec & Nc & Ho')|[(-> & Ed & Fu)|(ex & -> & Fa)]].
    + destruct (consume _ (ochain l' src') w1) as [[cs2 r2] w2] eqn:E2. injection H as <- <- <-.
      assert (Lc : (0 < length c)%nat) by (apply (piece_fits pos c Ec Nc)).
      assert (Ld : (length c <= length d - pos)%nat) by (rewrite Ec, firstn_length, skipn_length; lia).
      destruct (IH src' (pos + length c)%nat So' ltac:(lia) _ l' w1 _ _ _ (wf_fst _ _ Ef Wf) Se1 Ho' E2) as (G2 & T2). rewrite Ef in T2. rewrite (places_fst _ _ Ef) in G2.
      split; [exact (go_trans _ _ _ _ G G2)|]. exact (took_more _ _ _ _ _ _ _ _ _ _ Lp Ec Nc Nk G T2).
    + injection H as <- <- <-. split; [exact G|]. apply took_none; [exact Ed|]. now apply full_parts.
    + injection H as <- <- <-. split; [exact G|]. now apply took_err.
Qed.

(** ** Chains that are not open yet *)
Variable fuel : nat.
Hypothesis Hf : (length d < fuel)%nat.
Lemma data_next w r w' : seen (w_fs w) -> w_cwd w = cwd -> next (data_gen fuel n self) w = (r, w') -> same w w' /\
  ((exists c g', r = Ok (Some (c, g')) /\ source g' (length c) /\ c = firstn n d /\ c <> []) \/ (r = Ok None /\ d = []) \/ (exists e, r = Err e /\ fault_in w e)).
Proof.
  intros Se C H. cbn [data_gen next] in H. assert (R : reads (w_fs w) cwd self S) by (exists d, xs; apply (proj1 Se)).
  apply bind_inv in H as [(q & w1 & H1 & H)|(e & H1 & ->)]; destruct (open_step _ _ _ _ _ _ _ R eq_refl C H1) as [Sm Q].
  - destruct Q as [Q|(e & Q & _)]; [|discriminate]. assert (q = S) by congruence. subst q. pose proof Sm as (F & _ & _ & Fa).
    assert (So : source (read_gen fuel n S 0) 0) by (exists fuel; split; [reflexivity|lia]).
    destruct (source_next _ _ _ _ _ So ltac:(now rewrite F) H) as (Sm2 & Q2). split; [exact (same_trans _ _ _ Sm Sm2)|].
    destruct Q2 as [(c & g' & A1 & A2 & A3 & A4)|[(A1 & A2)|(e & A1 & (t & A2))]].
    + left. exists c, g'. split; [exact A1|]. split; [exact A2|]. split; [exact A3|exact A4].
    + right. left. split; [exact A1|]. now destruct d.
    + right. right. exists e. split; [exact A1|]. exists t. now rewrite <- Fa.
  - split; [exact Sm|]. right. right. destruct Q as [Q|(e' & Q & F)]; [discriminate|]. exists e. split; [reflexivity|]. exists (w_tick w). congruence.
Qed.
Lemma open_run p a T w r w' : In (p, a, T) ts -> Forall seen (states w) -> w_cwd w = cwd -> look (w_fs w) T = look fs T -> open_write a p w = (r, w') ->
  go [T] w w' /\ ((r = Ok T /\ file (w_fs w') T (before fs a T)) \/ exists e, r = Err e /\ fault_in w e).
Proof.
  intros I Se C L H. pose proof (Forall_inv Se) as Se0. pose proof (e_writes _ (proj1 Se0) _ _ _ I) as W. pose proof (env_slot _ _ _ _ (proj1 Se0) I) as HT.
  assert (Fl : forall w2, failed w r w2 -> go [T] w w2 /\ ((r = Ok T /\ file (w_fs w2) T (before fs a T)) \/ exists e, r = Err e /\ fault_in w e)).
  { intros w2 (e & R & Sm & Q). split; [now apply go_same|]. right. exists e. split; [exact R|]. now exists (w_tick w). }
  assert (Xs : file_xattrs (w_fs w) T = file_xattrs fs T) by (unfold file_xattrs; now rewrite L).
  destruct a; cbn [open_write] in H.
  - unfold sys_open_append in H. destruct W as [(d' & x' & W)|(D & x & W & E)].
    + assert (Q : (match walk (w_fs w) (w_cwd w) true p with Found q (File _ _) => Ok (q, w_fs w) | Found _ (Dir _ _) => fail EISDIR | Found _ (Link _) => fail ELOOP
                  | Missing d x => Ok (d ++ [x], put (w_fs w) (d ++ [x]) (File [] [])) | Fail e => fail e end) = Ok (T, w_fs w)) by (rewrite C, W; reflexivity).
      destruct (sys_step _ _ _ _ Q _ _ H) as [Q2|(R & Ch)]; [now apply Fl|]. destruct Ch as (F & C' & Hh & Fa). split.
      * split; [exact C'|]. split; [exact Fa|]. split; [intro Z; unfold states in *; rewrite F, Hh; apply Forall_inv_tail in Z; constructor; [exact Se0|constructor; [exact Se0|exact Z]]|]. intros q _. now rewrite F.
      * left. split; [exact R|]. unfold file. rewrite F. apply walk_found_get in W. apply look_file in W. rewrite W. unfold before, content, file_xattrs. rewrite <- L, W. reflexivity.
    + assert (Q : (match walk (w_fs w) (w_cwd w) true p with Found q (File _ _) => Ok (q, w_fs w) | Found _ (Dir _ _) => fail EISDIR | Found _ (Link _) => fail ELOOP
                  | Missing d x => Ok (d ++ [x], put (w_fs w) (d ++ [x]) (File [] [])) | Fail e => fail e end) = Ok (T, put (w_fs w) T (File [] []))) by (rewrite C, W, E; reflexivity).
      assert (Ln : look fs T = None). { rewrite <- L, E. apply walk_missing_inv in W as (xs' & es' & Gd & En). apply look_none. now rewrite get_snoc, Gd. }
      assert (Ez : File [] [] = File (before fs true T ++ firstn 0 d) (file_xattrs fs T)) by (unfold before, content, file_xattrs; rewrite Ln; reflexivity).
      destruct (sys_step _ _ _ _ Q _ _ H) as [Q2|(R & Ch)]; [now apply Fl|]. rewrite Ez in Ch. split; [exact (go_put _ _ _ _ _ _ I Se0 Ch)|].
      left. split; [exact R|]. destruct Ch as (F & _). unfold file. rewrite F. apply look_file. rewrite slot_get by exact HT. cbn [firstn]. now rewrite app_nil_r.
  - destruct (create_step _ _ _ _ _ W eq_refl C _ _ H) as [Q|(R & Ch)]; [now apply Fl|]. rewrite Xs in Ch. change [] with (before fs false T ++ firstn 0 d) in Ch.
    split; [exact (go_put _ _ _ _ _ _ I Se0 Ch)|]. left. split; [exact R|]. destruct Ch as (F & _). unfold file. rewrite F. apply look_file, slot_get, HT.
Qed.
Definition pwf (l : list part) : Prop := NoDup (map where_ l) /\ forall t, In t l -> In t ts.
Lemma fresh_next l : forall w r w', pwf l -> Forall seen (states w) -> w_cwd w = cwd -> (forall t, In t l -> look (w_fs w) (where_ t) = look fs (where_ t)) ->
  next (chain size (map asked l) (data_gen fuel n self)) w = (r, w') -> go (map where_ l) w w' /\
  ((exists c l' src', r = Ok (Some (c, ochain l' src')) /\ map fst l' = l /\ source src' (length c) /\ c = firstn n d /\ c <> [] /\ Forall (oholds (firstn (length c) d) (w_fs w')) l') \/
   (d = [] /\ same w w' /\ r = match l with [] => Ok None | _ => Err RuntimeErr end) \/
   (exists e, r = Err e /\ fault_in w e)).
Proof.
  induction l as [|t l IH]; intros w r w' Wf Se C Fr H.
  - cbn [map chain fold_right] in H. destruct (data_next _ _ _ (Forall_inv Se) C H) as (Sm & Q). split; [now apply go_same|].
    destruct Q as [(c & g' & A1 & A2 & A3 & A4)|[(A1 & A2)|Q]]; [|right; left; auto|now right; right].
    left. exists c, [], g'. repeat (split; [assumption || reflexivity|]). constructor.
  - destruct Wf as [Nd It]. cbn [map] in Nd. apply NoDup_cons_iff in Nd as [N Nd]. assert (Wf : pwf l) by (split; [exact Nd|intros x Hx; apply It; now right]).
    destruct t as [[p a] T]. change (chain size (map asked ((p, a, T) :: l)) (data_gen fuel n self)) with (tee size p a (chain size (map asked l) (data_gen fuel n self))) in H.
    pose proof (It _ (or_introl eq_refl)) as I. unfold tee in H. cbn [next] in H. destruct (next (chain size (map asked l) (data_gen fuel n self)) w) as [r1 w1] eqn:E1.
    destruct (IH _ _ _ Wf Se C ltac:(intros x Hx; apply Fr; now right) E1) as (G1 & Q1). destruct (go_seen _ _ _ G1 Se) as [Se1 _]. cbn [where_ snd] in N.
    assert (S1 : incl (map where_ l) (map where_ ((p, a, T) :: l))) by (intros q Iq; now right). assert (S2 : incl [T] (map where_ ((p, a, T) :: l))) by (intros q [<-|[]]; now left).
    pose proof G1 as (C1 & Fa1 & _ & Fm1).
    destruct Q1 as [(c & l' & src' & -> & Ef & So & Ec & Nc & Ho)|[(Ed & Sm & Er)|(ex & -> & Fa)]].
    + assert (Pl : map oplace l' = map where_ l) by (rewrite <- Ef, map_map; reflexivity).
      assert (L1 : look (w_fs w1) T = look fs T) by (rewrite Fm1 by exact N; exact (Fr _ (or_introl eq_refl))).
      destruct (open_write a p w1) as [r2 w2] eqn:E2. destruct (open_run _ _ _ _ _ _ I Se1 (eq_trans C1 C) L1 E2) as (G2 & Q2). destruct (go_seen _ _ _ G2 Se1) as [Se2 _].
      assert (Wo : wf l'). { split; [now rewrite Pl|]. intros e Ie. apply It. right. rewrite <- Ef. now apply in_map. }
      assert (Ho2 : Forall (oholds (firstn (length c) d) (w_fs w2)) l'). { apply (all_holds _ _ _ _ _ G2); [|exact Ho]. intros e Ie [Q|[]]. apply N. rewrite <- Pl, Q. now apply in_map. }
      destruct Q2 as [(-> & Fi)|(e & -> & Fa)].
      * set (e := ((p, a, T), @nil Byte.byte)).
        assert (Wf2 : wf (e :: l')). { split; [cbn [map]; rewrite Pl; constructor; [exact N|exact Nd]|]. intros e' [<-|Ie]; [exact I|now apply Wo]. }
        assert (He : oholds (firstn 0 d) (w_fs w2) e). { exists 0%nat. unfold oplace, oflag, e. cbn [fst snd where_ asked firstn]. rewrite app_nil_r. split; [exact Fi|reflexivity]. }
        destruct (pass_run e l' (e :: l') src' 0 0 c w2 r w' Wf2 Se2 So (Nat.le_0_l _) Ec Nc eq_refl eq_refl He Ho2 H) as (G3 & Q3).
        split.
        -- refine (go_trans _ _ _ _ (go_trans _ _ _ _ (go_more _ _ _ _ S1 G1) (go_more _ _ _ _ S2 G2)) _). cbn [map] in G3 |- *. rewrite Pl in G3. exact G3.
        -- destruct Q3 as [(c' & l2 & src2 & -> & Ef2 & So2 & Ec2 & Nc2 & Ho3)|[(-> & Ed & _)|(ex & -> & (t & Fa))]].
           ++ left. exists c', l2, src2. split; [reflexivity|]. split; [rewrite Ef2; cbn [map]; now rewrite Ef|]. split; [exact So2|]. split; [exact Ec2|]. split; [exact Nc2|exact Ho3].
           ++ exfalso. destruct d; [|discriminate Ed]. apply Nc. rewrite Ec. apply firstn_nil.
           ++ right. right. exists ex. split; [reflexivity|]. exists t. destruct G2 as (_ & F2 & _). now rewrite <- Fa1, <- F2.
      * injection H as <- <-. pose proof (forget_run _ _ _ _ _ So (prefix_len _) Wo Se2 Ho2) as G3. rewrite Pl in G3. split.
        -- exact (go_trans _ _ _ _ (go_trans _ _ _ _ (go_more _ _ _ _ S1 G1) (go_more _ _ _ _ S2 G2)) (go_more _ _ _ _ S1 G3)).
        -- right. right. exists e. split; [reflexivity|]. destruct Fa as (t & Fa). exists t. now rewrite <- Fa1.
    + assert (Q : r = Err RuntimeErr /\ w' = w1). { destruct l; rewrite Er in H; injection H as <- <-; now split. } destruct Q as [-> ->].
      split; [exact (go_more _ _ _ _ S1 G1)|]. right. left. now split.
    + injection H as <- <-. split; [exact (go_more _ _ _ _ S1 G1)|]. right. right. now exists ex.
Qed.
Lemma fresh_close l w : close (chain size (map asked l) (data_gen fuel n self)) w = (Ok tt, w).
Proof.
  induction l as [|t l IH]; [reflexivity|]. change (chain size (map asked (t :: l)) (data_gen fuel n self)) with (tee size (fst (asked t)) (snd (asked t)) (chain size (map asked l) (data_gen fuel n self))).
  unfold tee. cbn [close]. unfold forget. now rewrite IH.
Qed.

(** ** From the start *)
Variable fault : nat -> option exn.
Hypothesis Root : is_dir_at fs [].
Hypothesis Self : walk fs cwd true self = Found S (File d xs).
Lemma start_seen : Forall seen (states (start fs cwd fault)).
Proof.
  assert (Q : seen fs).
  { split; [|intros p a T I; now left]. split; [exact Root|exact Self|destruct Ap as (_ & _ & A); exact A|now intros q _]. }
  unfold states, start. cbn [w_fs w_hist]. constructor; [exact Q|constructor; [exact Q|constructor]].
Qed.
Lemma run k cs r w' : k <> Some 0%nat -> consume k (chain size (map asked ts) (data_gen fuel n self)) (start fs cwd fault) = ((cs, r), w') ->
  go Ts (start fs cwd fault) w' /\
  (((d <> [] \/ ts = []) /\ took k ts 0 (start fs cwd fault) cs r w') \/ (cs = [] /\ exists e, r = Err e /\ fault_in (start fs cwd fault) e) \/
   (d = [] /\ ts <> [] /\ cs = [] /\ r = Err RuntimeErr /\ same (start fs cwd fault) w')).
Proof.
  intros Nk H. pose proof start_seen as Se. set (w := start fs cwd fault) in *. assert (Wf : pwf ts) by (split; [apply Ap|auto]). rewrite consume_eq in H.
  assert (H' : match next (chain size (map asked ts) (data_gen fuel n self)) w with
         | (Err e, w1) => (([], Err e), w1)
         | (Ok None, w1) => (([], Ok tt), w1)
         | (Ok (Some (b, g')), w1) => let '((bs, r), w2) := consume (match k with Some (Datatypes.S j) => Some j | _ => None end) g' w1 in ((b :: bs, r), w2)
         end = ((cs, r), w')) by (destruct k as [[|j]|]; [congruence|exact H|exact H]). clear H. rename H' into H.
  destruct (next (chain size (map asked ts) (data_gen fuel n self)) w) as [r1 w1] eqn:E1.
  destruct (fresh_next ts w r1 w1 Wf Se eq_refl (fun t _ => eq_refl) E1) as (G & Q). destruct (go_seen _ _ _ G Se) as [Se1 _].
  destruct Q as [(c & l' & src' & -> & Ef & So' & Ec & Nc & Ho')|[(Ed & Sm & Er)|(ex & -> & Fa)]].
  - destruct (consume _ (ochain l' src') w1) as [[cs2 r2] w2] eqn:E2. injection H as <- <- <-.
    assert (Pl : map oplace l' = Ts) by (unfold Ts; rewrite <- Ef at 1; rewrite map_map; reflexivity).
    assert (Wo : wf l') by (split; [rewrite Pl; apply Wf|]; intros e Ie; rewrite <- Ef; now apply in_map).
    destruct (consume_open (Datatypes.S (length d)) src' (length c) So' ltac:(lia) _ l' w1 _ _ _ Wo Se1 Ho' E2) as (G2 & T2). rewrite Ef in T2. rewrite Pl in G2.
    split; [exact (go_trans _ _ _ _ G G2)|]. left. split; [left; intro Z; apply Nc; rewrite Ec, Z; apply firstn_nil|]. 
    exact (took_more k ts 0 c w w1 cs2 r2 w2 _ (Nat.le_0_l _) Ec Nc Nk G T2).
  - assert (Dt : (ts = [] /\ r1 = Ok None) \/ (ts <> [] /\ r1 = Err RuntimeErr)) by (clear - Er; destruct ts; [now left|right; now split]).
    destruct Dt as [(Et & E)|(Et & E)]; rewrite E in H; injection H as <- <- <-; (split; [exact G|]).
    + left. split; [now right|]. apply took_none; [now rewrite Ed|rewrite Et; constructor].
    + right. right. split; [exact Ed|]. split; [exact Et|]. now split.
  - injection H as <- <- <-. split; [exact G|]. right. left. split; [reflexivity|]. now exists ex.
Qed.
Lemma run_seen k cs r w' : consume k (chain size (map asked ts) (data_gen fuel n self)) (start fs cwd fault) = ((cs, r), w') -> Forall seen (states w').
Proof.
  intro H. assert (Dk : k = Some 0%nat \/ k <> Some 0%nat) by (destruct k as [[|j]|]; [now left|right; discriminate|right; discriminate]). destruct Dk as [->|Nk].
  - rewrite consume_eq, fresh_close in H. injection H as _ _ <-. exact start_seen.
  - destruct (run _ _ _ _ Nk H) as (G & _). exact (proj1 (go_seen _ _ _ G start_seen)).
Qed.
Lemma part_full out s t : pfull out s t -> forall p a T, t = (p, a, T) -> has_all fs out a T s.
Proof. intros F p a T ->. exact F. Qed.
End Tee.

Lemma source_of fs cwd self S d : reads fs cwd self S -> content fs S = Some d -> exists xs, walk fs cwd true self = Found S (File d xs).
Proof.
  intros (d' & xs & W) C. exists xs. pose proof W as G. apply walk_found_get in G. apply look_file in G. unfold content in C. rewrite G in C. injection C as ->. exact W.
Qed.
Lemma good_root fs : good_fs fs -> is_dir_at fs [].
Proof. intros (_ & xs & es & ->). now exists xs. Qed.

Lemma tee_states size fuel n self fs cwd fault S d ts k cs r w' : good_fs fs -> reads fs cwd self S -> content fs S = Some d -> apart fs cwd S ts -> (0 < n)%nat -> (length d < fuel)%nat ->
  consume k (chain size (map asked ts) (data_gen fuel n self)) (start fs cwd fault) = ((cs, r), w') ->
  (forall s, In s (states w') -> only_in (map where_ ts) fs s /\ forall p a T, In (p, a, T) ts -> written fs d a T s) /\
  concat cs = firstn (length (concat cs)) d /\ Forall (fun c => 0 < length c <= n)%nat cs.
Proof.
  intros G R C Ap Hn Hf H. destruct (source_of _ _ _ _ _ R C) as (xs & Self). pose proof (good_root _ G) as Root. split.
  - intros s I. pose proof (run_seen size n fs cwd self S d xs ts Hn Ap fuel Hf fault Root Self _ _ _ _ H) as Se. rewrite Forall_forall in Se. destruct (Se _ I) as (En & Wr). split; [apply (e_rest _ _ _ _ _ _ _ _ En)|exact Wr].
  - assert (Dk : k = Some 0%nat \/ k <> Some 0%nat) by (destruct k as [[|j]|]; [now left|right; discriminate|right; discriminate]). destruct Dk as [->|Nk].
    + rewrite consume_eq, fresh_close in H. injection H as <- _ _. split; [reflexivity|constructor].
    + destruct (run size n fs cwd self S d xs ts Hn Ap fuel Hf fault Root Self _ _ _ _ Nk H) as (_ & [(_ & T1 & T2 & _)|[(-> & _)|(_ & _ & -> & _)]]); [now split|split; [reflexivity|constructor]|split; [reflexivity|constructor]].
Qed.
Lemma tee_all size fuel n self fs cwd fault S d ts cs w' : good_fs fs -> reads fs cwd self S -> content fs S = Some d -> apart fs cwd S ts -> (0 < n)%nat -> (length d < fuel)%nat ->
  consume None (chain size (map asked ts) (data_gen fuel n self)) (start fs cwd fault) = ((cs, Ok tt), w') ->
  concat cs = d /\ forall p a T, In (p, a, T) ts -> has_all fs d a T (w_fs w').
Proof.
  intros G R C Ap Hn Hf H. destruct (source_of _ _ _ _ _ R C) as (xs & Self). pose proof (good_root _ G) as Root.
  destruct (run size n fs cwd self S d xs ts Hn Ap fuel Hf fault Root Self None _ _ _ ltac:(discriminate) H) as (_ & [(_ & _ & _ & T & _)|[(_ & e & Q & _)|(_ & _ & _ & Q & _)]]); [|discriminate|discriminate].
  destruct (T eq_refl) as (T1 & T2). split; [exact T1|]. intros p a T0 I. rewrite Forall_forall in T2. exact (T2 _ I).
Qed.
Lemma tee_stop size fuel n self fs cwd fault S d ts j cs w' : good_fs fs -> reads fs cwd self S -> content fs S = Some d -> apart fs cwd S ts -> (0 < n)%nat -> (length d < fuel)%nat -> (0 < j)%nat ->
  consume (Some j) (chain size (map asked ts) (data_gen fuel n self)) (start fs cwd fault) = ((cs, Ok tt), w') ->
  concat cs = firstn (j * n) d /\ (forall p a T ts', ts = (p, a, T) :: ts' -> has_all fs (firstn (j * n) d) a T (w_fs w')) /\
  ((forall t, fault t = None) -> forall p a T, In (p, a, T) ts -> has_all fs (firstn (j * n) d) a T (w_fs w')).
Proof.
  intros G R C Ap Hn Hf Hj H. destruct (source_of _ _ _ _ _ R C) as (xs & Self). pose proof (good_root _ G) as Root.
  destruct (run size n fs cwd self S d xs ts Hn Ap fuel Hf fault Root Self (Some j) _ _ _ ltac:(destruct j; [lia|discriminate]) H) as (_ & [(_ & _ & _ & T & _)|[(_ & e & Q & _)|(_ & _ & _ & Q & _)]]); [|discriminate|discriminate].
  destruct (T eq_refl) as (T1 & T2 & T3). split; [exact T1|]. split.
  - intros p a T0 ts' ->. exact T2.
  - intros Nf p a T0 I. specialize (T3 Nf). rewrite Forall_forall in T3. exact (T3 _ I).
Qed.
Lemma tee_fails size fuel n self fs cwd fault S d ts k cs e w' : good_fs fs -> reads fs cwd self S -> content fs S = Some d -> apart fs cwd S ts -> (0 < n)%nat -> (length d < fuel)%nat ->
  consume k (chain size (map asked ts) (data_gen fuel n self)) (start fs cwd fault) = ((cs, Err e), w') ->
  (exists t, fault t = Some e) \/ (d = [] /\ ts <> [] /\ e = RuntimeErr).
Proof.
  intros G R C Ap Hn Hf H. destruct (source_of _ _ _ _ _ R C) as (xs & Self). pose proof (good_root _ G) as Root.
  assert (Dk : k = Some 0%nat \/ k <> Some 0%nat) by (destruct k as [[|j]|]; [now left|right; discriminate|right; discriminate]). destruct Dk as [->|Nk].
  - rewrite consume_eq, fresh_close in H. discriminate.
  - destruct (run size n fs cwd self S d xs ts Hn Ap fuel Hf fault Root Self _ _ _ _ Nk H) as (_ & [(_ & _ & _ & _ & [Q|(e' & Q & F)])|[(_ & e' & Q & F)|(D & T & _ & Q & _)]]); [discriminate|left|left|right].
    + injection Q as <-. exact F.
    + injection Q as <-. exact F.
    + injection Q as <-. now split.
Qed.
Lemma tee_empty size fuel n self fs cwd fault S ts k cs r w' : good_fs fs -> reads fs cwd self S -> content fs S = Some [] -> apart fs cwd S ts -> (0 < n)%nat -> (0 < fuel)%nat -> ts <> [] -> k <> Some 0%nat ->
  (forall t, fault t = None) -> consume k (chain size (map asked ts) (data_gen fuel n self)) (start fs cwd fault) = ((cs, r), w') ->
  cs = [] /\ r = Err RuntimeErr /\ forall s, In s (states w') -> s = fs.
Proof.
  intros G R C Ap Hn Hf Nt Nk Nf H. destruct (source_of _ _ _ _ _ R C) as (xs & Self). pose proof (good_root _ G) as Root.
  destruct (run size n fs cwd self S [] xs ts Hn Ap fuel Hf fault Root Self _ _ _ _ Nk H) as (_ & [([Q|Q] & _)|[(_ & e & _ & t & Q)|(_ & _ & Q1 & Q2 & F & _ & Hh & _)]]); [congruence|contradiction|cbn in Q; congruence|].
  split; [exact Q1|]. split; [exact Q2|]. intros s I. unfold states in I. rewrite F, Hh in I. now destruct I as [<-|[<-|[]]].
Qed.
Lemma tee_returns size fuel n self fs cwd fault S d ts k cs r w' : good_fs fs -> reads fs cwd self S -> content fs S = Some d -> apart fs cwd S ts -> (0 < n)%nat -> (length d < fuel)%nat -> d <> [] ->
  (forall t, fault t = None) -> consume k (chain size (map asked ts) (data_gen fuel n self)) (start fs cwd fault) = ((cs, r), w') -> r = Ok tt.
Proof.
  intros G R C Ap Hn Hf Nd Nf H. destruct r as [[]|e]; [reflexivity|]. destruct (tee_fails _ _ _ _ _ _ _ _ _ _ _ _ _ _ G R C Ap Hn Hf H) as [(t & Q)|(Q & _)]; congruence.
Qed.
