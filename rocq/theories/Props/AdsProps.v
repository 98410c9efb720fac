(** * C81: attributes on Windows and on posix *)
From Coq Require Import String Strings.Byte NArith ZArith Bool List Permutation.
From Verif Require Import Model.Py Model.PurePath Model.Fs Model.Ads Spec.FsSpec Spec.MetaSpec Spec.XattrSpec Spec.AdsSpec
  Proofs.GoodFs Proofs.AdsPosix.
Import ListNotations.

(** On Windows any calls on a file answer as a dictionary of texts beside the content,
    and leave every other file as it is.
    Missing: the cases below. *)
Theorem C81_windows_partial :
  forall up legal order cwd p q K s d ops rs d',
    (forall l, Permutation (order l) l) -> named cwd p q -> usable up legal K -> on_disk up legal K s d q -> Forall (calls K) ops ->
    a_run up legal order cwd p ops d = (rs, d') ->
    exists s', history s ops rs s' /\ on_disk up legal K s' d' q /\
      forall q', map (map up) q' <> map (map up) q -> find_file up d' q' = find_file up d q'.
Proof. exact windows_dictionary. Qed.
Print Assumptions C81_windows_partial.

(** So they do on posix, whatever the letters of the names. *)
Theorem C81_posix_partial :
  forall (K : str -> Prop) fs cwd fault Q s ops rs w',
    (forall k, K k -> k <> [] /\ encodable k) -> good_fs fs -> (forall t, fault t = None) -> on_posix s fs Q ->
    Forall (calls K) ops -> Forall lenient ops -> px_run (path_of Q) ops (start fs cwd fault) = (rs, w') ->
    exists s', history s ops rs s' /\ on_posix s' (w_fs w') Q /\ forall q, q <> Q -> look (w_fs w') q = look fs q.
Proof. exact posix_dictionary. Qed.
Print Assumptions C81_posix_partial.

(** The answers on the two are the same. *)
Theorem C81_same_partial :
  forall up legal order cwd p q K s d ops rs d' fs pcwd fault Q rs' w',
    (forall l, Permutation (order l) l) -> named cwd p q -> usable up legal K -> on_disk up legal K s d q ->
    good_fs fs -> (forall t, fault t = None) -> on_posix s fs Q -> Forall (calls K) ops -> Forall lenient ops ->
    a_run up legal order cwd p ops d = (rs, d') -> px_run (path_of Q) ops (start fs pcwd fault) = (rs', w') ->
    Forall2 same_answer rs rs'.
Proof. exact platforms. Qed.
Print Assumptions C81_same_partial.

(** C:\f and /f have the attribute "a"; the calls set "b", replace the content, list. *)
Definition c81_up (c : N) : N := if (97 <=? c)%N && (c <=? 122)%N then (c - 32)%N else c.
Definition c81_legal (s : str) : bool := negb (has (chr ":") s).
Definition c81_keys (k : str) : Prop := k = $"a" \/ k = $"b".
Definition c81_store : store := mkStore [x78] (fun k => if str_eqb k $"a" then Some [x31] else None).
Definition c81_disk : disk :=
  [([$"C:\"], mkW None []); ([$"C:\"; $"f"], mkW (Some [x78]) [($"Zone.Identifier", [x5a]); ($"user.a", [x31])])].
Definition c81_path : wpath := mkWP true [$"C:\"; $"f"].
Definition c81_fs : node := Dir [] [($"f", File [x78] [($"user.a", [x31])])].
Definition c81_ops : list op :=
  [OSet (KText $"b") (VBytes [x32]); OWrite [[x79]; [x7a]]; OAll; ODel (KText $"a") false; OGet (KText $"a"); OGet (KText $"b")].
Definition id_order (l : list (str * bytes)) := l.
Definition c81_run := a_run c81_up c81_legal id_order [$"C:\"].
Example C81_case :
  (forall l, Permutation (id_order l) l) /\ named [$"C:\"] c81_path [$"C:\"; $"f"] /\ usable c81_up c81_legal c81_keys /\
  on_disk c81_up c81_legal c81_keys c81_store c81_disk [$"C:\"; $"f"] /\ good_fs c81_fs /\ on_posix c81_store c81_fs [$"f"] /\
  Forall (calls c81_keys) c81_ops /\ Forall lenient c81_ops /\
  fst (c81_run c81_path c81_ops c81_disk) =
    [Ok RNone; Ok RNone; Ok (RAll [([x61], [x31]); ([x62], [x32])]); Ok RNone; Err NoStreamErr; Ok (RBytes [x32])] /\
  fst (px_run (path_of [$"f"]) c81_ops (start c81_fs [] (fun _ => None))) = fst (c81_run c81_path c81_ops c81_disk).
Proof.
  assert (CL : forall s, s <> [] -> forallb (fun c => negb (N.eqb c 58 || N.eqb c 47 || N.eqb c 92)) s = true -> clean s).
  { intros s N0 H. split; [assumption|]. intros c I S. rewrite forallb_forall in H. apply H in I. destruct S as [->|[->| ->]]; discriminate. }
  split; [intro l; apply Permutation_refl|]. split.
  { exists $"C:\", [$"f"]. split; [reflexivity|]. split; [discriminate|]. split; [discriminate|]. split; [|now left].
    constructor; [|constructor]. split; [now apply CL|]. now split. }
  split.
  { split.
    - intros k [->| ->]; (split; [now apply CL|]); (split; [|reflexivity]); intros c [<-|[]]; left; reflexivity.
    - intros k k' [->| ->] [->| ->] F; (reflexivity || (vm_compute in F; discriminate)). }
  split.
  { eexists. split; [reflexivity|]. split; [reflexivity|]. split; [|split].
    - vm_compute. repeat constructor; cbn; intuition discriminate.
    - intros k v. cbn [attr c81_store w_streams In]. destruct (str_eqb k $"a") eqn:E.
      + apply PyLemmas.str_eqb_eq in E. subst k. split; [intro H; injection H as <-; split; [now left|right; now left]|]. intros (_ & [H|[H|[]]]); [discriminate|injection H as <-; reflexivity].
      + split; [discriminate|]. intros ([->| ->] & [H|[H|[]]]); discriminate.
    - intros n v [H|[H|[]]]; injection H as <- <-; (split; [now apply CL|]); (split; [reflexivity|]).
      + right. split; [reflexivity|]. intros k [->| ->] F; vm_compute in F; discriminate.
      + left. exists $"a". split; [now left|reflexivity]. }
  split; [now apply good_fs_b_ok|]. split.
  { eexists. split; [reflexivity|]. split; [repeat constructor; intros []|]. split.
    - intros k v. cbn [attr c81_store In]. destruct (str_eqb k $"a") eqn:E.
      + apply PyLemmas.str_eqb_eq in E. subst k. split; [intro H; injection H as <-; exists [x61]; split; [reflexivity|now left]|]. intros (b & H & [J|[]]). vm_compute in H. injection H as <-. injection J as <-. reflexivity.
      + split; [discriminate|]. intros (b & H & [J|[]]). assert (X : px_full b = px_full [x61]) by (apply (f_equal fst) in J; symmetry; exact J). apply px_inj in X. subst b.
        apply PyLemmas.utf8_roundtrip in H. vm_compute in H. injection H as <-. vm_compute in E. discriminate.
    - intros n v [H|[]] _. injection H as <- <-. now exists $"a", [x61]. }
  split; [repeat (apply Forall_cons; [first [exact Logic.I|left; reflexivity|right; reflexivity]|]); apply Forall_nil|].
  split; [repeat constructor|]. split; now vm_compute.
Qed.

(** Names that differ in case are one name on Windows. *)
Theorem C81_case_refuted :
  exists ops, fst (c81_run c81_path ops c81_disk) = [Ok (RBytes [x31])] /\
    fst (px_run (path_of [$"f"]) ops (start c81_fs [] (fun _ => None))) = [Err NoStreamErr].
Proof. exists [OGet (KText $"A")]. split; now vm_compute. Qed.
Print Assumptions C81_case_refuted.

(** A path with nothing there: setting an attribute makes an empty file, and listing
    finds nothing wrong; posix answers FileNotFoundError to both. *)
Theorem C81_made_refuted :
  forall up legal order cwd p q K k v d, named cwd p q -> usable up legal K -> K k -> find_file up d q = None -> is_folder up d (removelast q) = true ->
    a_step up legal order cwd p OAll d = (Ok (RAll []), d) /\
    exists d', a_step up legal order cwd p (OSet (KText k) (VBytes v)) d = (Ok RNone, d') /\ find_file up d' q = Some (mkW (Some []) [(full_name k, v)]).
Proof. intros up legal order cwd p q K k v d Hn Hk H Hf Hd. split; [exact (all_missing up legal order cwd p q d Hn Hf)|exact (set_missing up legal order cwd p q K k v d Hn Hk H Hf Hd)]. Qed.
Print Assumptions C81_made_refuted.
Theorem C81_posix_missing :
  forall fs cwd fault p k v, (forall t, fault t = None) -> k <> [] -> encodable k -> (exists d x, walk fs cwd true p = Missing d x) ->
    fst (px_step p (OSet (KText k) (VBytes v)) (start fs cwd fault)) = Err (OSErr ENOENT) /\
    fst (px_step p OAll (start fs cwd fault)) = Err (OSErr ENOENT).
Proof. exact posix_missing. Qed.
Print Assumptions C81_posix_missing.

(** The namespace is compared without its dot: the stream "user2.k" is listed as ".k". *)
Theorem C81_namespace_refuted :
  exists d, fst (a_set c81_up c81_legal [$"C:\"] c81_path (KText $"k") (VBytes [x31]) $"user2" c81_disk) = Ok tt /\
    d = snd (a_set c81_up c81_legal [$"C:\"] c81_path (KText $"k") (VBytes [x31]) $"user2" c81_disk) /\
    fst (c81_run c81_path [OAll; OGet (KText $".k")] d) = [Ok (RAll [([x61], [x31]); ([x2e; x6b], [x31])]); Err NoStreamErr].
Proof. eexists. split; [|split; [reflexivity|]]; now vm_compute. Qed.
Print Assumptions C81_namespace_refuted.

(** Names that are bytes can be set, but not read or removed. *)
Theorem C81_bytes_refuted :
  (forall up legal order cwd p b f d, fst (a_step up legal order cwd p (OGet (KBytes b)) d) = Err TypeError /\
     fst (a_step up legal order cwd p (ODel (KBytes b) f) d) = Err TypeError) /\
  fst (c81_run c81_path [OSet (KBytes [x62]) (VBytes [x32]); OGet (KText $"b"); OGet (KBytes [x62])] c81_disk) =
    [Ok RNone; Ok (RBytes [x32]); Err TypeError].
Proof. split; [exact bytes_key|now vm_compute]. Qed.
Print Assumptions C81_bytes_refuted.

(** A relative name of one letter has no attributes, except in the listing. *)
Theorem C81_letter_refuted :
  (forall up legal order cwd c k v d, fst (a_step up legal order cwd (mkWP false [[c]]) (OSet (KText k) (VBytes v)) d) = Err ValueError /\
     fst (a_step up legal order cwd (mkWP false [[c]]) (OGet (KText k)) d) = Err ValueError) /\
  fst (c81_run (mkWP false [$"f"]) [OGet (KText $"a"); OAll] c81_disk) = [Err ValueError; Ok (RAll [([x61], [x31])])].
Proof. split; [exact one_letter|now vm_compute]. Qed.
Print Assumptions C81_letter_refuted.

(** Removing what is not there, with [fail]: NoStreamError on Windows, OSError on posix. *)
Theorem C81_fail_refuted :
  exists ops, fst (c81_run c81_path ops c81_disk) = [Err NoStreamErr] /\
    fst (px_run (path_of [$"f"]) ops (start c81_fs [] (fun _ => None))) = [Err (OSErr ENODATA)].
Proof. exists [ODel (KText $"b") true]. split; now vm_compute. Qed.
Print Assumptions C81_fail_refuted.

(** A name with separators leaves the file: here it replaces another one and its attributes. *)
Theorem C81_escape_refuted :
  exists d k, find_file c81_up d [$"C:\"; $"g"] = Some (mkW (Some [x67]) [($"user.a", [x31])]) /\
    fst (c81_run c81_path [OSet (KText k) (VBytes [x32])] d) = [Ok RNone] /\
    find_file c81_up (snd (c81_run c81_path [OSet (KText k) (VBytes [x32])] d)) [$"C:\"; $"g"] = Some (mkW (Some [x32]) []).
Proof.
  exists (c81_disk ++ [([$"C:\"; $"g"], mkW (Some [x67]) [($"user.a", [x31])])]), $"k/../g". split; [|split]; now vm_compute.
Qed.
Print Assumptions C81_escape_refuted.

(** The name of a stream is never given. *)
Theorem C81_streamname_refuted :
  forall l x abs, In (chr ":") x -> a_streamname (mkWP abs (l ++ [x])) = Err TypeError.
Proof. exact streamname_fails. Qed.
Print Assumptions C81_streamname_refuted.
Example C81_streamname_case : In (chr ":") $"f:user.a" /\ a_streamname (mkWP true [$"C:\"; $"f:user.a"]) = Err TypeError.
Proof. split; [right; now left|reflexivity]. Qed.
