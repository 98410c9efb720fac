(** * C87: the object with the streams of a file *)
From Coq Require Import String Strings.Byte NArith ZArith Bool List Permutation.
From Verif Require Import Model.Py Model.PurePath Model.Fs Model.Ads Model.PyAds Spec.AdsSpec Spec.PyAdsSpec Proofs.PyAdsProofs.
Import ListNotations.

(** Any calls answer as a dictionary that is never overwritten, the object lists the
    streams that the file has, the content of the file stays, and every other file is
    as it was.
    Missing: the cases below. *)
Theorem C87_dictionary_partial :
  forall up legal order cwd p q K D d data cs rs a' d',
    (forall l, Permutation (order l) l) -> working cwd -> named cwd p q -> proper up legal K -> stored up K D d q data -> Forall (asks K) cs ->
    ads_run up legal cwd cs (ads_new up order cwd p d) d = (rs, (a', d')) ->
    exists D', told (in_cwd up cwd d) D cs rs D' /\ stored up K D' d' q data /\
      (NoDup (ads_streams a') /\ forall k, In k (ads_streams a') <-> D' k <> None) /\
      forall q', map (map up) q' <> map (map up) q -> find_file up d' q' = find_file up d q'.
Proof. exact object_dictionary. Qed.
Print Assumptions C87_dictionary_partial.

Definition c87_up (c : N) : N := if (N.leb 97 c && N.leb c 122)%bool then (c - 32)%N else c.
Definition c87_legal (s : str) : bool := forallb (fun c => negb (N.eqb c 42)) s.
Definition c87_disk : disk :=
  [([$"C:\"], mkW None []); ([$"C:\"; $"f"], mkW (Some [x78]) [($"a", [x31])]);
   ([$"C:\"; $"b"], mkW (Some [x79]) []); ([$"C:\"; $"d"], mkW None []); ([$"C:\"; $"d"; $"e"], mkW (Some [x7a]) [])].
Definition c87_path : wpath := mkWP true [$"C:\"; $"f"].
Definition c87_keys (k : str) : Prop := k = $"a" \/ k = $"b" \/ k = $"d" \/ k = $"none".
Definition c87_dict : dict := fun k => if str_eqb k $"a" then Some [x31] else None.
Definition c87_order (l : list (str * bytes)) := l.
Definition c87_calls : list call :=
  [CIter; CAdd $"a" [x32]; CGet $"a"; CFile $"b"; CFile $"none"; CFile $"d"; CIter; CDelete $"a"; CDelete $"a"; CGet $"a"; CIter; CDelete $"b"; CHas].
Definition c87_run cs := ads_run c87_up c87_legal [$"C:\"] cs (ads_new c87_up c87_order [$"C:\"] c87_path c87_disk) c87_disk.
Example C87_case :
  (forall l, Permutation (c87_order l) l) /\ working [$"C:\"] /\ named [$"C:\"] c87_path [$"C:\"; $"f"] /\ proper c87_up c87_legal c87_keys /\
  stored c87_up c87_keys c87_dict c87_disk [$"C:\"; $"f"] (Some [x78]) /\ Forall (asks c87_keys) c87_calls /\
  fst (c87_run c87_calls) =
    [Ok (AnNames [$"a"]); Ok (AnBool false); Ok (AnBytes [x31]); Ok (AnBool true); Ok (AnBool false); Err (OSErr EACCES);
     Ok (AnNames [$"a"; $"b"]); Ok (AnBool true); Ok (AnBool false); Err (OSErr ENOENT); Ok (AnNames [$"b"]); Ok (AnBool true); Ok (AnBool false)].
Proof.
  assert (CL : forall s, s <> [] -> forallb (fun c => negb (N.eqb c 58 || N.eqb c 47 || N.eqb c 92)) s = true -> clean s).
  { intros s N0 H. split; [assumption|]. intros c I S. rewrite forallb_forall in H. apply H in I. destruct S as [->|[->| ->]]; discriminate. }
  split; [intro l; apply Permutation_refl|]. split; [exists $"C:\", []; split; [reflexivity|]; split; [discriminate|constructor]|]. split.
  { exists $"C:\", [$"f"]. split; [reflexivity|]. split; [discriminate|]. split; [discriminate|]. split; [|now left].
    constructor; [|constructor]. split; [now apply CL|]. now split. }
  split.
  { split.
    - intros k [->|[->|[->| ->]]]; (split; [split; [now apply CL|now split]|reflexivity]).
    - intros k k' [->|[->|[->| ->]]] [->|[->|[->| ->]]] F; (reflexivity || (vm_compute in F; discriminate)). }
  split.
  { eexists. split; [reflexivity|]. split; [reflexivity|]. split; [repeat constructor; intros []|]. split.
    - intros k v. unfold c87_dict. cbn [w_streams In]. destruct (str_eqb k $"a") eqn:E.
      + apply PyLemmas.str_eqb_eq in E. subst k. split; [intro H; injection H as <-; now left|]. intros [H|[]]. injection H as <-. reflexivity.
      + split; [discriminate|]. intros [H|[]]. injection H as <- _. discriminate.
    - intros n v [H|[]]. injection H as <- _. now left. }
  split; [|now vm_compute]. unfold c87_calls, c87_keys. repeat (apply Forall_cons; [cbn [asks]; tauto|]). apply Forall_nil.
Qed.

(** The stream gets the last part of the name, the list gets all of it: a file added
    from another directory is listed under a name that cannot be read or deleted. *)
Theorem C87_listed_refuted :
  forall up legal cwd p q K k dir v a d f,
    named cwd p q -> proper up legal K -> K k -> ads_file a = p -> find_file up d q = Some f -> find_stream up k (w_streams f) = None ->
    base_name (dir ++ 92%N :: k) = k -> exists d',
      add_string up legal cwd (dir ++ 92%N :: k) v a d = (Ok true, (mkAds p (ads_streams a ++ [dir ++ 92%N :: k]), d')) /\
      exists f', find_file up d' q = Some f' /\ find_stream up k (w_streams f') = Some v.
Proof. exact whole_name_listed. Qed.
Print Assumptions C87_listed_refuted.
Example C87_listed_case :
  fst (c87_run [CFile $"d\e"; CIter; CGet $"d\e"; CDelete $"d\e"; CDelete $"e"; CIter; CGet $"e"]) =
    [Ok (AnBool true); Ok (AnNames [$"a"; $"d\e"]); Err (OSErr EINVAL); Ok (AnBool false); Ok (AnBool false);
     Ok (AnNames [$"a"; $"d\e"]); Err (OSErr ENOENT)].
Proof. now vm_compute. Qed.

(** With another spelling of a name, [delete_stream] takes the stream away, answers
    False and goes on listing it. *)
Theorem C87_spelling_refuted :
  forall up legal cwd p q K D a d data k k',
    named cwd p q -> proper up legal K -> agree up p q K D a d data -> K k -> D k <> None ->
    clean k' -> legal k' = true -> folded up k' k -> k' <> k -> exists d',
      delete up legal cwd k' a d = (Ok false, (a, d')) /\ In k (ads_streams a) /\
      exists f', find_file up d' q = Some f' /\ find_stream up k (w_streams f') = None.
Proof. exact spelling_deletes. Qed.
Print Assumptions C87_spelling_refuted.
Example C87_spelling_case :
  fst (c87_run [CDelete $"A"; CIter; CGet $"a"]) = [Ok (AnBool false); Ok (AnNames [$"a"]); Err (OSErr ENOENT)].
Proof. now vm_compute. Qed.

(** A name with a type names the stream without it: the listed name and the stream's are
    two names of one stream, and deleting by the stream's own leaves the listed one. *)
Theorem C87_typed_refuted :
  fst (c87_run [CAdd $"note:$DATA" [x32]; CIter; CGet $"note"; CGet $"note:$DATA"; CDelete $"note"; CIter]) =
    [Ok (AnBool true); Ok (AnNames [$"a"; $"note:$DATA"]); Ok (AnBytes [x32]); Ok (AnBytes [x32]); Ok (AnBool false);
     Ok (AnNames [$"a"; $"note:$DATA"])].
Proof. now vm_compute. Qed.
Print Assumptions C87_typed_refuted.
