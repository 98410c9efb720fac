(** C94: what a link says, and following it by hand. *)
From Coq Require Import String NArith ZArith Bool List.
From Verif Require Import Model.Py Model.PurePath Model.Fs Model.Readlink.
From Verif Require Import Spec.FsSpec Spec.LoopSpec Spec.ReadlinkSpec.
From Verif Require Import Proofs.ReadlinkProofs.
Import ListNotations.

(** [p.readlink(raw=True)] is the text of the link, to the letter. *)
Theorem C94_raw :
  forall p w w' t, p_readlink_raw p w = (Ok t, w') ->
    exists q, leads (w_fs w) (w_cwd w) p q /\ look (w_fs w) q = Some (ALink t).
Proof. exact raw_exact. Qed.
Print Assumptions C94_raw.

Theorem C94_raw_reads :
  forall p w q t, no_fault w -> leads (w_fs w) (w_cwd w) p q ->
    look (w_fs w) q = Some (ALink t) -> fst (p_readlink_raw p w) = Ok t.
Proof. exact raw_reads. Qed.
Print Assumptions C94_raw_reads.

(** Of anything else it is EINVAL. *)
Theorem C94_raw_other :
  forall p w q, leads (w_fs w) (w_cwd w) p q -> no_fault w ->
    (forall t, look (w_fs w) q <> Some (ALink t)) ->
    fst (p_readlink_raw p w) = Err (OSErr EINVAL).
Proof. exact raw_other. Qed.
Print Assumptions C94_raw_other.

(** [p.parent / p.readlink()] opens what [p] opens, through links in the parents,
    [..] in the text, and any current directory. *)
Theorem C94_by_hand :
  forall p w h w' r,
    is_dir_at (w_fs w) [] -> is_dir_at (w_fs w) (w_cwd w) -> texts (w_fs w) ->
    p_by_hand p w = (Ok h, w') ->
    opens (w_fs w) (w_cwd w) p r -> opens (w_fs w') (w_cwd w') h r.
Proof. exact by_hand_opens. Qed.
Print Assumptions C94_by_hand.

(** The other way round there are two exceptions: a text that asks for a directory
    and leads to something else, as the path drops that it asks; and links that
    are one too many for the system. *)
Theorem C94_back_partial :
  forall p w h w' r,
    is_dir_at (w_fs w) [] -> is_dir_at (w_fs w) (w_cwd w) -> texts (w_fs w) ->
    p_by_hand p w = (Ok h, w') -> opens (w_fs w') (w_cwd w') h r ->
    opens (w_fs w) (w_cwd w) p r \/ refuses (w_fs w) (w_cwd w) p ELOOP \/
    (refuses (w_fs w) (w_cwd w) p ENOTDIR /\
     (exists t, fst (p_readlink_raw p w) = Ok t /\ asks_dir t) /\ ~ is_dir_at (w_fs w) r).
Proof. exact by_hand_back. Qed.
Print Assumptions C94_back_partial.

(** ** Cases *)
Definition rl_fs : node := Dir []
  [($"a", Dir [] [($"f", File [] []); ($"l", Link $"../b/.//./g"); ($"s", Link $"f/"); ($"up", Link $"/z")]);
   ($"b", Dir [] [($"g", File [Byte.x61] [])]); ($"z", Link $"a")].
Definition rl_world : world := start rl_fs [$"b"] (fun _ => None).

(** Through [../z], which is a link to [a], from [b]. *)
Example C94_case :
  is_dir_at rl_fs [] /\ is_dir_at rl_fs [$"b"] /\ texts rl_fs /\ no_fault rl_world /\
  fst (p_readlink_raw (pp_parse $"../z/l") rl_world) = Ok $"../b/.//./g" /\
  fst (p_readlink (pp_parse $"../z/l") rl_world) = Ok (pp_parse $"../b/g") /\
  fst (p_by_hand (pp_parse $"../z/l") rl_world) = Ok (pp_parse $"../z/../b/g") /\
  opens rl_fs [$"b"] (pp_parse $"../z/l") [$"b"; $"g"] /\
  opens rl_fs [$"b"] (pp_parse $"../z/../b/g") [$"b"; $"g"].
Proof.
  split; [now eexists|]. split; [now eexists|]. split; [exact (texts_b_ok rl_fs eq_refl)|].
  split; [intro; reflexivity|]. split; [reflexivity|]. split; [reflexivity|]. split; [reflexivity|].
  split; eexists; vm_compute; reflexivity.
Qed.

(** A text with a slash at its end, to a file: the path by hand opens it, the link
    does not. *)
Theorem C94_slash_refuted :
  exists fs cwd p h w',
    is_dir_at fs [] /\ is_dir_at fs cwd /\
    p_by_hand p (start fs cwd (fun _ => None)) = (Ok h, w') /\
    opens fs cwd h [$"a"; $"f"] /\ refuses fs cwd p ENOTDIR.
Proof.
  exact (ex_intro _ rl_fs (ex_intro _ [$"b"] (ex_intro _ (pp_parse $"/a/s")
    (ex_intro _ (pp_parse $"/a/f") (ex_intro _ (mkWorld rl_fs [$"b"] [rl_fs] 1 (fun _ => None))
      (conj (ex_intro _ [] eq_refl) (conj (ex_intro _ [] eq_refl) (conj eq_refl
        (conj (ex_intro _ (File [] []) eq_refl) eq_refl))))))))).
Qed.
Print Assumptions C94_slash_refuted.

(** Forty-one links in a row: opened from the second. *)
Definition rl_name (n : nat) : str := repeat (chr "l") (S n).
Definition rl_row : node := Dir []
  (map (fun n => (rl_name n, if Nat.eqb n 41 then File [] [] else Link (rl_name (S n)))) (seq 0 42)).

Theorem C94_many_refuted :
  exists fs p h w', p_by_hand p (start fs [] (fun _ => None)) = (Ok h, w') /\
    opens fs [] h [rl_name 41] /\ refuses fs [] p ELOOP.
Proof.
  exact (ex_intro _ rl_row (ex_intro _ (pp_parse $"l") (ex_intro _ (pp_parse $"ll")
    (ex_intro _ (mkWorld rl_row [] [rl_row] 1 (fun _ => None))
      (conj eq_refl (conj (ex_intro _ (File [] []) eq_refl) eq_refl)))))).
Qed.
Print Assumptions C94_many_refuted.
