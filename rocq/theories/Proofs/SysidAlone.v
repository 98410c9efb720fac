(** * A program alone does what Model.Sysid does *)
From Coq Require Import String Strings.Byte NArith ZArith Bool List Lia.
From Verif Require Import Model.Py Model.PurePath Model.Fs Model.Sysid Model.SysidRace.
From Verif Require Import Spec.FsSpec Spec.CopySpec Spec.SysidSpec Spec.SysidRaceSpec Spec.SysidAloneSpec Proofs.RunLemmas Proofs.SysidProofs.
Import ListNotations.

Lemma alone readable dirsize digest uuid fs cwd e f r w' :
  good_fs fs -> uuid <> [] -> system_is readable dirsize fs cwd e -> own_is fs cwd f ->
  bind_sysid readable dirsize digest None uuid (start fs cwd (fun _ => None)) = (r, w') ->
  let s := run e (readable own_file) digest (fun _ => map byte_of uuid) (fresh f) (repeat 0 9) in
  exists raw, given s 0 raw /\ r = Ok (sysid_of raw) /\ own_is (w_fs w') cwd (s_file s).
Proof.
  intros G Nu He Hf H.
  destruct (bind_run readable dirsize digest uuid (start fs cwd (fun _ => None)) G (fun _ => eq_refl)) as (r' & w1 & E & C).
  rewrite H in E. injection E as <- <-. cbn [w_fs w_cwd start] in C. cbv zeta.
  change etc_id with system_file in C. change var_id with own_file in C.
  destruct e as [b|].
  - destruct He as (Ge & T & xs & W).
    destruct C as [(p & q & n & [->|(-> & Ng)] & Gp & W' & S & R)|(G1 & _)]; [|contradiction|contradiction].
    rewrite W in W'. injection W' as <- <-. exists (firstn 16 (digest b)). split; [reflexivity|]. split; [assumption|].
    destruct S as (F & _). cbn in F. rewrite F. exact Hf.
  - cbn in He. destruct f as [b|].
    + destruct Hf as (T & xs & W).
      destruct C as [(p & q & n & [->|(-> & Ng)] & Gp & W' & S & R)|(_ & G2 & C)]; [contradiction| |].
      * rewrite W in W'. injection W' as <- <-. destruct Gp as (Rd & q & n & W' & K). rewrite W in W'. injection W' as <- <-. rewrite Rd.
        destruct b as [|x b]; [contradiction|]. exists (firstn 16 (digest (x :: b))). split; [reflexivity|]. split; [assumption|].
        destruct S as (F & _). cbn in F. rewrite F. now exists T, xs.
      * destruct C as [(T' & Wr & R & _ & F)|(Nw & _)]; [|exfalso; apply (Nw T); left; eauto].
        assert (Z : readable own_file = false \/ readable own_file = true /\ b = []).
        { destruct (readable own_file) eqn:Rd; [right; split; [reflexivity|]|now left]. destruct b as [|x b]; [reflexivity|]. exfalso. apply G2. split; [assumption|].
          exists T, (File (x :: b) xs). split; [assumption|discriminate]. }
        exists (firstn 16 (digest (map byte_of uuid))).
        assert (Q : s_file (run None (readable own_file) digest (fun _ => map byte_of uuid) (fresh (Some b)) (repeat 0 9)) = Some (map byte_of uuid) /\
                    given (run None (readable own_file) digest (fun _ => map byte_of uuid) (fresh (Some b)) (repeat 0 9)) 0 (firstn 16 (digest (map byte_of uuid)))).
        { destruct uuid as [|u us]; [congruence|]. destruct Z as [->|(-> & ->)]; cbn; unfold given; cbn; rewrite ?skipn_nil, ?app_nil_r; now split. }
        destruct Q as (Q1 & Q2). split; [assumption|]. split; [assumption|]. rewrite Q1, F. exists T', (file_xattrs fs T'). now apply (walk_var_after fs cwd).
    + destruct Hf as (d & x & W).
      destruct C as [(p & q & n & [->|(-> & Ng)] & Gp & W' & S & R)|(_ & G2 & C)]; [contradiction|congruence|].
      destruct C as [(T' & Wr & R & _ & F)|(Nw & _)]; [|exfalso; apply (Nw (d ++ [x])); right; eauto].
      exists (firstn 16 (digest (map byte_of uuid))).
      assert (Q : s_file (run None (readable own_file) digest (fun _ => map byte_of uuid) (fresh None) (repeat 0 9)) = Some (map byte_of uuid) /\
                  given (run None (readable own_file) digest (fun _ => map byte_of uuid) (fresh None) (repeat 0 9)) 0 (firstn 16 (digest (map byte_of uuid)))).
      { destruct uuid as [|u us]; [congruence|]. cbn; unfold given; cbn; rewrite ?skipn_nil, ?app_nil_r; now split. }
      destruct Q as (Q1 & Q2). split; [assumption|]. split; [assumption|]. rewrite Q1, F. exists T', (file_xattrs fs T'). now apply (walk_var_after fs cwd).
Qed.
