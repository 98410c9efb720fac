(** * The text of an etag is read back *)
From Coq Require Import String NArith ZArith Bool List Lia.
From Verif Require Import Model.Py Model.Meta Model.MetaEncode Model.MetaXattr Model.Etag Proofs.PyLemmas.
Import ListNotations.

Lemma hexdigest_text md5 e e1 d n : etag_digest md5 e = (e1, (d, n)) ->
  exists t, etag_hexdigest md5 e = (e1, t) /\ str_encode Fetag (PEtag d n) = Ok (PStr t) /\
    exists c k, rsplit1 (chr "-") t = Some (c, k) /\ fromhex c = Some d /\ py_int k = Some n.
Proof.
  intro H. unfold etag_hexdigest. rewrite H. eexists. split; [reflexivity|]. split; [reflexivity|].
  exists (hex d), (dec_Z n). split; [|split; [apply fromhex_hex|apply py_int_dec]].
  cbn [app]. apply rsplit1_app. unfold etag_digest in H.
  assert (P : (0 <= n)%Z) by (injection H as <- <- <-; lia). destruct n as [|p|p]; [| |lia].
  - intros [E|[]]. discriminate.
  - intro I. apply dec_N_digits in I. discriminate.
Qed.
