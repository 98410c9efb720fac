(** * C80: reading entries of zip files *)
From Coq Require Import String Strings.Byte NArith Bool List.
From Verif Require Import Model.Py Model.PurePath Model.Zip Model.ZipRead Spec.ZipReadSpec Proofs.ZipReadProofs.
Import ListNotations.

(** Whoever else opens, reads and closes what, and whatever fails: a generator of [data]
    gives the chunks of its entry in order; if that ends before the end of the entry there
    was an exception, or the generator was closed. *)
Theorem C80_truthful :
  forall entries data bad_open bad_read n es t s, (0 < n)%nat -> run entries data bad_open bad_read n es nothing_open = (t, s) ->
    forall r p, reader_of t r p -> truthful n (match z_open entries p with Ok z => data z | Err _ => [] end) (dropped r t) (answers r t).
Proof. exact zip_truthful. Qed.
Print Assumptions C80_truthful.
Theorem C80_prefix :
  forall entries data bad_open bad_read n es t s, (0 < n)%nat -> run entries data bad_open bad_read n es nothing_open = (t, s) ->
    forall r p, reader_of t r p -> exists m, got (answers r t) = firstn m (match z_open entries p with Ok z => data z | Err _ => [] end).
Proof. exact zip_prefix. Qed.
Print Assumptions C80_prefix.
Theorem C80_all :
  forall entries data bad_open bad_read n es t s, (0 < n)%nat -> run entries data bad_open bad_read n es nothing_open = (t, s) ->
    forall r p, reader_of t r p -> ~ dropped r t -> (forall e, ~ In (ORaise e) (answers r t)) -> In OStop (answers r t) ->
    got (answers r t) = match z_open entries p with Ok z => data z | Err _ => [] end.
Proof. exact zip_all. Qed.
Print Assumptions C80_all.

(** A file that [open] gave out gives the content of the entry in order. *)
Theorem C80_file :
  forall entries data bad_open bad_read n es t s, (0 < n)%nat -> run entries data bad_open bad_read n es nothing_open = (t, s) ->
    forall u p, opened_as t u p -> exists z m, z_open entries p = Ok z /\ got (read_from u t) = firstn m (data z).
Proof. exact zip_file. Qed.
Print Assumptions C80_file.

(** A file of the archive that is still open belongs to a generator that is not at its
    end and was not closed, or was given out and not closed by the one that has it. *)
Theorem C80_closed :
  forall entries data bad_open bad_read n es t s, (0 < n)%nat -> run entries data bad_open bad_read n es nothing_open = (t, s) ->
    forall i, (i < s_made s)%nat -> h_closed (s_handle s i) = false ->
    (exists r p, reader_of t r p /\ ~ dropped r t /\ forall o, In o (answers r t) -> exists b, o = OChunk b) \/ (exists u p, opened_as t u p /\ ~ shut u t).
Proof. exact zip_closed. Qed.
Print Assumptions C80_closed.

(** There is no exception if the entry is sound and nobody else reads that path.
    Missing from the full statement: other readers of the same path, see below. *)
Theorem C80_exact_partial :
  forall entries data bad_open bad_read n es t s, (0 < n)%nat -> run entries data bad_open bad_read n es nothing_open = (t, s) ->
    forall r p z, reader_of t r p -> z_open entries p = Ok z -> bad_open z = None -> (forall k, bad_read z k = None) -> alone p t -> ~ dropped r t ->
    in_order n (data z) (answers r t).
Proof. exact zip_exact. Qed.
Print Assumptions C80_exact_partial.

Definition c80_entries : list zinfo := [mkZinfo $"a/b.txt" 0; mkZinfo $"c.txt" 1; mkZinfo $"bad" 2; mkZinfo $"d/" 3].
Definition c80_data (z : zinfo) : bytes := if N.eqb (z_index z) 0 then [x01; x02; x03; x04; x05] else if N.eqb (z_index z) 1 then [x06; x07; x08] else [].
Definition c80_bad (z : zinfo) : option exn := if N.eqb (z_index z) 2 then Some RuntimeErr else None.
Definition c80_run (es : list event) : trace := fst (run c80_entries c80_data c80_bad (fun _ _ => None) 2 es nothing_open).
Definition c80_es : list event :=
  [EData (pp_parse $"a/b.txt"); EData (pp_parse $"c.txt"); ENext 1; ENext 0; EOpen (pp_parse $"a/b.txt"); ENext 1; ERead 0 3; ENext 0; ENext 1; ENext 0; ENext 0].
Ltac none := let I := fresh in intro I; vm_compute in I; repeat destruct I as [I|I]; try discriminate I; destruct I.
Example C80_case :
  reader_of (c80_run c80_es) 0 (pp_parse $"a/b.txt") /\ z_open c80_entries (pp_parse $"a/b.txt") = Ok (mkZinfo $"a/b.txt" 0) /\ alone (pp_parse $"a/b.txt") (c80_run c80_es) /\
  ~ dropped 0 (c80_run c80_es) /\ opened_as (c80_run c80_es) 0 (pp_parse $"a/b.txt") /\
  answers 0 (c80_run c80_es) = [OChunk [x01; x02]; OChunk [x03; x04]; OChunk [x05]; OStop] /\
  answers 1 (c80_run c80_es) = [OChunk [x06; x07]; OChunk [x08]; OStop] /\ read_from 0 (c80_run c80_es) = [OChunk [x01; x02; x03]].
Proof.
  split; [vm_compute; now left|]. split; [reflexivity|]. split.
  - split; [|intros (o & I); revert I; none]. intros r r' H H'. vm_compute in H, H'.
    repeat destruct H as [H|H]; try discriminate H; try contradiction. repeat destruct H' as [H'|H']; try discriminate H'; try contradiction. congruence.
  - split; [intros (o & _ & I); revert I; none|]. split; [vm_compute; do 4 right; now left|]. vm_compute. repeat split.
Qed.

(** Two that read the same entry: when the first is done the file of the other is closed
    and it gets ValueError in the middle of the entry. *)
Theorem C80_two_readers_refuted :
  exists es r p z, let t := c80_run es in
    reader_of t r p /\ z_open c80_entries p = Ok z /\ c80_bad z = None /\ ~ dropped r t /\ (forall o, ~ In (EClose p, o) t) /\
    answers r t = [OChunk (firstn 2 (c80_data z)); ORaise ValueError].
Proof.
  exists [EData (pp_parse $"c.txt"); EData (pp_parse $"c.txt"); ENext 0; ENext 1; ENext 0; ENext 0; ENext 1], 1%nat, (pp_parse $"c.txt"), (mkZinfo $"c.txt" 1).
  cbv zeta. split; [vm_compute; right; now left|]. split; [reflexivity|]. split; [reflexivity|]. split; [intros (o & _ & I); revert I; none|]. split; [intro o; none|]. vm_compute. reflexivity.
Qed.
Print Assumptions C80_two_readers_refuted.
(** So is a file that [open] gave out, by the end of a reader that began before. *)
Theorem C80_file_refuted :
  exists es u p z, let t := c80_run es in
    opened_as t u p /\ z_open c80_entries p = Ok z /\ c80_bad z = None /\ ~ shut u t /\ (forall o, ~ In (EClose p, o) t) /\ read_from u t = [ORaise ValueError].
Proof.
  exists [EData (pp_parse $"c.txt"); ENext 0; EOpen (pp_parse $"c.txt"); ENext 0; ENext 0; ERead 0 1], 0%nat, (pp_parse $"c.txt"), (mkZinfo $"c.txt" 1).
  cbv zeta. split; [vm_compute; do 2 right; now left|]. split; [reflexivity|]. split; [reflexivity|]. split; [intros (o & _ & I); revert I; none|]. split; [intro o; none|]. vm_compute. reflexivity.
Qed.
Print Assumptions C80_file_refuted.
(** Reading a directory, or an entry that cannot be opened, raises a BaseException, which
    no [except Exception] sees. *)
Theorem C80_base_exception_refuted :
  answers 0 (c80_run [EData (pp_parse $"d"); ENext 0]) = [ORaise BaseExn] /\
  answers 0 (c80_run [EData (pp_parse $"bad"); ENext 0]) = [ORaise BaseExn] /\ c80_bad (mkZinfo $"bad" 2) = Some RuntimeErr.
Proof. now vm_compute. Qed.
Print Assumptions C80_base_exception_refuted.
