(** * C88: types of files by their names *)
From Coq Require Import String Strings.Byte NArith ZArith Bool List.
From Verif Require Import Model.Py Model.PurePath Model.Fs Model.PathOps Model.DataDir Model.Mime Spec.FsSpec Spec.LoopSpec Spec.MimeSpec
  Proofs.RunLemmas Proofs.GoodFs Proofs.MimeProofs.
Import ListNotations.

(** Whatever leads to a directory is one, whatever its name. *)
Theorem C88_directory :
  forall far types custom w p q xs es, no_fault w -> walk (w_fs w) (w_cwd w) true p = Found q (Dir xs es) ->
    exists w', mimetype far types custom p w = (Ok (Some $"inode/directory"), w') /\ same w w'.
Proof. exact directory_kind. Qed.
Print Assumptions C88_directory.

(** The type and the encoding of an absolute path are those of its name, wherever it is and
    whatever is there.
    Missing: suffixes with other characters, see below. *)
Theorem C88_absolute_partial :
  forall far types custom w p n,
    no_fault w -> pp_abs p = true -> ends_in p n -> readable types n -> no_directory (w_fs w) (w_cwd w) p ->
    (exists w', mimetype far types custom p w = (Ok (kind types custom n), w') /\ same w w') /\
    encoding far types p w = (Ok (coding types n), w).
Proof. exact absolute_kind. Qed.
Print Assumptions C88_absolute_partial.

(** Those of a relative path that leads to a file are those of the file's name.
    Missing: they are not those of the name of the path, see below. *)
Theorem C88_relative_partial :
  forall far types custom w p q n,
    no_fault w -> good_fs (w_fs w) -> pp_abs p = false -> walk (w_fs w) (w_cwd w) true p = Found q n -> (forall xs es, n <> Dir xs es) ->
    readable types (last q []) ->
    (exists w', mimetype far types custom p w = (Ok (kind types custom (last q [])), w') /\ same w w') /\
    (exists w', encoding far types p w = (Ok (coding types (last q [])), w') /\ same w w').
Proof. exact relative_found. Qed.
Print Assumptions C88_relative_partial.

(** A broken link has the type of its own name. *)
Theorem C88_broken :
  forall far types custom w p q t n,
    no_fault w -> pp_abs p = false -> ends_in p n -> readable types n -> walk (w_fs w) (w_cwd w) false p = Found q (Link t) ->
    (forall q' n', walk (w_fs w) (w_cwd w) true p <> Found q' n') ->
    exists w', mimetype far types custom p w = (Ok (kind types custom n), w') /\ same w w'.
Proof. exact relative_broken. Qed.
Print Assumptions C88_broken.

Definition c88_types (k : str) : option str :=
  in_table [($".txt", $"text/plain"); ($".json", $"application/json"); ($".tar", $"application/x-tar"); ($".c", $"text/x-csrc")] k.
Definition c88_custom (l : list str) : option str :=
  match l with [a; b] => if (str_eqb a $".nii" && str_eqb b $".gz")%bool then Some $"image/nii" else None | _ => None end.
Definition c88_fs : node :=
  Dir [] [($"d.gz", Dir [] [($"a b.TGZ", File [] []); ($"x.txt", Link $"y.json"); ($"y.json", File [] []);
                            ($"z.tar.gz", Link $"none.xz"); ($"s.nii.gz", File [] []); ($"...json", File [] [])])].
Definition c88_far (fs : node) (cwd : place) (p : ppath) : res ppath := Err (OSErr ENOENT).
Definition c88_w : world := start c88_fs [$"d.gz"] (fun _ => None).
Definition c88_mime (p : ppath) := fst (mimetype c88_far c88_types c88_custom p c88_w).
Definition c88_enc (p : ppath) := fst (encoding c88_far c88_types p c88_w).
Definition here (s : string) : ppath := mkPP false [str_of s].
Definition there (s : string) : ppath := mkPP true [$"d.gz"; str_of s].
Example C88_case :
  no_fault c88_w /\ good_fs c88_fs /\ plain_table c88_types /\
  ends_in (there "a b.TGZ") $"a b.TGZ" /\ no_directory c88_fs [$"d.gz"] (there "a b.TGZ") /\
  c88_mime (there "a b.TGZ") = Ok (Some $"application/x-tar") /\ c88_enc (there "a b.TGZ") = Ok (Some $"gzip") /\
  c88_mime (there "s.nii.gz") = Ok (Some $"image/nii") /\ c88_mime (there "...json") = Ok None /\
  c88_mime (mkPP true [$"d.gz"]) = Ok (Some $"inode/directory") /\ c88_enc (mkPP true [$"d.gz"]) = Ok (Some $"gzip") /\
  c88_mime (here "y.json") = Ok (Some $"application/json") /\
  walk c88_fs [$"d.gz"] true (here "y.json") = Found [$"d.gz"; $"y.json"] (File [] []) /\
  walk c88_fs [$"d.gz"] false (here "z.tar.gz") = Found [$"d.gz"; $"z.tar.gz"] (Link $"none.xz") /\
  walk c88_fs [$"d.gz"] true (here "z.tar.gz") = Missing [$"d.gz"] $"none.xz" /\
  c88_mime (here "z.tar.gz") = Ok (Some $"application/x-tar").
Proof.
  split; [intro t; reflexivity|]. split; [now apply good_fs_b_ok|]. split.
  { intros k H. destruct (c88_types k) as [v|] eqn:E; [|now destruct H]. unfold c88_types in E. refine (table_plain _ _ _ _ E). reflexivity. }
  split; [exists [$"d.gz"]; split; [reflexivity|]; vm_compute; intuition discriminate|].
  split; [intros q xs es H; vm_compute in H; discriminate|]. repeat (split; [now vm_compute|]). now vm_compute.
Qed.

(** A suffix with a character that is quoted in a URI is not looked up as it is: where the table
    has ".c++", the standard library knows the name and the path has no type. *)
Theorem C88_suffix_refuted :
  forall far types w d, types $".c++" = Some $"text/x-c++src" -> types $".c%2b%2b" = None ->
    no_fault w -> no_directory (w_fs w) (w_cwd w) (mkPP true (d ++ [$"a.c++"])) ->
    kind types (fun _ => None) $"a.c++" = Some $"text/x-c++src" /\
    exists w', mimetype far types (fun _ => None) (mkPP true (d ++ [$"a.c++"])) w = (Ok None, w').
Proof. exact quoted_suffix. Qed.
Print Assumptions C88_suffix_refuted.
Example C88_suffix_case :
  fst (mimetype c88_far (in_table [($".c++", $"text/x-c++src")]) (fun _ => None) (there "a.c++") c88_w) = Ok None /\
  no_directory (w_fs c88_w) (w_cwd c88_w) (there "a.c++").
Proof. split; [now vm_compute|]. intros q xs es H. vm_compute in H. discriminate. Qed.

(** A link has the type of its own name or that of its target's, by how its path is written. *)
Theorem C88_link_refuted :
  c88_mime (there "x.txt") = Ok (Some $"text/plain") /\ c88_mime (here "x.txt") = Ok (Some $"application/json").
Proof. split; now vm_compute. Qed.
Print Assumptions C88_link_refuted.

(** The type of a broken link is by its own name, the encoding by the name it does not lead to. *)
Theorem C88_encoding_refuted :
  c88_mime (here "z.tar.gz") = Ok (Some $"application/x-tar") /\ c88_enc (here "z.tar.gz") = Ok (Some $"xz") /\
  c88_enc (there "z.tar.gz") = Ok (Some $"gzip").
Proof. repeat split; now vm_compute. Qed.
Print Assumptions C88_encoding_refuted.

(** The suffixes with which the table of users is asked are those of the name. *)
Theorem C88_suffixes : forall name l, suffixes name = l <-> suffixes_of name l.
Proof. exact suffixes_exact. Qed.
Print Assumptions C88_suffixes.
Example C88_suffixes_case :
  suffixes $".a.tar.gz" = [$".tar"; $".gz"] /\ suffixes $"a.b." = [] /\ suffixes $"a..b" = [$"."; $".b"].
Proof. now vm_compute. Qed.
