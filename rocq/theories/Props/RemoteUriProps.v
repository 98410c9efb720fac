(** * C66: the address of a path on GitHub *)
From Coq Require Import String NArith ZArith Bool List.
From Verif Require Import Model.Py Model.PurePath Model.RemoteUri Spec.FsSpec Spec.RemoteUriSpec Proofs.RemoteUriProofs.
Import ListNotations.

(** The address names owner, repository, ref and the path in the repository.  Missing from
    the full statement: urls that are not understood, see below. *)
Theorem C66_uri_partial :
  forall facts find_ref there n self o r u branch rel prefix infix ref bs,
    owner_name o -> repo_name r -> understood o r u ->
    facts self = Ok (mkRF u branch (mkPP false rel)) -> (forall i, infix = Some i -> good_name i) ->
    asked (match ref with Some q => find_ref self q | None => Ok tt end) branch ref bs ->
    remote_uri facts find_ref there (S n) self prefix infix ref =
      Ok (address prefix (o :: r :: match infix with Some i => [i] | None => [] end ++ bs ++ rel)).
Proof. exact uri_right. Qed.
Print Assumptions C66_uri_partial.
(** The page for people and the bare file; missing is what is missing above. *)
Theorem C66_page_and_file_partial :
  forall facts find_ref there n self o r u branch rel ref bs,
    owner_name o -> repo_name r -> understood o r u ->
    facts self = Ok (mkRF u branch (mkPP false rel)) ->
    asked (match ref with Some q => find_ref self q | None => Ok tt end) branch ref bs ->
    remote_uri_human facts find_ref there (S n) self ref = Ok (address $"https://github.com" (o :: r :: $"blob" :: bs ++ rel)) /\
    remote_uri_machine facts find_ref there (S n) self ref = Ok (address $"https://raw.githubusercontent.com" (o :: r :: bs ++ rel)).
Proof. exact page_and_file. Qed.
Print Assumptions C66_page_and_file_partial.

(** A client reads from it the names that went into it.  Missing: names with characters
    that mean something in a url. *)
Theorem C66_read_partial :
  forall l, Forall address_name l ->
    urlparse (address $"https://github.com" l) = Ok (mkUrl $"https" $"github.com" ($"/" ++ join $"/" l)).
Proof. exact read_back. Qed.
Print Assumptions C66_read_partial.

(** The owner and the repository that a package is released from are those of the url,
    whatever the path is. *)
Theorem C66_owner_and_repository :
  forall facts find_ref there n self o r u branch rel bs,
    owner_name o -> repo_name r -> understood o r u ->
    facts self = Ok (mkRF u branch (mkPP false rel)) -> asked (Ok tt) branch None bs ->
    arg_org_repo facts find_ref there (S n) self = Ok (o, r).
Proof. exact org_repo. Qed.
Print Assumptions C66_owner_and_repository.

(** A clone goes to the name of the repository directly below. *)
Theorem C66_clone_partial :
  forall self o r u, owner_name o -> repo_name r -> understood o r u ->
    clone_path self u = mkPP (pp_abs self) (pp_parts self ++ [r]).
Proof. exact clone_right. Qed.
Print Assumptions C66_clone_partial.

(** For another host there is no address of GitHub.  Missing: hosts with the form of
    [C66_host_refuted]. *)
Theorem C66_other_host_partial :
  forall facts find_ref there n self h o x u branch rel prefix infix ref,
    repo_name h -> owner_name o -> repo_name x ->
    (h <> $"github.com" /\ u = $"https://" ++ h ++ $"/" ++ o ++ $"/" ++ x \/
     (forall t, h <> $"github.com" ++ t) /\ u = $"git@" ++ h ++ $":" ++ o ++ $"/" ++ x) ->
    facts self = Ok (mkRF u branch rel) ->
    remote_uri facts find_ref there (S n) self prefix infix ref = Err NotImplementedExn.
Proof. exact other_host. Qed.
Print Assumptions C66_other_host_partial.

(** Without [.git] at the end of the url, what is after the last dot of the name of the
    repository is cut off: the address is one of another repository. *)
Theorem C66_dot_refuted :
  forall facts find_ref there n self o a b branch rel prefix infix ref bs,
    owner_name o -> repo_name (a ++ $"." ++ b) -> a <> [] -> b <> [] -> ~ In (chr ".") b ->
    facts self = Ok (mkRF (https_url o (a ++ $"." ++ b)) branch (mkPP false rel)) -> (forall i, infix = Some i -> good_name i) ->
    asked (match ref with Some q => find_ref self q | None => Ok tt end) branch ref bs ->
    remote_uri facts find_ref there (S n) self prefix infix ref =
      Ok (address prefix (o :: a :: match infix with Some i => [i] | None => [] end ++ bs ++ rel)).
Proof. exact uri_cut. Qed.
Print Assumptions C66_dot_refuted.

(** The url with [ssh://] raises, for every repository. *)
Theorem C66_ssh_refuted :
  forall facts find_ref there n self o x branch rel prefix infix ref,
    owner_name o -> repo_name x -> facts self = Ok (mkRF (ssh_url o x) branch rel) ->
    remote_uri facts find_ref there (S n) self prefix infix ref = Err ValueError.
Proof. exact ssh_raises. Qed.
Print Assumptions C66_ssh_refuted.

(** A file with "#" in its name: the path that is read is one of another file. *)
Theorem C66_read_refuted :
  exists l u, Forall good_name l /\ urlparse (address $"https://github.com" l) = Ok u /\ u_path u <> $"/" ++ join $"/" l.
Proof.
  exists [$"o"; $"r"; $"blob"; $"master"; $"a#b"]. eexists.
  split; [|split; [vm_compute; reflexivity|discriminate]].
  repeat (constructor; [repeat split; try discriminate; cbn; intuition discriminate|]). constructor.
Qed.
Print Assumptions C66_read_refuted.

(** A host whose name only begins like that of GitHub is taken for it; the api address is
    one of GitHub for every host; and a clone of [..] goes above. *)
Definition z_facts (u : str) (p : ppath) : res rfacts := Ok (mkRF u (Ok $"master") (mkPP false [$"f"])).
Definition z_find (p : ppath) (r : str) : res unit := Ok tt.
Theorem C66_host_refuted :
  remote_uri_human (z_facts $"git@github.company.org:o/r.git") z_find (fun _ => true) 1 (pp_parse $"/c/f") None = Ok $"https://github.com/o/r/blob/master/f" /\
  remote_uri_human (z_facts $"ssh://git@github.com:22/o/r.git") z_find (fun _ => true) 1 (pp_parse $"/c/f") None = Ok $"https://github.com/22/o/r/blob/master/f" /\
  remote_uri_api (z_facts $"https://gitlab.com/o/r.git") (pp_parse $"/c/f") $"/releases" = Ok $"https://api.github.com/repos/o/r/releases" /\
  clone_path (pp_parse $"/home/me") $"https://example.org/.." = pp_parse $"/home/me/..".
Proof. split; [vm_compute; reflexivity|]. split; [vm_compute; reflexivity|]. split; vm_compute; reflexivity. Qed.
Print Assumptions C66_host_refuted.

(** The clone of a local clone: where no ref was asked for it is the branch of the other
    repository that is named, not the one that is checked out. *)
Definition z_two (p : ppath) : res rfacts :=
  if str_eqb (nth 0 (pp_parts p) []) $"c" then Ok (mkRF $"/d" (Ok $"mine") (mkPP false [$"f"]))
  else Ok (mkRF $"https://github.com/o/r.git" (Ok $"theirs") (mkPP false [$"f"])).
Theorem C66_branch_refuted :
  remote_uri_human z_two z_find (fun _ => true) 2 (pp_parse $"/c/f") None = Ok $"https://github.com/o/r/blob/theirs/f".
Proof. vm_compute. reflexivity. Qed.
Print Assumptions C66_branch_refuted.

(** A repository whose remote is its own directory: no number of calls is enough. *)
Theorem C66_cycle_refuted :
  forall fuel, remote_uri_human (z_facts $"/c") z_find (fun _ => true) fuel (pp_parse $"/c/f") None = Err OutOfFuel.
Proof.
  intro fuel. apply (cycle (z_facts $"/c") z_find (fun _ => true) (pp_parse $"/c/f") (Ok $"master") (mkPP false [$"f"]) $"/c"); try reflexivity.
  exists $"c". split; [discriminate|]. split; vm_compute; reflexivity.
Qed.
Print Assumptions C66_cycle_refuted.

Example C66_case :
  owner_name $"tgbugs" /\ repo_name $"aug.path-lib" /\ understood $"tgbugs" $"aug.path-lib" $"git@github.com:tgbugs/aug.path-lib.git" /\
  understood $"tgbugs" $"augpathlib" $"https://github.com/tgbugs/augpathlib" /\
  asked (Ok tt) (Ok $"feature/x") None [$"feature"; $"x"] /\
  remote_uri_human (fun _ => Ok (mkRF $"git@github.com:tgbugs/aug.path-lib.git" (Ok $"feature/x") (mkPP false [$"test"; $"a b"]))) z_find (fun _ => true) 1 (pp_parse $"/c/test/a b") None
    = Ok $"https://github.com/tgbugs/aug.path-lib/blob/feature/x/test/a b" /\
  remote_uri_machine (fun _ => Ok (mkRF $"git@github.com:tgbugs/aug.path-lib.git" (Err ValueError) (mkPP false [$"f"]))) z_find (fun _ => true) 1 (pp_parse $"/c/f") (Some $"v1")
    = Ok $"https://raw.githubusercontent.com/tgbugs/aug.path-lib/v1/f" /\
  arg_org_repo (z_facts $"https://github.com/tgbugs/augpathlib") z_find (fun _ => true) 1 (pp_parse $"/c/f") = Ok ($"tgbugs", $"augpathlib") /\
  clone_path (pp_parse $"/home/me") $"git@github.com:tgbugs/aug.path-lib.git" = pp_parse $"/home/me/aug.path-lib" /\
  remote_uri_human (z_facts $"git@gitlab.com:o/r.git") z_find (fun _ => true) 1 (pp_parse $"/c/f") None = Err NotImplementedExn /\
  remote_uri_human (z_facts $"https://example.org/o/r") z_find (fun _ => true) 1 (pp_parse $"/c/f") None = Err NotImplementedExn.
Proof.
  assert (L : forall s, forallb (fun c => ((N.leb 48 c && N.leb c 57) || (N.leb 65 c && N.leb c 90) || (N.leb 97 c && N.leb c 122) || N.eqb c 45 || N.eqb c 46)%bool) s = true ->
     forall c, In c s -> letter c \/ c = chr "-" \/ c = chr "." \/ c = chr "_").
  { intros s H c I'. rewrite forallb_forall in H. specialize (H c I'). unfold letter. rewrite !orb_true_iff, !andb_true_iff, !N.leb_le, !N.eqb_eq in H.
    destruct H as [[[[H|H]|H]|H]|H]; auto; left; auto. }
  split; [split; [discriminate|]; intros c I'; destruct (L $"tgbugs" eq_refl c I') as [H|[H|[H|H]]]; [now left|now right| |]; subst c; cbn in I'; intuition discriminate|].
  split; [repeat split; try discriminate; now apply L|]. split; [right; left; reflexivity|]. split.
  { right; right. split; [|left; reflexivity]. intros (a & b & _ & _ & E). assert (I' : In (chr ".") $"augpathlib") by (rewrite E; apply in_app_iff; right; now left).
    cbn in I'. intuition discriminate. }
  split.
  { split; [discriminate|]. split; [|left; split; [reflexivity|now left]].
    repeat (constructor; [repeat split; try discriminate; cbn; intuition discriminate|]). constructor. }
  repeat (split; [vm_compute; reflexivity|]). vm_compute. reflexivity.
Qed.
