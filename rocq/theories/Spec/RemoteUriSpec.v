(** * What the address of a path on GitHub is *)
From Coq Require Import String NArith ZArith Bool List.
From Verif Require Import Model.Py Model.PurePath Spec.FsSpec.
Import ListNotations.

(** Names of owners are letters, digits and "-"; those of repositories may have "." and "_"
    too, but are not "." or "..". *)
Definition letter (c : N) : Prop := ((48 <= c <= 57) \/ (65 <= c <= 90) \/ (97 <= c <= 122))%N.
Definition owner_name (s : str) : Prop := s <> [] /\ forall c, In c s -> letter c \/ c = chr "-".
Definition repo_name (s : str) : Prop :=
  s <> [] /\ s <> $"." /\ s <> $".." /\ forall c, In c s -> letter c \/ c = chr "-" \/ c = chr "." \/ c = chr "_".

(** The urls by which the repository can be cloned. *)
Definition https_url (o r : str) : str := $"https://github.com/" ++ o ++ $"/" ++ r.
Definition scp_url (o r : str) : str := $"git@github.com:" ++ o ++ $"/" ++ r.
Definition ssh_url (o r : str) : str := $"ssh://git@github.com/" ++ o ++ $"/" ++ r.

(** There is a dot with something on both sides. *)
Definition inner_dot (s : str) : Prop := exists a b, a <> [] /\ b <> [] /\ s = a ++ $"." ++ b.
(** The urls that are understood: with [.git] at the end, or without where the name has no
    inner dot. *)
Definition understood (o r u : str) : Prop :=
  u = https_url o (r ++ $".git") \/ u = scp_url o (r ++ $".git") \/
  (~ inner_dot r /\ (u = https_url o r \/ u = scp_url o r)).

(** The address: the parts with "/" between them after the host. *)
Definition address (prefix : str) (l : list str) : str := prefix ++ $"/" ++ join $"/" l.

(** The name in an address is read as it is. *)
Definition address_name (s : str) : Prop :=
  good_name s /\ forall c, In c s -> ~ In c $"?#;" /\ c <> 9%N /\ c <> 10%N /\ c <> 13%N.

(** The ref that was asked for, as the parts of its name: the branch where none was. *)
Definition asked (find : res unit) (branch : res str) (ref : option str) (bs : list str) : Prop :=
  bs <> [] /\ Forall good_name bs /\
  ((branch = Ok (join $"/" bs) /\ (ref = None \/ ref = Some [] \/ ref = Some $"HEAD")) \/
   (ref = Some (join $"/" bs) /\ join $"/" bs <> $"HEAD" /\ find = Ok tt)).
