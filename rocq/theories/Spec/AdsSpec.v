(** * Attributes as a dictionary *)
From Coq Require Import String NArith ZArith Bool List.
From Verif Require Import Model.Py Model.PurePath Model.Fs Model.Ads Spec.FsSpec Spec.MetaSpec Spec.XattrSpec.
Import ListNotations.

(** A file as its user sees it: the content, and a value for some texts. *)
Record store := mkStore { content : bytes; attr : str -> option bytes }.

(** What one call may answer, and what it leaves. *)
Definition fits (s : store) (o : op) (r : res reply) (s' : store) : Prop :=
  match o with
  | OSet (KText k) (VBytes v) =>
      r = Ok RNone /\ content s' = content s /\ attr s' k = Some v /\ forall k', k' <> k -> attr s' k' = attr s k'
  | OGet (KText k) => s' = s /\ r = match attr s k with Some v => Ok (RBytes v) | None => Err NoStreamErr end
  | ODel (KText k) f =>
      r = match attr s k, f with None, true => Err NoStreamErr | _, _ => Ok RNone end /\
      content s' = content s /\ attr s' k = None /\ forall k', k' <> k -> attr s' k' = attr s k'
  | OAll => s' = s /\ exists l, r = Ok (RAll l) /\ NoDup (map fst l) /\
      forall b v, In (b, v) l <-> exists k, utf8_enc k = Some b /\ attr s k = Some v
  | OWrite [] => s' = s /\ r = Err StopIteration
  | OWrite l => r = Ok RNone /\ content s' = concat l /\ forall k, attr s' k = attr s k
  | _ => s' = s /\ r = Err TypeError
  end.
Inductive history : store -> list op -> list (res reply) -> store -> Prop :=
| history_nil s : history s [] [] s
| history_cons s o r s1 ops rs s2 : fits s o r s1 -> history s1 ops rs s2 -> history s (o :: ops) (r :: rs) s2.

(** Calls with names from [K], all text, and values that are bytes or wrong. *)
Definition calls (K : str -> Prop) (o : op) : Prop :=
  match o with
  | OSet (KText k) _ | OGet (KText k) | ODel (KText k) _ => K k
  | OSet (KBytes _) _ | OGet (KBytes _) | ODel (KBytes _) _ => False
  | OAll | OWrite _ => True
  end.
Definition lenient (o : op) : Prop := match o with ODel _ f => f = false | _ => True end.

(** The same answer, up to the order of a listing. *)
Definition same_answer (a b : res reply) : Prop :=
  a = b \/ exists l m, a = Ok (RAll l) /\ b = Ok (RAll m) /\ NoDup (map fst l) /\ NoDup (map fst m) /\ forall e, In e l <-> In e m.

(** ** Names *)
Definition separator (c : N) : Prop := c = 58%N \/ c = 47%N \/ c = 92%N.
Definition clean (s : str) : Prop := s <> [] /\ forall c, In c s -> ~ separator c.
Definition full_name (k : str) : str := $"user." ++ k.

(** Two texts that the volume does not tell apart. *)
Definition folded (up : N -> N) (a b : str) : Prop := map up a = map up b.

(** Names that a volume takes and tells apart. *)
Definition usable (up : N -> N) (legal : str -> bool) (K : str -> Prop) : Prop :=
  (forall k, K k -> clean k /\ encodable k /\ legal (full_name k) = true) /\
  (forall k k', K k -> K k' -> folded up (full_name k) (full_name k') -> k = k').

(** ** A file on Windows *)
Definition good_part (x : str) : Prop := clean x /\ x <> $"." /\ x <> $"..".
(** The path names the place [q]; no single letter on its own. *)
Definition named (cwd : list str) (p : wpath) (q : list str) : Prop :=
  exists drive l, q = drive :: l /\ l <> [] /\ drive <> $".." /\ Forall good_part l /\
    ((wp_abs p = true /\ wp_parts p = q) \/
     (wp_abs p = false /\ exists r, cwd = drive :: r /\ l = r ++ wp_parts p /\ wp_parts p <> [] /\
        forall x, wp_parts p = [x] -> length x <> 1%nat)).
(** The streams of the file are the attributes, all from [K]; other streams do not
    begin with "user". *)
Definition shows (up : N -> N) (legal : str -> bool) (K : str -> Prop) (s : store) (f : wfile) : Prop :=
  w_data f = Some (content s) /\
  NoDup (map (map up) (map fst (w_streams f))) /\
  (forall k v, attr s k = Some v <-> K k /\ In (full_name k, v) (w_streams f)) /\
  (forall n v, In (n, v) (w_streams f) -> clean n /\ legal n = true /\
     ((exists k, K k /\ n = full_name k) \/
      (startswith n $"user" = false /\ forall k, K k -> ~ folded up n (full_name k)))).
Definition on_disk (up : N -> N) (legal : str -> bool) (K : str -> Prop) (s : store) (d : disk) (q : list str) : Prop :=
  exists f, find_file up d q = Some f /\ shows up legal K s f.

(** ** A file on posix *)
Definition px_full (b : bytes) : str := $"user." ++ map Byte.to_N b.
Definition on_posix (s : store) (fs : node) (Q : place) : Prop :=
  exists xs, look fs Q = Some (AFile (content s) xs) /\ NoDup (map fst xs) /\
    (forall k v, attr s k = Some v <-> exists b, utf8_enc k = Some b /\ In (px_full b, v) xs) /\
    (forall n v, In (n, v) xs -> startswith n $"user." = true -> exists k b, utf8_enc k = Some b /\ n = px_full b).
