(** * Computing the next version: /repo/augpathlib/package.py:44-155

    [packaging.version.Version] is an external class.  It is modelled by the
    fields of its named tuple; [Version(str(v))] (package.py:154) gives back the
    fields of [v], which Props/Pep440Props.v proves of the grammar of Model/Pep440.v. *)
From Coq Require Import String NArith ZArith Bool List.
From Verif Require Import Model.Py.
Import ListNotations.

Inductive letter : Set := La | Lb | Lrc.

(** A segment of the local part: a number or a text. *)
Inductive segment : Type := SNum (n : N) | SText (s : str).

Record version : Type := mkV {
  v_epoch : N;
  v_release : list N;
  v_pre : option (letter * N);
  v_post : option N;
  v_dev : option N;
  v_local : option (list segment) }.

(** The values [next_phase], [rel_comp] and the states can have. *)
Inductive phase : Set :=
| Current | Dev | Pre | PhA | PhB | PhRc | Release | Major | Minor | Micro | Post | Local
| OtherPhase.

Definition of_letter (l : letter) : phase :=
  match l with La => PhA | Lb => PhB | Lrc => PhRc end.
Definition to_letter (p : phase) : option letter :=
  match p with PhA => Some La | PhB => Some Lb | PhRc => Some Lrc | _ => None end.

(** vinc on a number or None, package.py:49-56 *)
Definition vinc (n : option N) : N := match n with None => 0%N | Some k => (k + 1)%N end.

(** current_state, package.py:59-64 *)
Definition current_state (v : version) : phase :=
  match v_local v with
  | Some _ => Local
  | None =>
      match v_post v with
      | Some _ => Post
      | None =>
          match v_pre v with
          | Some (l, _) => of_letter l
          | None => match v_dev v with Some _ => Dev | None => Release end
          end
      end
  end.

(** [cstate > next_phase] on the texts 'a', 'b' and 'rc', package.py:85 *)
Definition later (a b : phase) : bool :=
  match a, b with
  | PhB, PhA | PhRc, PhA | PhRc, PhB => true
  | _, _ => false
  end.

(** The result of [logic]: None, one step or a pair. *)
Inductive plan : Type := Truncate | One (p : phase) | Two (p q : phase).

(** logic, package.py:67-96 *)
Definition logic (cstate next rel_comp : phase) : res plan :=
  match next with
  | Current => Ok (One cstate)                                        (* 70 *)
  | Dev =>
      match cstate with
      | Dev => Ok (One cstate)                                        (* 72 *)
      | Release | Post | Local => Ok (Two rel_comp Dev)               (* 73 *)
      | _ => Err ValueError                                           (* 74 *)
      end
  | Pre =>
      match cstate with
      | Dev => Ok (One PhA) | PhA => Ok (One PhB)                     (* 76-77 *)
      | PhB => Ok (One PhRc) | PhRc => Ok (One PhRc)                  (* 78-79 *)
      | Release | Post | Local => Ok (Two rel_comp PhA)               (* 80-81 *)
      | _ => Err ValueError
      end
  | PhA | PhB | PhRc =>
      match cstate with
      | Dev => Ok (One next)                                          (* 84 *)
      | _ => if later cstate next then Err ValueError                 (* 85-86 *)
             else Ok (Two rel_comp next)                              (* 87 *)
      end
  | Release =>
      match cstate with
      | Dev | PhA | PhB | PhRc => Ok Truncate                         (* 89 *)
      | _ => Ok (One next)                                            (* 90 *)
      end
  | Major | Minor | Micro => Ok (One next)                            (* 91 *)
  | Post => match cstate with Release => Ok (One next) | _ => Err ValueError end (* 92-94 *)
  | Local => Ok (One next)                                            (* 95 *)
  | OtherPhase => Err ValueError                                      (* 96 *)
  end.

(** The part of a release number before an index, the component, and the rest. *)
Definition bump (i : nat) (release : list N) : res (list N) :=
  match nth_error release i with
  | None => Err IndexError
  | Some n => Ok (firstn i release ++ [(n + 1)%N] ++ map (fun _ => 0%N) (skipn (S i) release))
  end.

(** cons_next, package.py:99-130; the dictionary [d] is a version. *)
Definition cons_next (d ver : version) (next : phase) : res version :=
  match next with
  | PhA | PhB | PhRc =>                                               (* 101-104 *)
      let l := match next with PhA => La | PhB => Lb | _ => Lrc end in
      Ok (mkV (v_epoch d) (v_release d) (Some (l, vinc (option_map snd (v_pre ver))))
              (v_post d) (v_dev d) (v_local d))
  | Dev => Ok (mkV (v_epoch d) (v_release d) (v_pre d) (v_post d)     (* 105-106 *)
                   (Some (vinc (v_dev ver))) (v_local d))
  | Post => Ok (mkV (v_epoch d) (v_release d) (v_pre d)               (* 105-106 *)
                    (Some (vinc (v_post ver))) (v_dev d) (v_local d))
  | Release | Major | Minor | Micro =>                                (* 107-121 *)
      do r <- match next with
              | Release => bump (length (v_release d) - 1) (v_release d)  (* 111 *)
              | Major => bump 0 (v_release d)                         (* 114 *)
              | Minor => bump 1 (v_release d)                         (* 116 *)
              | _ => bump 2 (v_release d)                             (* 118 *)
              end ;
      Ok (mkV (v_epoch d) r (v_pre d) (v_post d) (v_dev d) (v_local d))
  | Local =>                                                          (* 122-124 *)
      match v_local ver with
      | Some _ => Err TypeError                                       (* 47-48 *)
      | None => Ok (mkV (v_epoch ver) (v_release ver) (v_pre ver) (v_post ver) (v_dev ver)
                        (Some [SNum 0]))
      end
  | Current | Pre | OtherPhase => Err ValueError                      (* 129-130 *)
  end.

(** next_version, package.py:133-155 *)
Definition next_version (ver : version) (next_phase rel_comp : phase) : res version :=
  do p <- logic (current_state ver) next_phase rel_comp ;
  let d := mkV (v_epoch ver) (v_release ver) None None None None in   (* 136-141 *)
  match p with
  | Truncate => Ok d                                                  (* 125-128 *)
  | One n => cons_next d ver n                                        (* 147 *)
  | Two a b => do d' <- cons_next d ver a ; cons_next d' ver b        (* 143-145 *)
  end.
