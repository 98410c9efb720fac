(** * The object with the streams of a file: /repo/augpathlib/pyads.py:52-129

    The disk and the calls of Windows are those of [Model/Ads.v].  A file system that
    changes while the object is in use is not modelled. *)
From Coq Require Import String NArith ZArith Bool List.
From Verif Require Import Model.Py Model.PurePath Model.Fs Model.Ads.
Import ListNotations.

(** The object, pyads.py:53-55; the name of the file is kept by its parts.  A single
    letter with no directory, which Windows would take for a drive, is not modelled. *)
Record ads := mkAds { ads_file : wpath; ads_streams : list str }.

(** [ntpath.basename], with a drive of one letter; shares are not modelled *)
Definition base_name (s : str) : str :=
  let s := match s with _ :: c :: r => if N.eqb c (chr ":") then r else s | _ => s end in
  last (split 92 (replace1 47 92 s)) [].

(** full_filename, pyads.py:94-95 *)
Definition full_filename (a : ads) (s : str) : wpath :=
  mkWP (wp_abs (ads_file a))
       (removelast (wp_parts (ads_file a)) ++ win_parts (last (wp_parts (ads_file a)) [] ++ $":" ++ s)).

(** [name.split(":")[1]] *)
Definition second (n : str) : str := nth 1 (split (chr ":") n) [].

(** [l.remove(x)]: [None] for ValueError *)
Fixpoint list_remove (x : str) (l : list str) : option (list str) :=
  match l with
  | [] => None
  | y :: r => if str_eqb y x then Some r
              else match list_remove x r with Some r' => Some (y :: r') | None => None end
  end.

Section Volume.
Variable up : N -> N.
Variable legal : str -> bool.
Variable order : list (str * bytes) -> list (str * bytes).

(** init_streams, pyads.py:57-86: only the first name is asked whether it is empty *)
Definition init_streams (cwd : list str) (p : wpath) (d : disk) : list str :=
  match win_streams up order cwd p d with
  | [] => []
  | n :: r => (match second n with [] => [] | s => [s] end) ++ map second r
  end.
Definition ads_new (cwd : list str) (p : wpath) (d : disk) : ads := mkAds p (init_streams cwd p d).

(** [os.path.exists] *)
Definition win_exists (cwd : list str) (p : wpath) (d : disk) : bool :=
  match aim up legal cwd p with
  | Err _ => false
  | Ok (q, s) =>
      match find_file up d q with
      | None => false
      | Some f => match s with
                  | None => true
                  | Some s => match find_stream up s (w_streams f) with Some _ => true | None => false end
                  end
      end
  end.

(** add_stream_from_string, pyads.py:106-116: the last part of the name is written, the
    whole name is listed *)
Definition add_string (cwd : list str) (s : str) (v : bytes) (a : ads) (d : disk) : res bool * (ads * disk) :=
  let p := full_filename a (base_name s) in
  if win_exists cwd p d then (Ok false, (a, d))
  else match win_write up legal cwd p v d with
       | (Err e, d') => (Err e, (a, d'))
       | (Ok tt, d') => (Ok true, (mkAds (ads_file a) (ads_streams a ++ [s]), d'))
       end.
(** The parts of a path given as text: the drive, if there is one, is the first *)
Definition text_path (s : str) : wpath :=
  match s with
  | l :: c :: b :: r => if (N.eqb c (chr ":") && (N.eqb b 92 || N.eqb b 47))%bool
                        then mkWP true ([l; c; 92%N] :: win_parts r) else mkWP false (win_parts s)
  | _ => mkWP false (win_parts s)
  end.
(** add_stream_from_file, pyads.py:97-104 *)
Definition add_file (cwd : list str) (s : str) (a : ads) (d : disk) : res bool * (ads * disk) :=
  if win_exists cwd (text_path s) d then
    match win_read up legal cwd (text_path s) d with
    | Err e => (Err e, (a, d))
    | Ok v => add_string cwd s v a d
    end
  else (Ok false, (a, d)).
(** delete_stream, pyads.py:118-124: whatever goes wrong, False *)
Definition delete (cwd : list str) (s : str) (a : ads) (d : disk) : res bool * (ads * disk) :=
  match win_unlink up legal cwd (full_filename a s) d with
  | (Err _, d') => (Ok false, (a, d'))
  | (Ok tt, d') => match list_remove s (ads_streams a) with
                   | None => (Ok false, (a, d'))
                   | Some l => (Ok true, (mkAds (ads_file a) l, d'))
                   end
  end.
(** get_stream_content, pyads.py:126-130 *)
Definition get_content (cwd : list str) (s : str) (a : ads) (d : disk) : res bytes :=
  win_read up legal cwd (full_filename a s) d.

(** The calls on an object; [__iter__] and [has_streams], pyads.py:88-92 *)
Inductive call := CAdd (s : str) (v : bytes) | CFile (s : str) | CDelete (s : str) | CGet (s : str) | CIter | CHas.
Inductive answer := AnBool (b : bool) | AnBytes (b : bytes) | AnNames (l : list str).
Definition as_bool (r : res bool * (ads * disk)) : res answer * (ads * disk) := ((do b <- fst r ; Ok (AnBool b)), snd r).
Definition ads_step (cwd : list str) (c : call) (a : ads) (d : disk) : res answer * (ads * disk) :=
  match c with
  | CAdd s v => as_bool (add_string cwd s v a d)
  | CFile s => as_bool (add_file cwd s a d)
  | CDelete s => as_bool (delete cwd s a d)
  | CGet s => ((do b <- get_content cwd s a d ; Ok (AnBytes b)), (a, d))
  | CIter => (Ok (AnNames (ads_streams a)), (a, d))
  | CHas => (Ok (AnBool (Nat.ltb 0 (length (ads_streams a)))), (a, d))
  end.
Fixpoint ads_run (cwd : list str) (cs : list call) (a : ads) (d : disk) : list (res answer) * (ads * disk) :=
  match cs with
  | [] => ([], (a, d))
  | c :: r => let (x, st) := ads_step cwd c a d in
              let (l, st') := ads_run cwd r (fst st) (snd st) in (x :: l, st')
  end.
End Volume.
