(** * Running setup.py: /repo/augpathlib/package.py:13-38, 162-176

    Simplified: what the root logger and setuptools keep is [proc].  The runner of
    distutils (37-38) is arbitrary.  Importing modules (15-16, 33, 37), and what is printed,
    have no effects here. *)
From Coq Require Import String NArith ZArith Bool List.
From Verif Require Import Model.Py Model.PurePath Model.Fs Model.PathOps Model.Cwd Model.PackageFolder.
Import ListNotations.

Section Setup.
(** The arguments of one call of [setup] *)
Variable C : Type.

(** [setuptools.setup]: its own function, or the [fake_setup] (21-22) of a run that keeps
    what it is given in a list of its own (20). *)
Inductive entry_point : Type := Own | Fake (k : nat).
Record proc : Type := mkProc {
  p_level : Z;                       (* logging.getLogger().level *)
  p_hook : entry_point;              (* setuptools.setup *)
  p_last : nat -> option C;          (* last_output[0] of each run *)
  p_runs : nat }.                    (* how many runs there were *)
Definition P (A : Type) : Type := proc -> world -> res A * proc * world.

Definition set_level (z : Z) (pr : proc) : proc := mkProc z (p_hook pr) (p_last pr) (p_runs pr).
Definition set_hook (h : entry_point) (pr : proc) : proc := mkProc (p_level pr) h (p_last pr) (p_runs pr).
Definition set_last (k : nat) (c : option C) (pr : proc) : proc :=
  mkProc (p_level pr) (p_hook pr) (fun x => if Nat.eqb x k then c else p_last pr x) (p_runs pr).

(** What a setup.py does: anything to files and the current directory, to the level of
    the root logger, calls of [setuptools.setup], and runs of other files in the same way.
    One that sets [setuptools.setup] itself is not modelled. *)
Inductive script : Type :=
| Done
| Do (m : M unit) (k : script)
| Level (z : Z) (k : script)
| Call (c : C) (k : script)
| Other (s : script) (k : script).

(** _run_setup, 18-32, around [exec_module], 27; [_orig_setup] (17) is what
    load_run_setup found just before. *)
Definition recorded (body : P unit) : P C := fun pr w =>
  let orig := p_hook pr in                                               (* 17 *)
  let k := p_runs pr in
  let pr1 := mkProc (p_level pr) (Fake k) (fun x => if Nat.eqb x k then None else p_last pr x) (S k) in (* 20, 24 *)
  let '(r, pr2, w2) := body pr1 w in                                     (* 25-27 *)
  let r := match r with
           | Err e => Err e
           | Ok _ => match p_last pr2 k with None => Err TypeError | Some c => Ok c end (* 28-29 *)
           end in
  (r, set_hook orig pr2, w2).                                            (* 30-31 *)

Fixpoint exec (s : script) : P unit := fun pr w =>
  match s with
  | Done => (Ok tt, pr, w)
  | Do m k => match m w with (Ok _, w1) => exec k pr w1 | (Err e, w1) => (Err e, pr, w1) end
  | Level z k => exec k (set_level z pr) w
  | Call c k => match p_hook pr with
                | Own => exec k pr w
                | Fake n => exec k (set_last n (Some c) pr) w
                end
  | Other s k => match recorded (exec s) pr w with
                 | (Ok _, pr1, w1) => exec k pr1 w1
                 | (Err e, pr1, w1) => (Err e, pr1, w1)
                 end
  end.
Definition run_kwargs (file : ppath -> script) (p : ppath) : P C := recorded (exec (file p)).

(** setupfu, 162-176; [run_setup] is [run_kwargs] or that of distutils. *)
Variable far : node -> place -> ppath -> res ppath.
Definition setupfu {A} (run_setup : ppath -> P A) (p : ppath) (o : objs) : P A := fun pr w =>
  let sigh := p_level pr in                                              (* 168 *)
  match folder far p w with                                              (* 171 *)
  | (Err e, w1) => (Err e, pr, w1)
  | (Ok f, w1) =>
      match enter (fun _ => f) 0 o w1 with
      | (Err e, _, w2) => (Err e, pr, w2)
      | (Ok _, o, w2) =>
          let '(r, pr3, w3) := match setup_file far p w2 with             (* 174 *)
                               | (Err e, w3) => (Err e, pr, w3)
                               | (Ok s, w3) => run_setup s pr w3
                               end in
          let pr3 := set_level sigh pr3 in                               (* 175-176 *)
          match exit_ 0 o w3 with
          | (Err e, w4) => (Err e, pr3, w4)
          | (Ok _, w4) => (r, pr3, w4)
          end
      end
  end.
End Setup.
Arguments Done {C}.
Arguments Do {C}.
Arguments Level {C}.
Arguments Call {C}.
Arguments Other {C}.
Arguments mkProc {C}.
Arguments p_level {C}.
Arguments p_hook {C}.
Arguments p_last {C}.
Arguments p_runs {C}.
Arguments set_level {C}.
Arguments set_hook {C}.
Arguments exec {C}.
Arguments recorded {C}.
Arguments run_kwargs {C}.
Arguments setupfu {C} far {A}.
