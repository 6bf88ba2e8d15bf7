(** Specification of the reset command. *)
From Verif Require Import Base ResetModel.
Set Implicit Arguments.
Open Scope Z_scope.

(** The kernel gives a new process a number that is neither the number nor the
    group of a living process. *)
Definition unused (pid : Z) (ps : list proc) : Prop :=
  1 < pid /\ Forall (fun p => p_pid p <> pid /\ p_grp p <> pid) ps.

Fixpoint resets_ok (cs : list (nat * bool * Z)) (y : sys) : Prop :=
  match cs with
  | [] => True
  | (c, fits, pid) :: cs =>
      (c < length (y_cons y))%nat /\ (pid = -1 \/ unused pid (y_procs y))
      /\ forall y', reset_console c fits pid y = Ok y' -> resets_ok cs y'
  end.

Definition event_ok (y : sys) (e : event) : Prop :=
  match e with
  | Tick _ | Leads _ | Ends _ => True
  | Reset cs => resets_ok cs y
  | Expire c => (c < length (y_cons y))%nat
  | Born pid _ => unused pid (y_procs y)
  end.

(** a state reached by a daemon with [n] consoles *)
Inductive reached (n : nat) : sys -> Prop :=
| R_start now : reached n (start now n)
| R_step y e y' : reached n y -> event_ok y e -> step e y = Ok y' -> reached n y'.

(** the shell of reset number [no] is running *)
Definition shell_runs (no : nat) (y : sys) : Prop :=
  exists p, In p (y_procs y) /\ p_shell p = true /\ p_from p = Some no.
