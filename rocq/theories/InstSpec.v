(** What is expected of daemons that share a configuration, a PID file or logs. *)
From Verif Require Import Base InstModel.
Local Open Scope Z_scope.

(** ** Configurations *)
(** nothing runs yet; the file is [f], the PID file may be left from earlier *)
Definition idle (f : nat) (pf : option Z) : world := mkWorld f [] [] pf.
(** a daemon of the file [f] that has found no other *)
Definition running (w : world) (p : Z) (f : nat) : Prop := exists s, look p (procs w) = Some (f, s) /\ (s = Passed \/ s = Up \/ s = Leaving).
Definition up (w : world) (p : Z) : Prop := exists f, look p (procs w) = Some (f, Up).
Definition alive (w : world) (p : Z) : Prop := look p (procs w) <> None.
(** other programs have no locks that hide who they are; they have none at all *)
Definition visible (o : op) : Prop := match o with Foreign _ x _ _ => 0 < x | _ => True end.
Definition alone (o : op) : Prop := match o with Foreign _ _ _ _ => False | _ => True end.
(** the configuration is not replaced *)
Definition kept (o : op) : Prop := match o with Replace _ => False | _ => True end.
Definition orderly (o : op) : Prop := match o with Die _ => False | _ => True end.
(** a start, uninterrupted *)
Definition whole_start (p : Z) (pick : nat) : list op := [Start p; Lock_ p; Test p pick; GiveUp p; Write p].

(** ** Logs *)
Definition no_logs (t : nat -> list Z) : logs := mkLogs [] [] t.
Definition has_log (s : logs) (p : Z) (o f : nat) : Prop := In (p, o, f) (g_fds s).
(** Each log is locked, and no process opens a file that one of its other logs has open; nor
    the daemon's own log as long as it is the same file. *)
Definition apart (s : logs) (o : log_op) : Prop :=
  match o with
  | Console p i (Some f) _ lk => lk = true /\ (forall j, has_log s p j f -> j = S i)
  | Console p i None _ lk => True
  | Daemon p (Some f) _ => forall j, ~ has_log s p j f
  | _ => True
  end.
Fixpoint all_apart (s : logs) (l : list log_op) : Prop :=
  match l with [] => True | o :: l => apart s o /\ all_apart (log_step s o) l end.
(** an operation of another process than [p], which does not empty files *)
Definition harmless (p : Z) (o : log_op) : Prop :=
  match o with
  | Console q _ _ z _ | Daemon q _ z => q <> p /\ z = false
  | Writes q _ _ | Ends q => q <> p
  end.
