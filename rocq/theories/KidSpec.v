(** Processes beside the consoles, for KidProps (C69): who has which process number at the moment
    of a kill().  The kernel gives a number to a new process once the process that had it is
    gone; children that end are waited for at once by the handler of SIGCHLD
    (server.c:373-379), whatever the console knows about it. *)
From Verif Require Import Base ReconnModel ReconnSpec.
Open Scope Z_scope.

(** A process: its number, and the console whose program it is, if any. *)
Record proc := mkProc { k_pid : Z; k_of : option nat }.

(** What happens, newest first: what the daemon does to its consoles; a process that ends (and
    is waited for); a new process that has nothing to do with the consoles. *)
Inductive kev := Does (t : Z) (e : effect) | Ends (p : Z) | Born (p : Z).

(** What the daemon did. *)
Fixpoint done (h : list kev) : list (Z * effect) :=
  match h with [] => [] | Does t e :: h => (t, e) :: done h | _ :: h => done h end.
Definition gone (p : Z) (l : list proc) : list proc := filter (fun q => negb (k_pid q =? p)) l.
(** The processes there are. *)
Fixpoint alive (h : list kev) : list proc :=
  match h with
  | [] => []
  | Does _ (Forked c p) :: h => mkProc p (Some c) :: alive h
  | Does _ (Killed _ p) :: h => gone p (alive h)
  | Does _ _ :: h => alive h
  | Ends p :: h => gone p (alive h)
  | Born p :: h => mkProc p None :: alive h
  end.
(** The processes that are killed, with the console on whose account. *)
Fixpoint struck (h : list kev) : list (nat * proc) :=
  match h with
  | [] => []
  | Does _ (Killed c p) :: h => map (fun q => (c, q)) (filter (fun q => k_pid q =? p) (alive h)) ++ struck h
  | _ :: h => struck h
  end%list.
(** The number that a new process gets. *)
Definition fresh_of (x : kev) : option Z :=
  match x with Does _ (Forked _ p) => Some p | Born p => Some p | _ => None end.
(** What the kernel promises: the number of a new process is nobody else's. *)
Definition numbers_free (h : list kev) : Prop :=
  forall newer x older p, h = (newer ++ x :: older)%list -> fresh_of x = Some p -> ~ In p (map k_pid (alive older)).
(** What it does not: that the number is none that a console still remembers. *)
Definition not_remembered (h : list kev) : Prop :=
  forall newer x older p, h = (newer ++ x :: older)%list -> fresh_of x = Some p -> forall c, child c (done older) <> Some p.
