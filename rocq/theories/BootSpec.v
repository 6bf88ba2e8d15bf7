(** Specification of the start of the daemon. *)
From Coq Require Import String.
From Verif Require Import Base Chars BootModel.
Local Open Scope nat_scope.

(** An error message and what a user sees of it: one line, cut if it is very long. *)
Definition words (m : msg) : list Z := m_text m ++ match m_err m with Some e => zs ": " ++ e | None => [] end.
Definition err_line (m : msg) : list Z := firstn (Z.to_nat 1002) (zs "ERROR:     " ++ words m) ++ [LF].
Definition line_ok (s : list Z) : Prop := chars_ok s /\ ~ In LF s.
Definition msg_ok (m : msg) : Prop :=
  m_fmt m <> [] /\ last (m_fmt m) 0%Z <> LF /\ m_text m <> [] /\ line_ok (m_text m) /\ forall e, m_err m = Some e -> line_ok e.
(** A time such as "2026-11-16 23:30:00 ". *)
Definition stamp_ok (s : list Z) : Prop := chars_ok s /\ length s = 20.

(** The call that a process which still reports to the parent is about to make, by the
    message of its failure. *)
Definition calls (p : option proc) : option msg :=
  match p with
  | Some p => if p_rep p then match p_pc p with Run (Call m :: _) | Run (Fork m :: _) => Some m | _ => None end else None
  | None => None
  end.

(** The start-up call that fails in an event: one of the parent before it waits, of the
    child, or of the daemon until it is detached. *)
Definition fault (m_pipe m_fork : msg) (s : st) (e : ev) : option msg :=
  match e with
  | Step Parent false => match pp s with PPipe => Some m_pipe | PFork => Some m_fork | _ => None end
  | Step Child false => calls (ch s)
  | Step Daemon false => calls (gc s)
  | _ => None
  end.
(** Nothing else goes wrong: nobody is killed, the pipe works, and the daemon does not fail
    later on. *)
Definition calm (m_pipe m_fork : msg) (s : st) (e : ev) : Prop :=
  match e with Step _ true => True | Step _ false => fault m_pipe m_fork s e <> None | Kill _ => False end.

(** A run, with the calls that have failed in it. *)
Inductive goes (m_pipe m_fork : msg) (step : st -> ev -> option st) (s0 : st) : nat -> list msg -> st -> Prop :=
| Goes_start : goes m_pipe m_fork step s0 0 [] s0
| Goes_step n l s e s' : goes m_pipe m_fork step s0 n l s -> calm m_pipe m_fork s e -> step s e = Some s' ->
    goes m_pipe m_fork step s0 (S n) (l ++ match fault m_pipe m_fork s e with Some m => [m] | None => [] end) s'.

(** The daemon has started: it is detached, and all that may fail is to open its consoles. *)
Definition started (w3 : list msg) (s : st) : Prop :=
  match gc s with Some p => (p_pc p = Serving \/ exists k, p_pc p = Run (map Call (skipn k w3))) /\ p_end p = false | None => False end.
Definition gone (p : option proc) : Prop := match p with Some p => exists c, p_pc p = Exit c | None => True end.
