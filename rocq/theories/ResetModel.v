(** Model of the console reset command: server-esc.c:424-550 (perform_reset,
    kill_reset_cmd), with the processes of the system.

    Simplifications.  Timers fire exactly through the event [Expire], which does
    nothing before the timer is due (for the timer queue see TpollModel; creating
    a timer does not fail).  The texts of notifications and the descriptors of the
    child are left out. *)
From Verif Require Import Base.
Set Implicit Arguments.
Open Scope Z_scope.

(** A process: its number and its group, and, for the statements only, the reset
    it descends from ([p_from], counting all resets) and whether it is the shell
    started by that reset. *)
Record proc := mkProc { p_pid : Z; p_grp : Z; p_from : option nat; p_shell : bool }.

(** server.h:263-265, the fields resetCmdPid and resetCmdTimer of a console; the
    timer is kept as the time it is due, in milliseconds.  [r_no]: the number of
    the console's last reset, for the statements only. *)
Record con := mkCon { r_pid : Z; r_timer : option Z; r_no : option nat }.

(** What can be observed: a reset begins, a reset is ignored because the last one
    is "still active", the timer of a reset signals a process group. *)
Inductive note :=
| Began (t : Z) (c : nat) (no : nat) (pid : Z)
| Ignored (t : Z) (c : nat)
| Signalled (t : Z) (c : nat) (pid : Z).

Record sys := mkSys {
  y_now : Z;
  y_procs : list proc;
  y_cons : list con;
  y_count : nat;
  y_notes : list note }.

(** server.h:72 *)
Definition RESET_CMD_TIMEOUT := 60.

Fixpoint set_at {A} (l : list A) (c : nat) (x : A) : list A :=
  match l, c with
  | [], _ => []
  | _ :: l', O => x :: l'
  | y :: l', S c' => y :: set_at l' c' x
  end.

(** kill(pid, 0) *)
Definition alive (ps : list proc) (pid : Z) : bool := existsb (fun p => p_pid p =? pid) ps.

(** kill(-pid, SIGKILL): every process of the group; their parents reap them *)
Definition kill_group (ps : list proc) (g : Z) : list proc := filter (fun p => negb (p_grp p =? g)) ps.

(** server-esc.c:447-507, the body of the loop of perform_reset for one console.
    [fits]: format_obj_string() succeeds; [pid]: the result of fork().  The group
    of the child is set by the child (471) or its parent (492), whichever runs
    first. *)
Definition reset_console (c : nat) (fits : bool) (pid : Z) (y : sys) : res sys :=
  match nth_error (y_cons y) c with
  | None => UB NullDeref
  | Some x =>
      if 0 <? r_pid x then
        Ok (mkSys (y_now y) (y_procs y) (y_cons y) (y_count y) (Ignored (y_now y) c :: y_notes y))
      else if fits then
        if pid <? 0 then
          Ok (mkSys (y_now y) (y_procs y) (set_at (y_cons y) c (mkCon pid (r_timer x) (r_no x)))
                (y_count y) (y_notes y))
        else
          Ok (mkSys (y_now y) (mkProc pid pid (Some (y_count y)) true :: y_procs y)
                (set_at (y_cons y) c (mkCon pid (Some (y_now y + RESET_CMD_TIMEOUT * 1000)) (Some (y_count y))))
                (S (y_count y)) (Began (y_now y) c (y_count y) pid :: y_notes y))
      else Ok y
  end.

(** server-esc.c:424-517, perform_reset: [cs] are the consoles the client writes
    to, with the results of the calls made for each *)
Fixpoint perform_reset (cs : list (nat * bool * Z)) (y : sys) : res sys :=
  match cs with
  | [] => Ok y
  | (c, fits, pid) :: cs => do y <- reset_console c fits pid y; perform_reset cs y
  end.

(** server-esc.c:520-550, kill_reset_cmd, run by the console's timer *)
Definition kill_reset_cmd (c : nat) (y : sys) : res sys :=
  match nth_error (y_cons y) c with
  | None => UB NullDeref
  | Some x =>
      let y1 := mkSys (y_now y) (y_procs y) (set_at (y_cons y) c (mkCon 0 None (r_no x))) (y_count y) (y_notes y) in
      if r_pid x <=? 0 then Ok y1
      else if alive (y_procs y) (r_pid x) then
        Ok (mkSys (y_now y) (kill_group (y_procs y) (r_pid x)) (y_cons y1) (y_count y)
              (Signalled (y_now y) c (r_pid x) :: y_notes y))
      else Ok y1
  end.

(** What happens: time passes; a client asks for a reset; the timer of a console
    expires; a process starts another one, becomes the leader of its own group, or
    ends.  Processes that started before are modelled by [Born] without a parent. *)
Inductive event :=
| Tick (ms : Z)
| Reset (cs : list (nat * bool * Z))
| Expire (c : nat)
| Born (pid : Z) (parent : option Z)
| Leads (pid : Z)
| Ends (pid : Z).

Definition is_pid (pid : Z) (p : proc) : bool := p_pid p =? pid.

Definition step (e : event) (y : sys) : res sys :=
  let with_procs ps := mkSys (y_now y) ps (y_cons y) (y_count y) (y_notes y) in
  match e with
  | Tick ms => Ok (if 0 <? ms then mkSys (y_now y + ms) (y_procs y) (y_cons y) (y_count y) (y_notes y) else y)
  | Reset cs => perform_reset cs y
  | Expire c =>
      match nth_error (y_cons y) c with
      | None => UB NullDeref
      | Some x => match r_timer x with
                  | None => Ok y
                  | Some due => if y_now y <? due then Ok y else kill_reset_cmd c y
                  end
      end
  | Born pid None => Ok (with_procs (mkProc pid pid None false :: y_procs y))
  | Born pid (Some par) =>
      match find (is_pid par) (y_procs y) with
      | None => Ok y
      | Some p => Ok (with_procs (mkProc pid (p_grp p) (p_from p) false :: y_procs y))
      end
  | Leads pid =>
      Ok (with_procs (map (fun p => if is_pid pid p then mkProc pid pid (p_from p) (p_shell p) else p) (y_procs y)))
  | Ends pid => Ok (with_procs (filter (fun p => negb (is_pid pid p)) (y_procs y)))
  end.

(** server-obj.c:90-95, create_obj *)
Definition start (now : Z) (n : nat) : sys := mkSys now [] (repeat (mkCon 0 None None) n) 0 [].

Fixpoint run (es : list event) (y : sys) : res sys :=
  match es with
  | [] => Ok y
  | e :: es => do y <- step e y; run es y
  end.
