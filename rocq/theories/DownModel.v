(** Model of what the signals SIGHUP and SIGTERM make the daemon do (src/server.c), of how it
    stops (src/server.c, src/server-conf.c, src/server-obj.c, src/tpoll.c), and of a daemon that
    starts while another one stops. *)
From Verif Require Import Base.

(** ** The main loop and the flags that signal handlers set *)
(** server.c:769-822.  Where the main thread is: at the test of [done] (769), at the test of
    [reconfig] (771), about to reopen the log [k] (940-946; the consoles' logs, then the daemon's
    own, 949-951), about to clear [reconfig] (778), about to call poll() (780), in poll(), after
    it (788-821), after the loop. *)
Inductive pc := ADone | AReconfig | Reopening (k : nat) | AClear | BeforePoll | InPoll | Serving | Out.
(** server.c:78-79 *)
Record loop := mkLoop { l_pc : pc; l_done : bool; l_reconfig : bool }.
(** What happens: the main thread takes a step, a signal is delivered, something is ready for
    poll(). *)
Inductive sig := SigHup | SigTerm | SigChld.
Inductive happening := Step | Signal (s : sig) | Ready.

(** server.c:382-393, 373-379: the handlers *)
Definition handler (s : sig) (l : loop) : loop :=
  match s with
  | SigHup => mkLoop (l_pc l) (l_done l) true
  | SigTerm => mkLoop (l_pc l) true (l_reconfig l)
  | SigChld => l
  end.
(** One step with [logs] logs: the new state, and the log that was opened again, if any.  Nothing
    but a signal or something ready gets the thread out of poll(); an interrupted poll() is
    called again unless a flag is set (780-787). *)
Definition loop_step (logs : nat) (l : loop) (h : happening) : loop * list nat :=
  let go p := (mkLoop p (l_done l) (l_reconfig l), []) in
  match h with
  | Signal s =>
      let l1 := handler s l in
      match l_pc l with
      | InPoll => (if l_done l1 || l_reconfig l1 then mkLoop Serving (l_done l1) (l_reconfig l1) else l1, [])
      | _ => (l1, [])
      end
  | Ready => match l_pc l with InPoll => go Serving | _ => (l, []) end
  | Step =>
      match l_pc l with
      | ADone => if l_done l then go Out else go AReconfig
      | AReconfig => if l_reconfig l then go (Reopening 0) else go BeforePoll
      | Reopening k => if k <? logs then (mkLoop (Reopening (S k)) (l_done l) (l_reconfig l), [k]) else go AClear
      | AClear => (mkLoop BeforePoll (l_done l) false, [])
      | BeforePoll => go InPoll
      | InPoll => (l, [])
      | Serving => go ADone
      | Out => (l, [])
      end
  end.
Fixpoint loop_run (logs : nat) (l : loop) (hs : list happening) : loop * list nat :=
  match hs with
  | [] => (l, [])
  | h :: hs => let (l1, a) := loop_step logs l h in let (l2, b) := loop_run logs l1 hs in (l2, a ++ b)
  end.
(** server.c:78-79, 157 *)
Definition loop_start : loop := mkLoop ADone false false.

(** ** Letting go *)
(** An object as destroy_obj sees it: its descriptor, and for a client the descriptor that its
    request holds, the same one (server-sock.c:795-800, server-obj.c:402-431). *)
Record thing := mkThing { t_fd : option nat; t_req : option (option nat) }.
(** server.h:300-340: the descriptors of the configuration file and the listening socket, the
    objects, the pipe of the tpoll object *)
Record conf := mkConf { c_pid : bool; c_fd : option nat; c_ld : option nat; c_objs : list thing; c_pipe : nat * nat }.
(** What the program does to the outside and to its memory. *)
Inductive act := Unlink | Close (fd : nat) | UseTp | FreeObj (i : nat) | FreeTp | FreeConf.
Definition close_opt (o : option nat) : list act := match o with Some fd => [Close fd] | None => [] end.
(** common.c:110-121, destroy_req *)
Definition destroy_req (sd : option nat) : list act := close_opt sd.
(** server-obj.c:141-260, destroy_obj: for a client the request loses its descriptor first (166) *)
Definition destroy_obj (i : nat) (t : thing) : list act :=
  match t_req t with Some _ => destroy_req None | None => [] end ++
  match t_fd t with Some fd => [UseTp; Close fd] | None => [] end ++ [FreeObj i].
Fixpoint destroy_objs (i : nat) (ts : list thing) : list act :=
  match ts with [] => [] | t :: ts => destroy_obj i t ++ destroy_objs (S i) ts end.
(** tpoll.c:194-237 *)
Definition tpoll_destroy (p : nat * nat) : list act := [Close (fst p); Close (snd p); FreeTp].
(** server-conf.c:277-320, destroy_server_conf *)
Definition destroy_server_conf (c : conf) : list act :=
  (if c_pid c then [Unlink] else []) ++ close_opt (c_fd c) ++ close_opt (c_ld c) ++ destroy_objs 0 (c_objs c)
  ++ tpoll_destroy (c_pipe c) ++ [FreeConf].

(** The memory and the descriptors.  A thread that serves a new connection (server-sock.c:89-180)
    uses the configuration and the objects. *)
Record mem := mkMem { m_open : list nat; m_objs : list nat; m_tp : bool; m_conf : bool }.
Inductive move := Main | Thread.
Definition perform (m : mem) (a : act) : res mem :=
  match a with
  | Unlink => Ok m
  | Close fd => if existsb (Nat.eqb fd) (m_open m) then Ok (mkMem (remove Nat.eq_dec fd (m_open m)) (m_objs m) (m_tp m) (m_conf m)) else UB OutOfBounds
  | UseTp => if m_tp m then Ok m else UB UseAfterFree
  | FreeObj i => if existsb (Nat.eqb i) (m_objs m) then Ok (mkMem (m_open m) (remove Nat.eq_dec i (m_objs m)) (m_tp m) (m_conf m)) else UB UseAfterFree
  | FreeTp => if m_tp m then Ok (mkMem (m_open m) (m_objs m) false (m_conf m)) else UB UseAfterFree
  | FreeConf => if m_conf m then Ok (mkMem (m_open m) (m_objs m) (m_tp m) false) else UB UseAfterFree
  end.
(** server-sock.c:483, 547, 130, 202: a thread looks at the configuration *)
Definition thread_step (m : mem) : res mem := if m_conf m then Ok m else UB UseAfterFree.
Fixpoint perform_all (m : mem) (acts : list act) (ms : list move) : res (mem * list act) :=
  match ms with
  | [] => Ok (m, acts)
  | Thread :: ms => do m <- thread_step m; perform_all m acts ms
  | Main :: ms => match acts with [] => perform_all m [] ms | a :: acts => do m <- perform m a; perform_all m acts ms end
  end.

(** ** A daemon that starts while another one stops *)
Inductive who := Old | New.
(** [r_lock]: who has the configuration file locked; [r_pid]: whose number the PID file has;
    [r_port]: who listens; [r_held i]: who has the file of object [i] locked (a log, a serial
    device); [r_own]: the daemon's own log file.  Then what is left for the old daemon to do, for
    the new one, whether that gave up, and what it has to do without. *)
Inductive old_act := OUnlink | OUnlock | OPort | OObj (i : nat) | OExit.
Inductive new_act := NLock | NPid | NPort | NOwn | NObj (i : nat).
Record two := mkTwo { r_lock : option who; r_pid : option who; r_port : option who; r_held : nat -> option who; r_own : option who;
  r_old : list old_act; r_new : list new_act; r_failed : bool; r_without : list nat; r_logless : bool }.
(** server-conf.c:282-304, server.c:163-176: [n] objects *)
Definition stopping (n : nat) : list old_act := [OUnlink; OUnlock; OPort] ++ map OObj (seq 0 n) ++ [OExit].
(** server-conf.c:409-417 (the lock), 473-478; server.c:128, 134, 156 *)
Definition starting (n : nat) : list new_act := [NLock; NPid; NPort; NOwn] ++ map NObj (seq 0 n).
Definition without (r : option who) : option who := match r with Some Old => None | r => r end.
Definition set_held (f : nat -> option who) (i : nat) (v : option who) : nat -> option who := fun j => if j =? i then v else f j.
Definition old_step (s : two) : two :=
  match r_old s with
  | [] => s
  | a :: rest =>
      match a with
      | OUnlink => mkTwo (r_lock s) None (r_port s) (r_held s) (r_own s) rest (r_new s) (r_failed s) (r_without s) (r_logless s)
      | OUnlock => mkTwo (without (r_lock s)) (r_pid s) (r_port s) (r_held s) (r_own s) rest (r_new s) (r_failed s) (r_without s) (r_logless s)
      | OPort => mkTwo (r_lock s) (r_pid s) (without (r_port s)) (r_held s) (r_own s) rest (r_new s) (r_failed s) (r_without s) (r_logless s)
      | OObj i => mkTwo (r_lock s) (r_pid s) (r_port s) (set_held (r_held s) i (without (r_held s i))) (r_own s) rest (r_new s) (r_failed s) (r_without s) (r_logless s)
      | OExit => mkTwo (r_lock s) (r_pid s) (r_port s) (r_held s) (without (r_own s)) rest (r_new s) (r_failed s) (r_without s) (r_logless s)
      end
  end.
(** Giving up: log_err ends the process, which lets go of all but the PID file. *)
Definition without_new (r : option who) : option who := match r with Some New => None | r => r end.
Definition give_up (s : two) : two :=
  mkTwo (without_new (r_lock s)) (r_pid s) (without_new (r_port s)) (fun i => without_new (r_held s i)) (without_new (r_own s)) (r_old s) [] true (r_without s) (r_logless s).
Definition new_step (s : two) : two :=
  match r_new s with
  | [] => s
  | a :: rest =>
      match a with
      | NLock => match r_lock s with
                 | None => mkTwo (Some New) (r_pid s) (r_port s) (r_held s) (r_own s) (r_old s) rest (r_failed s) (r_without s) (r_logless s)
                 | Some _ => give_up s
                 end
      | NPid => mkTwo (r_lock s) (Some New) (r_port s) (r_held s) (r_own s) (r_old s) rest (r_failed s) (r_without s) (r_logless s)
      | NPort => match r_port s with                              (* server.c:666-668 *)
                 | None => mkTwo (r_lock s) (r_pid s) (Some New) (r_held s) (r_own s) (r_old s) rest (r_failed s) (r_without s) (r_logless s)
                 | Some _ => give_up s
                 end
      | NOwn => match r_own s with                                (* server.c:895-898, 915-929 *)
                | None => mkTwo (r_lock s) (r_pid s) (r_port s) (r_held s) (Some New) (r_old s) rest (r_failed s) (r_without s) (r_logless s)
                | Some _ => mkTwo (r_lock s) (r_pid s) (r_port s) (r_held s) (r_own s) (r_old s) rest (r_failed s) (r_without s) true
                end
      | NObj i => match r_held s i with                           (* server-logfile.c:283-289, server-serial.c:406-410 *)
                  | None => mkTwo (r_lock s) (r_pid s) (r_port s) (set_held (r_held s) i (Some New)) (r_own s) (r_old s) rest (r_failed s) (r_without s) (r_logless s)
                  | Some _ => mkTwo (r_lock s) (r_pid s) (r_port s) (r_held s) (r_own s) (r_old s) rest (r_failed s) (r_without s ++ [i]) (r_logless s)
                  end
      end
  end.
Definition two_step (s : two) (w : who) : two := match w with Old => old_step s | New => new_step s end.
Definition two_run (s : two) (ws : list who) : two := fold_left two_step ws s.
(** The old daemon holds everything and is about to stop; [n] objects, the new daemon's have the
    same files. *)
Definition restart (n : nat) : two :=
  mkTwo (Some Old) (Some Old) (Some Old) (fun i => if i <? n then Some Old else None) (Some Old) (stopping n) (starting n) false [] false.

(** ** The daemon's children *)
(** A process: its number, its group, what it is. *)
Inductive role := Daemon | Program (console : nat) | ResetCmd (console : nat) | Stranger.
Record proc := mkProc { p_id : nat; p_group : nat; p_role : role }.
(** What happens to processes.  [Start]: server-process.c:328-349, the child stays in the group.
    [Reset]: server-esc.c:463-492, the child gets its own.  [Elsewhere]: another process appears,
    in a group of its own session.  [End]: a process ends.  [id]: the number that the kernel
    gives, not in use as the number of a process or a group. *)
Inductive pop := Start (id console : nat) | Reset (id console : nat) | Elsewhere (id group : nat) | End (id : nat).
Definition used (id : nat) (ps : list proc) : bool := existsb (fun p => (p_id p =? id) || (p_group p =? id)) ps.
(** [g]: the daemon's group.  In another session a group is the process's own number or one that
    exists in that session (setpgid(2)). *)
Definition pstep (g : nat) (ps : list proc) (x : pop) : list proc :=
  match x with
  | Start id c => if used id ps then ps else ps ++ [mkProc id g (Program c)]
  | Reset id c => if used id ps then ps else ps ++ [mkProc id id (ResetCmd c)]
  | Elsewhere id h =>
      if used id ps then ps
      else if (h =? id) || existsb (fun p => (p_group p =? h) && match p_role p with Stranger => true | _ => false end) ps
           then ps ++ [mkProc id h Stranger] else ps
  | End id => filter (fun p => negb (p_id p =? id)) ps
  end.
Definition prun (g : nat) (ps : list proc) (xs : list pop) : list proc := fold_left (pstep g) xs ps.
(** server.c:94, 109, 165-170: who gets SIGTERM when the daemon stops.  [detached]: not started
    with -F, so that [pgid] is the daemon's group (begin_daemonize, 252-255); otherwise it is -1. *)
Definition signalled (detached : bool) (g : nat) (ps : list proc) : list proc :=
  if detached then filter (fun p => p_group p =? g) ps else [].
