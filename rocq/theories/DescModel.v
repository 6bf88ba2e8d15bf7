(** Model of the descriptors of the daemon: which system calls each function makes that opens,
    marks, watches or closes one, in which order, in any number of threads, and which of them
    are there in the programs that are started. *)
From Verif Require Import Base.
Local Open Scope Z_scope.

(** ** Descriptors *)
(** What is behind a descriptor. *)
Inductive what :=
  Inherited | TpollPipe | StartPipe | Config | PidFile | Listen | DaemonLog | Notify | Null |
  Client | TelnetSock | UnixSock | ConsoleEnd | ProgramEnd | SerialLine | IpmiSock | TestNull | ConsoleLog.
(** A descriptor: what it refers to, a number for the open file, O_NONBLOCK (of the open file),
    FD_CLOEXEC (of the descriptor). *)
Record dsc := mkDsc { d_what : what; d_id : nat; d_nb : bool; d_ce : bool }.
(** The table of the process. *)
Definition tab := list (Z * dsc).
Fixpoint find (fd : Z) (t : tab) : option dsc :=
  match t with [] => None | (n, d) :: t => if fd =? n then Some d else find fd t end.
Fixpoint put (fd : Z) (d : dsc) (t : tab) : tab :=
  match t with [] => [] | (n, e) :: t => if fd =? n then (n, d) :: t else (n, e) :: put fd d t end.
Definition drop (fd : Z) (t : tab) : tab := filter (fun e => negb (fd =? fst e)) t.
Definition is_open (fd : Z) (t : tab) : bool := match find fd t with Some _ => true | None => false end.
(** The lowest number that is free, as POSIX prescribes. *)
Fixpoint lowest (n : nat) (fd : Z) (t : tab) : Z :=
  match n with O => fd | S n => if is_open fd t then lowest n (fd + 1) t else fd end.
Definition fresh (t : tab) : Z := lowest (length t) 0 t.

(** ** System calls *)
(** The steps of the child between fork() and exec(). *)
Inductive cstep := CClose (fd : Z) | CDup (from to : Z).
Inductive call :=
| Open (w : what) (nb : bool)      (* open(), fopen(), socket(), accept(), inotify_init(): a descriptor *)
| Pair (a b : what)                (* pipe(), socketpair() *)
| Cloexec (fd : Z)                 (* fcntl(F_SETFD, FD_CLOEXEC) *)
| Nonblock (fd : Z)                (* fcntl(F_SETFL, flags | O_NONBLOCK) *)
| Blocking (fd : Z)                (* fcntl(F_SETFL, flags & ~O_NONBLOCK) *)
| Watch (fd : Z)                   (* tpoll_set() *)
| Unwatch (fd : Z)                 (* tpoll_clear() of POLLIN and POLLOUT *)
| Close (fd : Z)
| Dup (from to : Z)                (* dup2() *)
| Start (child : list cstep)       (* fork(), and exec() in the child *)
| Try                              (* any other call that may fail *)
| Own (fd : Z)                     (* the object's fd is set, the object is on the list of objects *)
| File (fd : Z).                   (* the descriptor is kept outside the list of objects *)
(** Whether it succeeded, and the descriptors it made. *)
Record answer := mkAns { ok : bool; fd1 : Z; fd2 : Z }.
(** A function as a program: what it does next, depending on the answers so far.  [Die]:
    log_err(), which ends the process.  [Thread]: pthread_create(). *)
Inductive prog := Ret | Die | Do (c : call) (k : answer -> prog) | Thread (p : prog) (k : answer -> prog).
Definition seq (c : call) (p : prog) : prog := Do c (fun _ => p).

(** ** The functions *)
(** util-file.c:47-54 *)
Definition set_fd_closed_on_exec (fd : Z) (p : prog) : prog := Do (Cloexec fd) (fun a => if ok a then p else Die).
(** util-file.c:57-68, 71-82 *)
Definition set_fd_blocking (fd : Z) (p : prog) : prog :=
  Do Try (fun a => if ok a then Do (Blocking fd) (fun a => if ok a then p else Die) else Die).
Definition set_fd_nonblocking (fd : Z) (p : prog) : prog :=
  Do Try (fun a => if ok a then Do (Nonblock fd) (fun a => if ok a then p else Die) else Die).
(** A call whose failure is fatal. *)
Definition must (p : prog) : prog := Do Try (fun a => if ok a then p else Die).

(** The descriptor an object has is given up: server-telnet.c:308-315, server-unixsock.c:337-343,
    server-process.c:272-276, server-test.c:247-254, server-ipmi.c:829-837, server-logfile.c:241-247,
    server-obj.c:247-253 and 819-824.  For a failure of close() there is but a message. *)
Definition let_go (old : option Z) (p : prog) : prog :=
  match old with None => p | Some fd => seq (Unwatch fd) (seq (Close fd) p) end.
(** server-serial.c:389-398: with the settings of the line restored in between *)
Definition let_go_serial (old : option Z) (p : prog) : prog :=
  match old with None => p | Some fd => seq (Unwatch fd) (Do Try (fun a => if ok a then seq (Close fd) p else Die)) end.

(** server-telnet.c:186-269, 302-330: the name may not be resolved; connect() succeeds, is in
    progress, or fails *)
Definition connect_telnet_obj (old : option Z) : prog :=
  let_go old (Do Try (fun a => if negb (ok a) then Ret else
    Do (Open TelnetSock false) (fun a => if negb (ok a) then Die else
    let fd := fd1 a in
    must (must (set_fd_nonblocking fd (set_fd_closed_on_exec fd (Do Try (fun a =>
      if ok a then seq (Watch fd) (seq (Own fd) Ret)
      else seq (Unwatch fd) (seq (Close fd) Ret))))))))).
(** server-unixsock.c:219-312 *)
Definition connect_unixsock_obj (old : option Z) : prog :=
  let_go old (Do Try (fun a => if negb (ok a) then Ret else
    Do (Open UnixSock false) (fun a => if negb (ok a) then Ret else
    let fd := fd1 a in
    set_fd_nonblocking fd (set_fd_closed_on_exec fd (Do Try (fun a =>
      if ok a then seq (Watch fd) (seq (Own fd) Ret)
      else seq (Unwatch fd) (seq (Close fd) Ret))))))).
(** server-process.c:335-348: the child *)
Definition process_child (fd0 fd1 : Z) : list cstep := [CClose fd0; CDup fd1 0; CDup fd1 1; CDup fd1 2].
(** server-process.c:298-386, 389-420 (check_process_prog) *)
Definition connect_process_obj (old : option Z) : prog :=
  let_go old (Do Try (fun a => if negb (ok a) then Ret else
    Do (Pair ConsoleEnd ProgramEnd) (fun a => if negb (ok a) then Ret else
    let f0 := fd1 a in let f1 := fd2 a in
    set_fd_nonblocking f0 (set_fd_nonblocking f1 (set_fd_closed_on_exec f0 (set_fd_closed_on_exec f1
      (Do (Start (process_child f0 f1)) (fun a =>
        if negb (ok a) then seq (Close f0) (seq (Close f1) Ret)
        else Do (Close f1) (fun a => if negb (ok a) then Die else
          must (seq (Watch f0) (seq (Own f0) Ret))))))))))).
(** server-serial.c:377-456 *)
Definition open_serial_obj (old : option Z) : prog :=
  let_go_serial old (Do (Open SerialLine true) (fun a => if negb (ok a) then Ret else
    let fd := fd1 a in
    Do Try (fun a => if negb (ok a) then seq (Close fd) Ret else          (* the lock *)
    Do Try (fun a => if negb (ok a) then seq (Close fd) Ret else          (* isatty() *)
    set_fd_nonblocking fd (set_fd_closed_on_exec fd (must
      (seq (Watch fd) (seq (Own fd) Ret)))))))).
(** server-test.c:229-278 *)
Definition open_test_obj (old : option Z) : prog :=
  let_go old (Do (Open TestNull true) (fun a => if negb (ok a) then Ret else
    let fd := fd1 a in set_fd_nonblocking fd (set_fd_closed_on_exec fd (seq (Own fd) Ret)))).
(** server-ipmi.c:813-850, 993-1040.  The library's descriptor counts as opened when
    ipmiconsole_ctx_fd() hands it out. *)
Definition connect_ipmi_obj (old : option Z) : prog :=
  let_go old (Do Try (fun a => if negb (ok a) then Ret else
    Do (Open IpmiSock false) (fun a => if negb (ok a) then Ret else
    let fd := fd1 a in set_fd_nonblocking fd (set_fd_closed_on_exec fd (seq (Watch fd) (seq (Own fd) Ret)))))).
(** server-logfile.c:227-310 *)
Definition open_logfile_obj (lock : bool) (old : option Z) : prog :=
  let_go old (Do Try (fun a => if negb (ok a) then Ret else               (* the name *)
    Do (Open ConsoleLog true) (fun a => if negb (ok a) then Ret else
    let fd := fd1 a in
    let rest := set_fd_nonblocking fd (set_fd_closed_on_exec fd (seq (Own fd) Ret)) in
    if lock then Do Try (fun a => if ok a then rest else seq (Close fd) Ret) else rest))).
(** server.c:845-927 *)
Definition open_daemon_logfile (old : option Z) (p : prog) : prog :=
  let old_closed q := match old with None => q | Some fd => seq (Close fd) q end in
  let err q := old_closed q in
  Do Try (fun a => if negb (ok a) then err p else                         (* the name *)
  Do (Open DaemonLog false) (fun a => if negb (ok a) then err p else
    let fd := fd1 a in
    Do Try (fun a => if negb (ok a) then seq (Close fd) (err p) else      (* the lock *)
    set_fd_closed_on_exec fd (old_closed (seq (File fd) p))))).
(** inevent.c:355-384 *)
Definition inevent_init : prog :=
  Do (Open Notify false) (fun a => if negb (ok a) then Ret else
    let fd := fd1 a in
    set_fd_closed_on_exec fd (set_fd_nonblocking fd (Do Try (fun a =>
      if ok a then seq (Own fd) Ret else seq (Close fd) Ret)))).
(** An object's descriptor is watched (again) for output or input: server-obj.c:1057, server.c:765 *)
Definition watch_obj (fd : Z) : prog := seq (Watch fd) (seq (Own fd) Ret).
(** ... or no longer: server-obj.c:922 and 1170, server-esc.c:565 *)
Definition unwatch_obj (fd : Z) : prog := seq (Unwatch fd) (seq (Own fd) Ret).
(** server-obj.c:247-253, 819-824: a client leaves, or a console is shut down *)
Definition close_obj (fd : Z) : prog := let_go (Some fd) Ret.

(** server-obj.c:117-119 *)
Definition create_client_obj (sd : Z) : prog :=
  set_fd_nonblocking sd (set_fd_closed_on_exec sd (seq (Watch sd) (must (seq (Own sd) Ret)))).
(** common.c:110-121: the request is destroyed *)
Definition destroy_req (sd : Z) : prog := Do (Close sd) (fun a => if ok a then Ret else Die).
(** server-sock.c:87-156: resolve_addr() (a failing getpeername() is fatal), then the steps from
    the greeting to the answer, each of which may fail; then the request was a query and is
    finished (801-823), or the connection becomes an object (826-905).  The consoles that the
    thread opens after that (check_console_state, 908-1030) are further functions it runs. *)
Definition process_client (query : bool) (sd : Z) : prog :=
  let step p := Do Try (fun a => if ok a then p else destroy_req sd) in
  must (step (step (step (step (step (step (if query then destroy_req sd else create_client_obj sd))))))).
(** server.c:956-1018 *)
Definition accept_client (query : bool) : prog :=
  Do (Open Client false) (fun a => if negb (ok a) then Ret else
    let sd := fd1 a in
    set_fd_blocking sd (must (Thread (process_client query sd) (fun a => if ok a then Ret else Die)))).

(** server-esc.c:470-487: the child *)
Definition reset_child (null : Z) : list cstep :=
  if null <? 0 then [CClose 0; CClose 1; CClose 2]
  else [CDup null 0; CDup null 1; CDup null 2] ++ (if 2 <? null then [CClose null] else []).
(** server-esc.c:422-516, for [n] consoles *)
Fixpoint resets (n : nat) (null : Z) (p : prog) : prog :=
  match n with O => p | S n => seq (Start (reset_child null)) (resets n null p) end.
Definition perform_reset (n : nat) : prog :=
  Do (Open Null false) (fun a =>
    if ok a then resets n (fd1 a) (seq (Close (fd1 a)) Ret) else resets n (-1) Ret).

(** ** Starting *)
(** tpoll.c:162-175; server-conf.c:234: a failure is fatal *)
Definition tpoll_create (p : prog) : prog :=
  Do (Pair TpollPipe TpollPipe) (fun a => if negb (ok a) then Die else
    let a0 := fd1 a in let a1 := fd2 a in
    set_fd_nonblocking a0 (set_fd_closed_on_exec a0 (set_fd_nonblocking a1 (set_fd_closed_on_exec a1
      (seq (File a0) (seq (File a1) p)))))).
(** server.c:206-246, in the grandchild: the write end of the pipe *)
Definition begin_daemonize (k : Z -> prog) : prog :=
  Do (Pair StartPipe StartPipe) (fun a => if negb (ok a) then Die else
    let r := fd1 a in let w := fd2 a in
    must (Do (Close r) (fun a => if ok a then must (must (k w)) else Die))).
(** server-conf.c:382-433 *)
Definition process_config (p : prog) : prog :=
  Do (Open Config false) (fun a => if negb (ok a) then Die else
    let fd := fd1 a in must (set_fd_closed_on_exec fd (must (seq (File fd) p)))).
(** server-conf.c:1519-1572: written and closed, or not *)
Definition write_pidfile (p : prog) : prog :=
  Do (Open PidFile false) (fun a => if ok a then seq (Close (fd1 a)) p else p).
(** server.c:637-684 *)
Definition create_listen_socket (p : prog) : prog :=
  Do (Open Listen false) (fun a => if negb (ok a) then Die else
    let ld := fd1 a in
    set_fd_nonblocking ld (set_fd_closed_on_exec ld (must (must (must (must
      (seq (Watch ld) (seq (Own ld) p)))))))).
(** server.c:284-323 *)
Definition end_daemonize (w : Z) (p : prog) : prog :=
  must (Do (Open Null false) (fun a => if negb (ok a) then Die else
    let n := fd1 a in
    let dup to q := Do (Dup n to) (fun a => if ok a then q else Die) in
    dup 0 (dup 1 (dup 2 (Do (Close n) (fun a => if negb (ok a) then Die else
      Do (Close w) (fun a => if ok a then p else Die))))))).
(** server.c:92-155, up to open_objs(); [fg]: in the foreground, [pid] and [log]: a PID file and a
    log file are configured *)
Definition startup (fg pid log : bool) : prog :=
  tpoll_create (
  let conf p := process_config (if pid then write_pidfile p else p) in
  if fg then conf (create_listen_socket Ret)
  else begin_daemonize (fun w => conf (create_listen_socket
         ((if log then open_daemon_logfile None else (fun p => p)) (end_daemonize w Ret))))).

(** ** The process *)
(** The jobs that the main thread (in mux_io, server.c:755-842) and the threads of clients do.
    [old]: the descriptor that the object has so far. *)
Inductive job :=
| JTelnet (old : option Z) | JUnix (old : option Z) | JProcess (old : option Z) | JSerial (old : option Z)
| JTest (old : option Z) | JIpmi (old : option Z) | JLog (lock : bool) (old : option Z)
| JDaemonLog (old : option Z) | JNotify | JWatch (fd : Z) | JUnwatch (fd : Z) | JClose (fd : Z)
| JAccept (query : bool) | JReset (n : nat).
Definition code (j : job) : prog :=
  match j with
  | JTelnet o => connect_telnet_obj o
  | JUnix o => connect_unixsock_obj o
  | JProcess o => connect_process_obj o
  | JSerial o => open_serial_obj o
  | JTest o => open_test_obj o
  | JIpmi o => connect_ipmi_obj o
  | JLog l o => open_logfile_obj l o
  | JDaemonLog o => open_daemon_logfile o Ret
  | JNotify => inevent_init
  | JWatch fd => watch_obj fd
  | JUnwatch fd => unwatch_obj fd
  | JClose fd => close_obj fd
  | JAccept q => accept_client q
  | JReset n => perform_reset n
  end.
(** The descriptor a job is about, and whether it is an object's. *)
Definition subject (j : job) : option Z :=
  match j with
  | JTelnet o | JUnix o | JProcess o | JSerial o | JTest o | JIpmi o | JLog _ o | JDaemonLog o => o
  | JWatch fd | JUnwatch fd | JClose fd => Some fd
  | JNotify | JAccept _ | JReset _ => None
  end.
Definition of_file (j : job) : bool := match j with JDaemonLog _ => true | _ => false end.
(** What the descriptor must be. *)
Definition what_dec (a b : what) : {a = b} + {a <> b}.
Proof. decide equality. Defined.
Definition what_eqb (a b : what) : bool := if what_dec a b then true else false.
Definition fits (j : job) (w : what) : bool :=
  match j with
  | JTelnet _ => what_eqb w TelnetSock
  | JUnix _ => what_eqb w UnixSock
  | JProcess _ => what_eqb w ConsoleEnd
  | JSerial _ => what_eqb w SerialLine
  | JTest _ => what_eqb w TestNull
  | JIpmi _ => what_eqb w IpmiSock
  | JLog _ _ => what_eqb w ConsoleLog
  | JDaemonLog _ => what_eqb w DaemonLog
  | JClose _ => negb (what_eqb w Listen || what_eqb w Notify)
  | JNotify | JWatch _ | JUnwatch _ | JAccept _ | JReset _ => true
  end.

(** A program that was started: by which thread, what had happened before (newest first), and
    its table. *)
Record birth := mkBirth { b_by : nat; b_past : list (nat * call * answer); b_tab : tab }.
(** The process: its table; the descriptors of objects and those kept elsewhere, with the open
    file each was when it was put there; those that are watched; the threads; the number for the
    next open file; what happened; the programs; whether the process is alive. *)
Record proc := mkProc { p_tab : tab; p_objs : list (Z * nat); p_files : list (Z * nat); p_watched : list Z; p_threads : list prog;
  p_next : nat; p_past : list (nat * call * answer); p_born : list birth; p_alive : bool }.

(** fork() and exec(): dup2() of a descriptor to itself does nothing; FD_CLOEXEC is not copied. *)
Definition dup2 (from to : Z) (t : tab) : tab :=
  if from =? to then t
  else match find from t with
       | None => t
       | Some d => (to, mkDsc (d_what d) (d_id d) (d_nb d) false) :: drop to t
       end.
Definition child_step (t : tab) (c : cstep) : tab :=
  match c with CClose fd => drop fd t | CDup a b => dup2 a b t end.
Definition exec (t : tab) : tab := filter (fun e => negb (d_ce (snd e))) t.
Definition child (t : tab) (cs : list cstep) : tab := exec (fold_left child_step cs t).

Definition id_of (fd : Z) (t : tab) : nat := match find fd t with Some d => d_id d | None => O end.
Definition remove_fd (fd : Z) (l : list Z) : list Z := filter (fun x => negb (fd =? x)) l.
Definition set_nb (fd : Z) (b : bool) (t : tab) : tab :=
  match find fd t with Some d => put fd (mkDsc (d_what d) (d_id d) b (d_ce d)) t | None => t end.
(** A system call of thread [i]; [good]: whether it succeeds where that is up to the system.
    close() frees the number even if it reports a failure, as on Linux. *)
Definition do_call (i : nat) (c : call) (good : bool) (p : proc) : proc * answer :=
  let upd t o f w n b := mkProc t o f w (p_threads p) n (p_past p) b (p_alive p) in
  let same := upd (p_tab p) (p_objs p) (p_files p) (p_watched p) (p_next p) (p_born p) in
  let on_tab t := upd t (p_objs p) (p_files p) (p_watched p) (p_next p) (p_born p) in
  let plain := mkAns good (-1) (-1) in
  match c with
  | Open w nb =>
      if good then
        let fd := fresh (p_tab p) in
        (upd ((fd, mkDsc w (p_next p) nb false) :: p_tab p) (p_objs p) (p_files p) (p_watched p) (S (p_next p)) (p_born p), mkAns true fd (-1))
      else (same, plain)
  | Pair a b =>
      if good then
        let fd := fresh (p_tab p) in
        let t := (fd, mkDsc a (p_next p) false false) :: p_tab p in
        let fd' := fresh t in
        (upd ((fd', mkDsc b (S (p_next p)) false false) :: t) (p_objs p) (p_files p) (p_watched p) (S (S (p_next p))) (p_born p), mkAns true fd fd')
      else (same, plain)
  | Cloexec fd =>
      (if good then on_tab (match find fd (p_tab p) with Some d => put fd (mkDsc (d_what d) (d_id d) (d_nb d) true) (p_tab p) | None => p_tab p end)
       else same, plain)
  | Nonblock fd => (if good then on_tab (set_nb fd true (p_tab p)) else same, plain)
  | Blocking fd => (if good then on_tab (set_nb fd false (p_tab p)) else same, plain)
  | Watch fd => (upd (p_tab p) (p_objs p) (p_files p) (fd :: remove_fd fd (p_watched p)) (p_next p) (p_born p), mkAns true (-1) (-1))
  | Unwatch fd => (upd (p_tab p) (p_objs p) (p_files p) (remove_fd fd (p_watched p)) (p_next p) (p_born p), mkAns true (-1) (-1))
  | Close fd => (on_tab (drop fd (p_tab p)), plain)
  | Dup a b => (if good then on_tab (dup2 a b (p_tab p)) else same, plain)
  | Start cs =>
      (if good then upd (p_tab p) (p_objs p) (p_files p) (p_watched p) (p_next p) (mkBirth i (p_past p) (child (p_tab p) cs) :: p_born p) else same, plain)
  | Try => (same, plain)
  | Own fd => (upd (p_tab p) ((fd, id_of fd (p_tab p)) :: p_objs p) (p_files p) (p_watched p) (p_next p) (p_born p), mkAns true (-1) (-1))
  | File fd => (upd (p_tab p) (p_objs p) ((fd, id_of fd (p_tab p)) :: p_files p) (p_watched p) (p_next p) (p_born p), mkAns true (-1) (-1))
  end.

Fixpoint set_thread (i : nat) (q : prog) (l : list prog) : list prog :=
  match l, i with [], _ => [] | _ :: l, O => q :: l | p :: l, S i => p :: set_thread i q l end.
Definition with_threads (p : proc) (l : list prog) (past : list (nat * call * answer)) (alive : bool) : proc :=
  mkProc (p_tab p) (p_objs p) (p_files p) (p_watched p) l (p_next p) past (p_born p) alive.
(** What happens: thread [i] makes its next call; thread [i], which is idle, begins a job.  No two
    threads work on one object at the same time: its descriptor is not on the list meanwhile.
    (C73_race_refuted, C40: what if they do.) *)
Inductive ev := Go (i : nat) (good : bool) | Begin (i : nat) (j : job).
Definition take (fd : Z) (l : list (Z * nat)) : list (Z * nat) := filter (fun e => negb (fd =? fst e)) l.
Definition has (fd : Z) (l : list (Z * nat)) : bool := existsb (fun e => fd =? fst e) l.
Definition step (p : proc) (e : ev) : proc :=
  if negb (p_alive p) then p else
  match e with
  | Go i good =>
      match nth_error (p_threads p) i with
      | Some (Do c k) =>
          let (p1, a) := do_call i c good p in
          with_threads p1 (set_thread i (k a) (p_threads p1)) ((i, c, a) :: p_past p1) (p_alive p1)
      | Some (Thread q k) =>
          let a := mkAns good (-1) (-1) in
          with_threads p (set_thread i (k a) (p_threads p) ++ (if good then [q] else [])) (p_past p) true
      | Some Die => with_threads p (p_threads p) (p_past p) false
      | _ => p
      end
  | Begin i j =>
      match nth_error (p_threads p) i with
      | Some Ret =>
          let go o f := mkProc (p_tab p) o f (p_watched p) (set_thread i (code j) (p_threads p)) (p_next p) (p_past p) (p_born p) true in
          match subject j with
          | None => go (p_objs p) (p_files p)
          | Some fd =>
              if negb (match find fd (p_tab p) with Some d => fits j (d_what d) | None => false end) then p
              else if of_file j then (if has fd (p_files p) then go (p_objs p) (take fd (p_files p)) else p)
              else (if has fd (p_objs p) then go (take fd (p_objs p)) (p_files p) else p)
          end
      | _ => p
      end
  end.
Definition run (p : proc) (es : list ev) : proc := fold_left step es p.

(** The process when main() begins, with the descriptors it was started with. *)
Definition initial (t : tab) (fg pid log : bool) : proc :=
  mkProc t [] [] [] [startup fg pid log] (length t) [] [] true.
