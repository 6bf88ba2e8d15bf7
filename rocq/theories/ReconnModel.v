(** Model of how the daemon opens, loses and reopens the connections of its
    consoles (src/server-telnet.c, server-process.c, server-unixsock.c,
    server-ipmi.c, server-serial.c, and their callers in server-obj.c,
    server-sock.c and server.c).

    A world holds all consoles and the pending timers of the daemon.  Every event
    is one call of a handler, which runs to completion; the handlers of IPMI
    consoles are split where the object's mutex is released.  For the races of
    the other handlers see ReconnRace.v.

    Simplifications.  Descriptor readiness flags (tpoll_set, tpoll_clear) and
    message texts are left out.  Timer identifiers are unbounded (tpoll.c:468-471
    wraps after 2^31; see TpollModel for the timer queue itself).  Allocations do
    not fail. *)
From Verif Require Import Base.
Set Implicit Arguments.
Open Scope Z_scope.

(** server.h:45-58, enum obj_type: the console types with a connection *)
Inductive kind := Telnet | Process | Unixsock | Ipmi | Serial.

(** server.h: telnet_state_t, process_state_t, unixsock_state_t, ipmi_state_t.
    Serial consoles have no state; the model keeps [Up] when fd >= 0. *)
Inductive cstate := Down | Pending | Up.

(** The two callbacks a console uses: [Reconnect] is connect_telnet_obj,
    open_process_obj, connect_unixsock_obj or connect_ipmi_obj; [Settled] is
    reset_telnet_delay, reset_process_delay, reset_unixsock_delay or
    reset_ipmi_delay. *)
Inductive callback := Reconnect | Settled.

(** tpoll.c:74-81, struct tpoll_timer; [t_due] in milliseconds *)
Record timer := mkTimer { t_id : Z; t_con : nat; t_cb : callback; t_due : Z }.

(** server.h: obj->fd and the parts of telnet_obj_t, process_obj_t,
    unixsock_obj_t, ipmi_obj_t used for connecting.  [d_via]: isViaInotify;
    [d_ctx]: the ipmi context exists. *)
Record dev := mkDev {
  d_kind : kind;
  d_fd : Z;
  d_st : cstate;
  d_timer : Z;
  d_delay : Z;
  d_via : bool;
  d_pid : Z;
  d_ctx : bool }.

(** What can be observed from outside, with the console concerned. *)
Inductive effect :=
| Try (c : nat)                (* an attempt to connect is begun *)
| Came_up (c : nat)            (* "Console [..] connected to ..." *)
| Went_down (c : nat)          (* "Console [..] disconnected from ..." *)
| Retry (c : nat) (ms : Z)     (* the next attempt is scheduled by back-off *)
| Unresolved (c : nat)         (* ... or after a failed name lookup *)
| Waiting (c : nat)            (* a limit on a pending IPMI attempt is set *)
| Stable (c : nat)             (* the connection has lasted; back-off restarts *)
| Asked (c : nat)              (* a client or a file event restarts back-off *)
| Forked (c : nat) (pid : Z)   (* a child is started for a process console *)
| Killed (c : nat) (pid : Z).  (* kill(pid, SIGKILL) *)

(** [w_log]: what happened, newest first, with the time in milliseconds *)
Record world := mkWorld {
  w_now : Z;
  w_devs : list dev;
  w_timers : list timer;
  w_next : Z;
  w_log : list (Z * effect) }.

(** Results of the system calls made by one handler.  [o_name]: host name
    resolves; [o_sock]: socket(), socketpair() or ctx_create() succeeds;
    [o_dev]: stat()/S_ISSOCK/path-length or check_process_prog() succeeds, or
    the serial device opens, locks and is a terminal; [o_conn]: connect();
    [o_sockerr]: SO_ERROR after a pending connect, or the IPMI status/descriptor
    is bad; [o_fork]: fork() or engine_submit() succeeds; [o_fd], [o_pid]:
    the new descriptor and process. *)
Inductive conn := CDone | CInProgress | CFailed.
Record orc := mkOrc {
  o_name : bool;
  o_sock : bool;
  o_dev : bool;
  o_conn : conn;
  o_sockerr : bool;
  o_fork : bool;
  o_fd : Z;
  o_pid : Z }.

(** server.h:57-80 *)
Definition TELNET_MIN_TIMEOUT := 15.
Definition TELNET_MAX_TIMEOUT := 1800.
Definition PROCESS_MIN_TIMEOUT := 60.
Definition PROCESS_MAX_TIMEOUT := 1800.
Definition UNIXSOCK_MIN_TIMEOUT := 1.
Definition UNIXSOCK_MAX_TIMEOUT := 60.
Definition IPMI_MIN_TIMEOUT := 60.
Definition IPMI_MAX_TIMEOUT := 1800.
Definition IPMI_CONNECT_TIMEOUT := 300.
Definition MIN_CONNECT_SECS := 60.
Definition RESOLVE_RETRY_TIMEOUT := 1800.

(** access to one console *)
Definition dev_of (w : world) (c : nat) : res dev :=
  match nth_error (w_devs w) c with Some d => Ok d | None => UB NullDeref end.

Fixpoint set_nth {A} (l : list A) (c : nat) (x : A) : list A :=
  match l, c with
  | [], _ => []
  | _ :: l', O => x :: l'
  | y :: l', S c' => y :: set_nth l' c' x
  end.

Definition set_dev (w : world) (c : nat) (d : dev) : world :=
  mkWorld (w_now w) (set_nth (w_devs w) c d) (w_timers w) (w_next w) (w_log w).

Definition say (e : effect) (w : world) : world :=
  mkWorld (w_now w) (w_devs w) (w_timers w) (w_next w) ((w_now w, e) :: w_log w).

Definition with_fd (fd : Z) (d : dev) : dev :=
  mkDev (d_kind d) fd (d_st d) (d_timer d) (d_delay d) (d_via d) (d_pid d) (d_ctx d).
Definition with_st (st : cstate) (d : dev) : dev :=
  mkDev (d_kind d) (d_fd d) st (d_timer d) (d_delay d) (d_via d) (d_pid d) (d_ctx d).
Definition with_timer (t : Z) (d : dev) : dev :=
  mkDev (d_kind d) (d_fd d) (d_st d) t (d_delay d) (d_via d) (d_pid d) (d_ctx d).
Definition with_delay (n : Z) (d : dev) : dev :=
  mkDev (d_kind d) (d_fd d) (d_st d) (d_timer d) n (d_via d) (d_pid d) (d_ctx d).
Definition with_via (b : bool) (d : dev) : dev :=
  mkDev (d_kind d) (d_fd d) (d_st d) (d_timer d) (d_delay d) b (d_pid d) (d_ctx d).
Definition with_pid (p : Z) (d : dev) : dev :=
  mkDev (d_kind d) (d_fd d) (d_st d) (d_timer d) (d_delay d) (d_via d) p (d_ctx d).
Definition with_ctx (b : bool) (d : dev) : dev :=
  mkDev (d_kind d) (d_fd d) (d_st d) (d_timer d) (d_delay d) (d_via d) (d_pid d) b.

(** apply [f] to console [c] *)
Definition upd (c : nat) (f : dev -> dev) (w : world) : res world :=
  do d <- dev_of w c; Ok (set_dev w c (f d)).

(** tpoll.c:490-502, 432-487 tpoll_timeout_relative: the new timer's id is
    stored in the console's timer field by all callers.  The sorted insertion is
    TpollModel's subject; here the queue is a list in no particular order. *)
Definition arm (c : nat) (cb : callback) (ms : Z) (w : world) : res world :=
  do w <- upd c (with_timer (w_next w)) w;
  Ok (mkWorld (w_now w) (w_devs w)
        (mkTimer (w_next w) c cb (w_now w + ms) :: w_timers w) (w_next w + 1) (w_log w)).

(** tpoll.c:505-549 tpoll_timeout_cancel *)
Definition cancel (id : Z) (w : world) : world :=
  mkWorld (w_now w) (w_devs w)
    (filter (fun t => negb (t_id t =? id)) (w_timers w)) (w_next w) (w_log w).

(** the code block opening most handlers, for example server-telnet.c:187-190 *)
Definition cancel_timer (c : nat) (w : world) : res world :=
  do d <- dev_of w c;
  if 0 <=? d_timer d then upd c (with_timer (-1)) (cancel (d_timer d) w) else Ok w.

(** server-telnet.c:297-340 disconnect_telnet_obj *)
Definition disconnect_telnet_obj (c : nat) (w : world) : res world :=
  do w <- cancel_timer c w;
  do d <- dev_of w c;
  do w <- (if 0 <=? d_fd d then upd c (with_fd (-1)) w else Ok w);
  let w := (match d_st d with Up => say (Went_down c) w | _ => w end) in
  do w <- upd c (with_st Down) w;
  do w <- arm c Reconnect (d_delay d * 1000) (say (Retry c (d_delay d * 1000)) w);
  if d_delay d =? 0 then upd c (with_delay TELNET_MIN_TIMEOUT) w
  else if d_delay d <? TELNET_MAX_TIMEOUT
  then upd c (with_delay (Z.min (d_delay d * 2) TELNET_MAX_TIMEOUT)) w
  else Ok w.

(** server-telnet.c:267-293, the end of connect_telnet_obj; the option
    negotiation is TelnetModel's subject *)
Definition telnet_up (c : nat) (w : world) : res world :=
  do w <- upd c (with_st Up) w;
  arm c Settled (TELNET_MIN_TIMEOUT * 1000) (say (Came_up c) w).

(** server-telnet.c:177-294 connect_telnet_obj.  Failure of socket() ends the
    daemon (206-208); setsockopt() is taken to succeed.  In the state Up (263-266)
    a fatal message is formatted whose %s is given the state: an address that is
    none, so the program crashes before it could end itself. *)
Definition connect_telnet_obj (c : nat) (o : orc) (w : world) : res world :=
  do w <- cancel_timer c w;
  do d <- dev_of w c;
  match d_st d with
  | Down =>
      let w := say (Try c) w in
      if o_name o then
        if o_sock o then
          do w <- upd c (with_fd (o_fd o)) w;
          match o_conn o with
          | CDone => telnet_up c w
          | CInProgress => upd c (with_st Pending) w
          | CFailed => disconnect_telnet_obj c w
          end
        else UB Fatal
      else arm c Reconnect (RESOLVE_RETRY_TIMEOUT * 1000) (say (Unresolved c) w)
  | Pending =>
      if o_sockerr o then disconnect_telnet_obj c w else telnet_up c w
  | Up => UB NullDeref                               (* 263-266 *)
  end.

(** server-telnet.c:154-174 open_telnet_obj *)
Definition open_telnet_obj (c : nat) (o : orc) (w : world) : res world :=
  do d <- dev_of w c;
  match d_st d with
  | Up => disconnect_telnet_obj c w
  | _ => connect_telnet_obj c o w
  end.

(** server-telnet.c:343-359 reset_telnet_delay; server-process.c:423-443
    reset_process_delay; server-unixsock.c:365-385 reset_unixsock_delay;
    server-ipmi.c:1079-1095 reset_ipmi_delay *)
Definition reset_delay (c : nat) (w : world) : res world :=
  do d <- dev_of w c;
  let start := match d_kind d with
               | Telnet | Process => 0
               | Unixsock => UNIXSOCK_MIN_TIMEOUT
               | Ipmi => IPMI_MIN_TIMEOUT
               | Serial => d_delay d
               end in
  upd c (fun d => with_timer (-1) (with_delay start d)) (say (Stable c) w).

(** server-process.c:256-295 disconnect_process_obj; tStart is left out *)
Definition disconnect_process_obj (c : nat) (w : world) : res world :=
  do d <- dev_of w c;
  do _ <- assert_ (0 <? d_pid d);
  do _ <- assert_ (match d_st d with Up => true | _ => false end);
  do w <- (if 0 <=? d_fd d then upd c (with_fd (-1)) w else Ok w);
  let w := say (Killed c (d_pid d)) (say (Went_down c) w) in
  upd c (fun d => with_st Down (with_pid (-1) d)) w.

(** server-process.c:298-386 connect_process_obj, with the child's side left
    out; true stands for return code 0 *)
Definition connect_process_obj (c : nat) (o : orc) (w : world) : res (bool * world) :=
  do d <- dev_of w c;
  do _ <- assert_ (d_fd d =? -1);
  do _ <- assert_ (d_pid d =? -1);
  do _ <- assert_ (match d_st d with Up => false | _ => true end);
  let w := say (Try c) w in
  if o_dev o && o_sock o && o_fork o then
    do w <- upd c (fun d => with_st Up (with_pid (o_pid o) (with_fd (o_fd o) d))) w;
    do w <- arm c Settled (PROCESS_MIN_TIMEOUT * 1000) (say (Forked c (o_pid o)) w);
    Ok (true, say (Came_up c) w)
  else Ok (false, w).

(** server-process.c:215-253 open_process_obj *)
Definition open_process_obj (c : nat) (o : orc) (w : world) : res world :=
  do w <- cancel_timer c w;
  do d <- dev_of w c;
  do r <- (match d_st d with
           | Up => do w <- disconnect_process_obj c w; Ok (false, w)
           | Down => connect_process_obj c o w
           | Pending => Ok (true, w)
           end);
  let (ok, w) := r in
  if ok then Ok w
  else
    do d <- dev_of w c;
    do w <- arm c Reconnect (d_delay d * 1000) (say (Retry c (d_delay d * 1000)) w);
    upd c (with_delay (if d_delay d =? 0 then PROCESS_MIN_TIMEOUT
                       else Z.min (d_delay d * 2) PROCESS_MAX_TIMEOUT)) w.

(** server-unixsock.c:320-362 disconnect_unixsock_obj *)
Definition disconnect_unixsock_obj (c : nat) (w : world) : res world :=
  do w <- cancel_timer c w;
  do d <- dev_of w c;
  do w <- (if 0 <=? d_fd d then upd c (with_fd (-1)) w else Ok w);
  do w <- (match d_st d with
           | Up => upd c (with_st Down) (say (Went_down c) w)
           | _ => Ok w
           end);
  do w <- arm c Reconnect (d_delay d * 1000) (say (Retry c (d_delay d * 1000)) w);
  if d_delay d <? UNIXSOCK_MAX_TIMEOUT
  then upd c (with_delay (Z.min (d_delay d * 2) UNIXSOCK_MAX_TIMEOUT)) w
  else Ok w.

(** server-unixsock.c:215-317 connect_unixsock_obj *)
Definition connect_unixsock_obj (c : nat) (o : orc) (w : world) : res world :=
  do d <- dev_of w c;
  do _ <- assert_ (match d_st d with Up => false | _ => true end);
  let via := d_via d in
  do w <- upd c (with_via false) w;
  do w <- cancel_timer c w;
  let w := say (Try c) w in
  if o_dev o then
    if o_sock o then
      do w <- upd c (with_fd (o_fd o)) w;
      match o_conn o with
      | CDone =>
          do w <- upd c (with_st Up) w;
          arm c Settled (MIN_CONNECT_SECS * 1000) (say (Came_up c) w)
      | _ =>
          do w <- (if via then upd c (with_delay UNIXSOCK_MIN_TIMEOUT) (say (Asked c) w)
                   else Ok w);
          disconnect_unixsock_obj c w
      end
    else
      do w <- upd c (with_fd (-1)) w;
      disconnect_unixsock_obj c w
  else disconnect_unixsock_obj c w.

(** server-unixsock.c:162-179 open_unixsock_obj *)
Definition open_unixsock_obj (c : nat) (o : orc) (w : world) : res world :=
  do d <- dev_of w c;
  match d_st d with
  | Up => disconnect_unixsock_obj c w
  | _ => connect_unixsock_obj c o w
  end.

(** server-unixsock.c:182-196 open_unixsock_obj_via_inotify *)
Definition open_unixsock_obj_via_inotify (c : nat) (o : orc) (w : world) : res world :=
  do w <- upd c (with_via true) w;
  open_unixsock_obj c o w.

(** server-ipmi.c:816-850 disconnect_ipmi_obj *)
Definition disconnect_ipmi_obj (c : nat) (w : world) : res world :=
  do w <- cancel_timer c w;
  do d <- dev_of w c;
  do w <- (if 0 <=? d_fd d then upd c (with_fd (-1)) w else Ok w);
  let w := (match d_st d with Up => say (Went_down c) w | _ => w end) in
  upd c (with_st Down) w.

(** server-ipmi.c:899-935 initiate_ipmi_connect, with create_ipmi_ctx (938-990) *)
Definition initiate_ipmi_connect (c : nat) (o : orc) (w : world) : res (bool * world) :=
  let w := say (Try c) w in
  do w <- upd c (with_ctx (o_sock o)) w;
  if o_sock o && o_fork o then
    do w <- upd c (with_st Pending) w;
    do d <- dev_of w c;
    do _ <- assert_ (d_timer d =? -1);
    do w <- arm c Reconnect (IPMI_CONNECT_TIMEOUT * 1000) (say (Waiting c) w);
    Ok (true, w)
  else Ok (false, w).

(** server-ipmi.c:993-1034 complete_ipmi_connect; without a context the status
    is not "established" *)
Definition complete_ipmi_connect (c : nat) (o : orc) (w : world) : res (bool * world) :=
  do d <- dev_of w c;
  if negb (d_ctx d) || o_sockerr o then Ok (false, w)
  else
    do w <- upd c (fun d => with_st Up (with_fd (o_fd o) d)) w;
    do _ <- assert_ (d_timer d =? -1);
    do w <- arm c Settled (IPMI_MIN_TIMEOUT * 1000) w;
    Ok (true, say (Came_up c) w).

(** server-ipmi.c:1037-1076 fail_ipmi_connect *)
Definition fail_ipmi_connect (c : nat) (w : world) : res world :=
  do w <- upd c (with_st Down) w;
  do d <- dev_of w c;
  do _ <- assert_ (IPMI_MIN_TIMEOUT <=? d_delay d);
  do _ <- assert_ (d_delay d <=? IPMI_MAX_TIMEOUT);
  do _ <- assert_ (d_timer d =? -1);
  do w <- arm c Reconnect (d_delay d * 1000) (say (Retry c (d_delay d * 1000)) w);
  if d_delay d <? IPMI_MAX_TIMEOUT
  then upd c (with_delay (Z.min (d_delay d * 2) IPMI_MAX_TIMEOUT)) w
  else Ok w.

(** server-ipmi.c:853-896 connect_ipmi_obj, run under the object's mutex, by the
    main thread, a client thread or the ipmiconsole engine *)
Definition connect_ipmi_obj (c : nat) (o : orc) (w : world) : res world :=
  do d <- dev_of w c;
  match d_st d with
  | Up => Ok w
  | st =>
      do w <- cancel_timer c w;
      do r <- (match st with
               | Down => initiate_ipmi_connect c o w
               | _ => complete_ipmi_connect c o w
               end);
      let (ok, w) := r in
      if ok then Ok w else fail_ipmi_connect c w
  end.

Fixpoint connects_ipmi (c : nat) (os : list orc) (w : world) : res world :=
  match os with
  | [] => Ok w
  | o :: os => do w <- connect_ipmi_obj c o w; connects_ipmi c os w
  end.

(** server-ipmi.c:786-813 open_ipmi_obj.  [mid]: calls of connect_ipmi_obj made
    by other threads while the mutex is free between disconnecting and
    connecting.  Calls in between reading an UP state and disconnecting have no
    effect; calls after reading a DOWN state are covered by events [Engine]. *)
Definition open_ipmi_obj (c : nat) (o : orc) (mid : list orc) (w : world) : res world :=
  do d <- dev_of w c;
  match d_st d with
  | Up =>
      do w <- disconnect_ipmi_obj c w;
      do w <- connects_ipmi c mid w;
      connect_ipmi_obj c o w
  | Down => connect_ipmi_obj c o w
  | Pending => Ok w
  end.

(** server-serial.c:375-456 open_serial_obj *)
Definition open_serial_obj (c : nat) (o : orc) (w : world) : res world :=
  do d <- dev_of w c;
  do w <- (if 0 <=? d_fd d
           then upd c (fun d => with_st Down (with_fd (-1) d)) (say (Went_down c) w)
           else Ok w);
  let w := say (Try c) w in
  if o_dev o
  then do w <- upd c (fun d => with_st Up (with_fd (o_fd o) d)) w; Ok (say (Came_up c) w)
  else Ok w.

(** server-obj.c:263-298 reopen_obj, for consoles with a connection *)
Definition reopen_obj (c : nat) (o : orc) (mid : list orc) (w : world) : res world :=
  do d <- dev_of w c;
  match d_kind d with
  | Process => open_process_obj c o w
  | Serial => open_serial_obj c o w
  | Telnet => open_telnet_obj c o w
  | Unixsock => open_unixsock_obj c o w
  | Ipmi => open_ipmi_obj c o mid w
  end.

(** server-obj.c:798-869 shutdown_obj for a console: the descriptor is closed
    first, then the connection is reopened.  Serial consoles become [Down] with
    their descriptor (without a message: open_serial_obj then finds fd < 0). *)
Definition shutdown_obj (c : nat) (o : orc) (mid : list orc) (w : world) : res world :=
  do d <- dev_of w c;
  if d_fd d <? 0 then Ok w
  else
    do w <- upd c (with_fd (-1)) w;
    do w <- (match d_kind d with
             | Serial => upd c (with_st Down) w
             | _ => Ok w
             end);
    reopen_obj c o mid w.

(** server-obj.c:872-925, 1078-1099, 1136-1181: read_from_obj or write_to_obj
    finds the connection broken.  A telnet console that is not up is not read
    (901-903), and a pending one is opened, not written (1096-1100). *)
Definition hangup (c : nat) (o : orc) (mid : list orc) (w : world) : res world :=
  do d <- dev_of w c;
  match d_kind d, d_st d with
  | Telnet, Up => shutdown_obj c o mid w
  | Telnet, _ => Ok w
  | _, _ => shutdown_obj c o mid w
  end.

(** server-obj.c:1090-1100: write_to_obj completes a pending telnet connect *)
Definition writable (c : nat) (o : orc) (w : world) : res world :=
  do d <- dev_of w c;
  if d_fd d <? 0 then Ok w
  else match d_kind d, d_st d with
       | Telnet, Pending => open_telnet_obj c o w
       | _, _ => Ok w
       end.

(** server-sock.c:907-979 check_console_state, called when a client connects *)
Definition check_console_state (c : nat) (o : orc) (w : world) : res world :=
  do d <- dev_of w c;
  match d_kind d with
  | Process => if d_fd d <? 0 then open_process_obj c o w else Ok w
  | Serial => if d_fd d <? 0 then open_serial_obj c o w else Ok w
  | Telnet =>
      match d_st d with
      | Up => Ok w
      | Pending => upd c (with_delay TELNET_MIN_TIMEOUT) (say (Asked c) w)
      | Down => do w <- upd c (with_delay TELNET_MIN_TIMEOUT) (say (Asked c) w);
                open_telnet_obj c o w
      end
  | Unixsock =>
      if d_fd d <? 0 then
        do _ <- assert_ (match d_st d with Down => true | _ => false end);
        open_unixsock_obj c o w
      else Ok w
  | Ipmi =>
      match d_st d with
      | Down => open_ipmi_obj c o [] w
      | _ => Ok w
      end
  end.

(** tpoll.c:590-620: an expired timer is unlinked, then its callback is run *)
Definition fire (id : Z) (o : orc) (w : world) : res world :=
  match find (fun t => t_id t =? id) (w_timers w) with
  | None => Ok w
  | Some t =>
      if w_now w <? t_due t then Ok w
      else
        let w := cancel id w in
        do d <- dev_of w (t_con t);
        match t_cb t with
        | Settled => reset_delay (t_con t) w
        | Reconnect =>
            match d_kind d with
            | Telnet => connect_telnet_obj (t_con t) o w
            | Process => open_process_obj (t_con t) o w
            | Unixsock => connect_unixsock_obj (t_con t) o w
            | Ipmi => connect_ipmi_obj (t_con t) o w
            | Serial => Ok w
            end
        end
  end.

(** What can happen to the daemon. *)
Inductive event :=
| Tick (ms : Z)                                (* time passes *)
| Fire (id : Z) (o : orc)                      (* a timer, if due *)
| Hangup (c : nat) (o : orc) (mid : list orc)  (* end of file or i/o error *)
| Writable (c : nat) (o : orc)                 (* descriptor writable *)
| Client (c : nat) (o : orc)                   (* a client connects *)
| Created (c : nat) (o : orc)                  (* the socket file is created *)
| Engine (c : nat) (o : orc).                  (* ipmiconsole callback *)

Definition step (e : event) (w : world) : res world :=
  match e with
  | Tick ms =>
      Ok (if 0 <? ms
          then mkWorld (w_now w + ms) (w_devs w) (w_timers w) (w_next w) (w_log w)
          else w)
  | Fire id o => fire id o w
  | Hangup c o mid => hangup c o mid w
  | Writable c o => writable c o w
  | Client c o => check_console_state c o w
  | Created c o =>
      do d <- dev_of w c;
      match d_kind d with
      | Unixsock => open_unixsock_obj_via_inotify c o w
      | _ => Ok w
      end
  | Engine c o =>
      do d <- dev_of w c;
      match d_kind d with
      | Ipmi => connect_ipmi_obj c o w
      | _ => Ok w
      end
  end.

Fixpoint run (es : list event) (w : world) : res world :=
  match es with
  | [] => Ok w
  | e :: es => do w <- step e w; run es w
  end.

(** server-telnet.c:132-139, server-process.c:183-191, server-unixsock.c:139-145,
    server-ipmi.c:751-758, server-serial.c create_serial_obj: new objects *)
Definition create (k : kind) : dev :=
  mkDev k (-1) Down (-1)
    (match k with
     | Telnet => TELNET_MIN_TIMEOUT
     | Process => PROCESS_MIN_TIMEOUT
     | Unixsock => UNIXSOCK_MIN_TIMEOUT
     | Ipmi => IPMI_MIN_TIMEOUT
     | Serial => 0
     end) false (-1) false.

(** server.c:720-746 open_objs: every console is opened once; [os] holds the
    results of the system calls for each *)
Fixpoint open_objs (c : nat) (os : list orc) (w : world) : res world :=
  match os with
  | [] => Ok w
  | o :: os => do w <- reopen_obj c o [] w; open_objs (S c) os w
  end.

(** the daemon after reading its configuration and opening its consoles, at
    time [now]; timers of other kinds are left out *)
Definition boot (now : Z) (ks : list (kind * orc)) : res world :=
  open_objs 0 (map snd ks) (mkWorld now (map (fun k => create (fst k)) ks) [] 1 []).
