(** Model of the daemon's start (src/server.c: setup_coredump, setup_signals, display_configuration,
    create_listen_socket, setup_nofile_limit; src/util.c: posix_signal) and of what its handler of
    SIGCHLD does to calls that failed. *)
From Coq Require Import String.
From Verif Require Import Base Chars Fmt.
Local Open Scope Z_scope.

(** ** SIGCHLD and errno *)
(** Linux's numbers; EWOULDBLOCK is EAGAIN *)
Definition EINTR : Z := 4.
Definition ECHILD : Z := 10.
Definition EAGAIN : Z := 11.
Definition ECONNABORTED : Z := 103.
(** The daemon's children: a number, and whether the process has ended and was not waited for. *)
Definition kids := list (nat * bool).
Fixpoint take_ended (cs : kids) : option (nat * kids) :=
  match cs with
  | [] => None
  | (p, true) :: cs => Some (p, cs)
  | (p, false) :: cs => match take_ended cs with Some (q, cs') => Some (q, (p, false) :: cs') | None => None end
  end.
(** waitpid(-1, NULL, WNOHANG): the child, 0 if none has ended, or -1 and ECHILD if there are none *)
Inductive waited := Pid (p : nat) | Zero | Minus.
Definition waitpid (cs : kids) (e : Z) : waited * kids * Z :=
  match take_ended cs with
  | Some (p, cs') => (Pid p, cs', e)
  | None => match cs with [] => (Minus, cs, ECHILD) | _ => (Zero, cs, e) end
  end.
(** server.c:373-379 *)
Fixpoint wait_loop (fuel : nat) (cs : kids) (e : Z) : res (kids * Z) :=
  match fuel with
  | O => UB OutOfFuel
  | S fuel => match waitpid cs e with (Pid _, cs', e') => wait_loop fuel cs' e' | (_, cs', e') => Ok (cs', e') end
  end.
Definition sig_chld_handler (cs : kids) (e : Z) : res (kids * Z) := wait_loop (S (List.length cs)) cs e.
(** Children end, then the signal is delivered. *)
Definition end_kids (ds : list nat) (cs : kids) : kids :=
  map (fun c => (fst c, snd c || existsb (Nat.eqb (fst c)) ds)) cs.
Fixpoint delivered (cs : kids) (e : Z) (dss : list (list nat)) : res (kids * Z) :=
  match dss with
  | [] => Ok (cs, e)
  | ds :: dss => do r <- sig_chld_handler (end_kids ds cs) e; delivered (fst r) (snd r) dss
  end.
(** What the daemon makes of a call that failed.  The tests of errno are taken to happen at once.
    server.c:780-787, after poll() *)
Inductive poll_reaction := PollAgain | PollServe | PollDie.
Definition after_poll (stop reconfig : bool) (e : Z) : poll_reaction :=
  if negb (e =? EINTR) then PollDie else if stop || reconfig then PollServe else PollAgain.
(** server-obj.c:905-914 after read(), 1137-1148 after writev() *)
Inductive io_reaction := IoAgain | IoLater | IoLost.
Definition after_read (e : Z) : io_reaction := if e =? EINTR then IoAgain else if e =? EAGAIN then IoLater else IoLost.
Definition after_writev (e : Z) : io_reaction := if e =? EINTR then IoAgain else if negb (e =? EAGAIN) then IoLost else IoLater.
(** server.c:975-986, after accept() *)
Inductive acc_reaction := AccAgain | AccLater | AccDie.
Definition after_accept (e : Z) : acc_reaction :=
  if e =? EINTR then AccAgain else if e =? EAGAIN then AccLater else if e =? ECONNABORTED then AccLater else AccDie.

(** ** What becomes of signals *)
Inductive disp := Dfl | Ign | Handler.
(** Linux's numbers *)
Definition SIGHUP : Z := 1.
Definition SIGINT : Z := 2.
Definition SIGQUIT : Z := 3.
Definition SIGILL : Z := 4.
Definition SIGABRT : Z := 6.
Definition SIGBUS : Z := 7.
Definition SIGFPE : Z := 8.
Definition SIGSEGV : Z := 11.
Definition SIGPIPE : Z := 13.
Definition SIGTERM : Z := 15.
Definition SIGCHLD : Z := 17.
Definition table := Z -> disp.
(** util.c:49-76; sigaction() does not fail for these signals *)
Definition posix_signal (t : table) (s : Z) (d : disp) : table := fun x => if x =? s then d else t x.
(** server.c:353-370 *)
Definition setup_signals (t : table) : table :=
  let t := posix_signal t SIGCHLD Handler in
  let t := posix_signal t SIGHUP Handler in
  let t := posix_signal t SIGINT Handler in
  let t := posix_signal t SIGPIPE Ign in
  let t := posix_signal t SIGTERM Handler in
  let t := posix_signal t SIGABRT Handler in
  let t := posix_signal t SIGBUS Handler in
  let t := posix_signal t SIGFPE Handler in
  let t := posix_signal t SIGILL Handler in
  let t := posix_signal t SIGQUIT Handler in
  posix_signal t SIGSEGV Handler.
(** execve(2): what is handled becomes default, what is ignored stays so *)
Definition execve (t : table) : table := fun s => match t s with Handler => Dfl | d => d end.
(** server.c:258 (begin_daemonize), 113; server-process.c:328-362, server-esc.c:463-503: a program
    or a reset command is started by fork() and execve() with nothing in between that concerns
    signals *)
Definition started_program (t : table) (detached : bool) : table :=
  execve (setup_signals (if detached then posix_signal t SIGHUP Ign else t)).

(** ** Listening *)
(** server-conf.c:346-350 (-p), 1339-1345 (PORT): which numbers are accepted *)
Definition port_accepted (n : Z) : bool := negb (n <? 0).
(** the 16 bits that fit *)
Definition htons (n : Z) : Z := n mod 65536.
Inductive addr := Loopback | Any.
(** server.c:637-684.  [bind p]: None if bind() fails, else the port that is bound; the other calls
    do not fail.  The new conf->port (that server.c:145 announces) and where is listened. *)
Definition create_listen_socket (port : Z) (loopback : bool) (bind : addr -> Z -> option Z) : res (Z * (addr * Z)) :=
  let a := if loopback then Loopback else Any in
  match bind a (htons port) with
  | None => UB Fatal
  | Some p => Ok (if port =? 0 then p else port, (a, p))
  end.

(** ** Limits *)
(** rlim_t has 64 bits; RLIM_INFINITY is the greatest number *)
Definition RLIM_INFINITY : Z := 18446744073709551615.
Record rlimit := mkLim { rlim_cur : Z; rlim_max : Z }.
(** setrlimit(2): refused if the soft limit is greater than the hard one, and without privilege if
    the hard limit would grow.  [most]: the greatest hard limit that even privilege allows
    (fs.nr_open for RLIMIT_NOFILE). *)
Definition setrlimit (privileged : bool) (most : Z) (old new : rlimit) : option rlimit :=
  if rlim_max new <? rlim_cur new then None
  else if (rlim_max old <? rlim_max new) && negb privileged then None
  else if most <? rlim_max new then None
  else Some new.
(** printf("%d") of a 64-bit argument prints its low 32 bits, as a signed number (x86-64 ABI) *)
Definition low_int (n : Z) : Z := let m := n mod 4294967296 in if m <? 2147483648 then m else m - 4294967296.
(** server.c:687-717: the limit afterwards, and the number in the message *)
Definition setup_nofile_limit (privileged : bool) (most : Z) (n : Z) (l : rlimit) : res (rlimit * Z) :=
  let new :=
    if 0 <? n then mkLim n (if rlim_max l <? n then n else rlim_max l)
    else if n <? 0 then mkLim (rlim_max l) (rlim_max l)
    else l in
  if n =? 0 then Ok (l, low_int (rlim_cur new))
  else match setrlimit privileged most l new with
       | None => UB Fatal
       | Some l' => Ok (l', low_int (rlim_cur new))
       end.
(** server.c:324-350: the limit on core files; whether they are wanted and where *)
Definition setup_coredump (privileged : bool) (enable : bool) (dir : option (list Z)) (cwd : list Z) (l : rlimit) : res (rlimit * (bool * list Z)) :=
  let new := if enable then mkLim RLIM_INFINITY RLIM_INFINITY else mkLim 0 0 in
  let core := if enable then (true, match dir with Some d => d | None => cwd end) else (false, []) in
  match setrlimit privileged RLIM_INFINITY l new with
  | None => UB Fatal
  | Some l' => Ok (l', core)
  end.
(** server.c:396-416: where the process is when its core is written, and the text of the message.
    [chdir]: whether the directory can be entered. *)
Definition coredump_handler (coredump : bool) (dir cwd : list Z) (chdir : bool) (signum : Z) : list Z * list Z :=
  let told := coredump && negb (match dir with [] => true | _ => false end) in
  (if told && chdir then dir else cwd,
   zs "Terminating on signal=" ++ fmt_d signum ++
   (if told then zs " (check """ ++ dir ++ zs """ for core)" else []))%list.

(** ** The summary *)
Record summary := mkSum { s_name : list Z; s_core : bool; s_keep : bool; s_log : option (list Z); s_loop : bool;
  s_reset : option (list Z); s_syslog : Z; s_wrap : bool; s_stamp : Z; s_zero : bool; s_objs : list bool (* is it a console? *) }.
Definition is_some {A} (o : option A) : bool := match o with Some _ => true | None => false end.
(** server.c:511-549: the options, each with the space before it *)
Definition options (c : summary) : list Z :=
  ((if s_core c then zs " CoreDump" else []) ++
   (if s_keep c then zs " KeepAlive" else []) ++
   (if is_some (s_log c) then zs " LogFile" else []) ++
   (if s_loop c then zs " LoopBack" else []) ++
   (if is_some (s_reset c) then zs " ResetCmd" else []) ++
   (if 0 <=? s_syslog c then zs " SysLog" else []) ++
   (if s_wrap c then zs " TCP-Wrappers" else []) ++
   (if 0 <? s_stamp c then zs " TimeStamp=" ++ fmt_d (s_stamp c) ++ zs "m" else []) ++
   (if s_zero c then zs " ZeroLogs" else []))%list.
Definition got_options (c : summary) : Z :=
  (if s_core c then 1 else 0) + (if s_keep c then 1 else 0) + (if is_some (s_log c) then 1 else 0) + (if s_loop c then 1 else 0) +
  (if is_some (s_reset c) then 1 else 0) + (if 0 <=? s_syslog c then 1 else 0) + (if s_wrap c then 1 else 0) +
  (if 0 <? s_stamp c then 1 else 0) + (if s_zero c then 1 else 0).
(** server.c:491-554 *)
Definition display_configuration (c : summary) : list Z :=
  let n := Z.of_nat (List.length (filter (fun b => b) (s_objs c))) in
  (zs "Configuration: " ++ s_name c ++ [10] ++
   zs "Options:" ++ options c ++ (if got_options c =? 0 then zs " None" else []) ++ [10] ++
   zs "Monitoring " ++ fmt_d n ++ zs " console" ++ (if n =? 1 then [] else zs "s") ++ [10; 10])%list.
(** server.c:130-140: whether the daemon writes messages to syslog *)
Definition uses_syslog (foreground : bool) (facility : Z) : bool := negb foreground && (0 <? facility).
