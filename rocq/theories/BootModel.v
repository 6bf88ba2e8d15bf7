(** Model of the start of the daemon: src/server.c:main (91-177), begin_daemonize,
    end_daemonize, the error report over the pipe (src/log.c:log_err), and the
    descriptors that are opened and replaced on the way. *)
From Coq Require Import String.
From Verif Require Import Base Chars StrModel MsgModel.
Local Open Scope nat_scope.

Notation MAX_LINE := (Z.to_nat 1024).

(** ** The error report *)

(** A call of log_err: the format, what it expands to, and strerror(errnum) if errnum > 0. *)
Record msg := mkMsg { m_fmt : list Z; m_text : list Z; m_err : option (list Z) }.

(** The C string at [p]. *)
Definition str_at (b : list Z) (p : nat) : res (list Z) :=
  do e <- find_nul (S (length b)) b p; slice b p (e - p).
(** What precedes the first newline (log.c:146-148). *)
Fixpoint upto_lf (s : list Z) : list Z :=
  match s with [] => [] | c :: s => if (c =? LF)%Z then [] else c :: upto_lf s end.

(** log.c:127-148: what log_err prints if log_file_fp is stderr (log.c:251, no timestamp)
    and what is in msg[] when it is written to the pipe.  [buf], [msgbuf]: the buffers
    before, [stamp]: the time. *)
Definition log_err (buf msgbuf stamp : list Z) (m : msg) : res (list Z * list Z) :=
  do r <- log_aux MAX_LINE buf stamp (Some (zs "ERROR")) (m_fmt m) (m_text m) (m_err m);
  let '(b, p, s) := r in
  do line <- str_at b p;
  do mb <- copy_msg msgbuf b s;
  do t <- str_at mb 0;
  Ok (line, upto_lf t).

(** server.c:234-241, 1024 bytes at most have been read into [ebuf]: what the parent prints
    with log_msg(priority, "%s", ebuf) to stderr.  [rest]: what ebuf holds after them. *)
Definition hear (buf stamp read rest : list Z) : res (list Z) :=
  match read with
  | [] => Ok []
  | c :: _ =>
      if (c =? NUL)%Z then Ok []
      else
        do t <- str_at (read ++ rest) 0;
        do r <- log_aux MAX_LINE buf stamp (Some (zs "ERROR")) (zs "%s") t None;
        let '(b, p, _) := r in
        str_at b p
  end.

(** ** The three processes *)

(** What a process does next: a call that may fail, with the log_err that follows; fork();
    log_set_file away from stderr (server.c:135, 138); log_set_err_pipe(-1); close() of the
    pipe. *)
Inductive act := Call (m : msg) | Fork (m : msg) | Quiet | Clear | Close (m : msg).

Inductive pc :=
| Run (l : list act)
| Say (m : msg)                           (* log_err: log.c:137 *)
| Tell (m : msg)                          (* 144 *)
| Send (m : msg)                          (* 154 *)
| Exit (code : Z)
| Serving.

(** [p_tty]: log_file_fp is stderr; [p_rep]: log_fd_daemonize is set; [p_end]: the process
    has the write end of the pipe. *)
Record proc := mkProc { p_pc : pc; p_tty : bool; p_rep : bool; p_end : bool }.

Inductive ppc := PPipe | PFork | PClose | PRead | PMsg | PDone (code : Z) | PBad.

Record st := mkSt { pp : ppc; ch : option proc; gc : option proc; pipe : list Z; tty : list (list Z) }.

Section Boot.
(** The messages: of the parent's calls (pipe 207, fork 217, close 228, read 231, read 235),
    the child's (close 247, setsid 253, fork 264), the close at the end (318). *)
Variables (m_pipe m_fork m_pclose m_read1 m_read2 m_cclose m_setsid m_fork2 m_close : msg).
(** The failing calls of the daemon before it turns away from stderr (server.c:111-139:
    process_config, ..., create_listen_socket, open_daemon_logfile) and after
    (end_daemonize, 291-310), and those after it (setup_nofile_limit, open_objs, 155-156). *)
Variables (w1 w2 w3 : list msg).
(** The buffers of the failing process and of the parent before, and the times. *)
Variables (buf msgbuf stamp pbuf pstamp rest : list Z).

Definition shown (m : msg) : list Z := match log_err buf msgbuf stamp m with Ok (l, _) => l | UB _ => [] end.
Definition told (m : msg) : list Z := match log_err buf msgbuf stamp m with Ok (_, t) => t | UB _ => [] end.

(** server.c:246-268 *)
Definition child_acts : list act := [Call m_cclose; Call m_setsid; Fork m_fork2].
(** server.c:111-156 *)
Definition daemon_acts : list act := map Call w1 ++ Quiet :: map Call w2 ++ Clear :: Close m_close :: map Call w3.

Definition boot : st := mkSt PPipe None None [] [].

(** Someone has the write end open: a read() of the empty pipe blocks. *)
Definition held (s : st) : bool :=
  match pp s with PClose => true | _ => false end ||
  match ch s with Some p => p_end p | None => false end || match gc s with Some p => p_end p | None => false end.

(** server.c:206-245; log_err in the parent prints to stderr (log.c:250) and exits, its
    log_fd_daemonize is -1. *)
Definition parent (s : st) (ok : bool) : option st :=
  let fails m := Some (mkSt (PDone 1) (ch s) (gc s) (pipe s) (tty s ++ [shown m])) in
  let goes q := Some (mkSt q (ch s) (gc s) (pipe s) (tty s)) in
  match pp s with
  | PPipe => if ok then goes PFork else fails m_pipe
  | PFork => if ok then Some (mkSt PClose (Some (mkProc (Run child_acts) true true true)) (gc s) (pipe s) (tty s)) else fails m_fork
  | PClose => if ok then goes PRead else fails m_pclose
  | PRead =>
      if ok then
        match pipe s with
        | [] => if held s then None else goes (PDone 0)                     (* 230, 244: n = 0 *)
        | c :: l => if (0 <=? c)%Z then Some (mkSt PMsg (ch s) (gc s) l (tty s)) else Some (mkSt (PDone 0) (ch s) (gc s) l (tty s))
        end
      else fails m_read1
  | PMsg =>
      if ok then
        match pipe s with
        | [] => if held s then None else goes (PDone 1)
        | _ =>
            match hear pbuf pstamp (firstn MAX_LINE (pipe s)) rest with
            | Ok [] => Some (mkSt (PDone 1) (ch s) (gc s) (skipn MAX_LINE (pipe s)) (tty s))
            | Ok l => Some (mkSt (PDone 1) (ch s) (gc s) (skipn MAX_LINE (pipe s)) (tty s ++ [l]))
            | UB _ => goes PBad
            end
        end
      else fails m_read2
  | PDone _ | PBad => None
  end.

(** One step of the child or of the daemon: the process, what is written to the pipe and
    shown, and the process that fork() has made. *)
Definition step_proc (p : proc) (ok : bool) : option (proc * list Z * list (list Z) * option proc) :=
  let to c := mkProc c (p_tty p) (p_rep p) (p_end p) in
  let bye c := mkProc (Exit c) (p_tty p) (p_rep p) false in
  match p_pc p with
  | Run (Call m :: l) => Some (to (if ok then Run l else Say m), [], [], None)
  | Run (Fork m :: l) =>
      if ok then Some (bye 0%Z, [], [], Some (mkProc (Run daemon_acts) (p_tty p) (p_rep p) (p_end p)))
      else Some (to (Say m), [], [], None)
  | Run (Quiet :: l) => Some (mkProc (Run l) false (p_rep p) (p_end p), [], [], None)
  | Run (Clear :: l) => Some (mkProc (Run l) (p_tty p) false (p_end p), [], [], None)
  | Run (Close m :: l) => Some (mkProc (if ok then Run l else Say m) (p_tty p) (p_rep p) false, [], [], None)
  | Run [] => Some (to Serving, [], [], None)
  | Say m => Some (if p_rep p then to (Tell m) else bye 1%Z, [], if p_tty p then [shown m] else [], None)
  | Tell m =>
      if ok then Some (match told m with [] => bye 1%Z | _ => if p_tty p then bye 1%Z else to (Send m) end, [3%Z], [], None)
      else Some (bye 1%Z, [], [], None)
  | Send m => Some (bye 1%Z, if ok then told m ++ [NUL] else [], [], None)  (* log.c:154: one write, at most 1024 bytes *)
  | Exit _ | Serving => None
  end.

Inductive who := Parent | Child | Daemon.
Inductive ev := Step (w : who) (ok : bool) | Kill (w : who).

Definition dead (p : proc) : proc := mkProc (Exit (-1)) (p_tty p) (p_rep p) false.

(** Any process that can do something does it, or is killed. *)
Definition step (s : st) (e : ev) : option st :=
  match e with
  | Step Parent ok => parent s ok
  | Step Child ok =>
      match ch s with
      | Some p => match step_proc p ok with
                  | Some (p', o, t, g) => Some (mkSt (pp s) (Some p') (match g with Some _ => g | None => gc s end) (pipe s ++ o) (tty s ++ t))
                  | None => None
                  end
      | None => None
      end
  | Step Daemon ok =>
      match gc s with
      | Some p => match step_proc p ok with
                  | Some (p', o, t, _) => Some (mkSt (pp s) (ch s) (Some p') (pipe s ++ o) (tty s ++ t))
                  | None => None
                  end
      | None => None
      end
  | Kill Parent => Some (mkSt (PDone (-1)) (ch s) (gc s) (pipe s) (tty s))
  | Kill Child => match ch s with Some p => Some (mkSt (pp s) (Some (dead p)) (gc s) (pipe s) (tty s)) | None => None end
  | Kill Daemon => match gc s with Some p => Some (mkSt (pp s) (ch s) (Some (dead p)) (pipe s) (tty s)) | None => None end
  end.

Fixpoint run (s : st) (l : list ev) : option st :=
  match l with
  | [] => Some s
  | e :: l => match step s e with Some s' => run s' l | None => None end
  end.
End Boot.

(** ** Descriptors *)

(** What a descriptor may refer to. *)
Inductive file := Given (n : nat) | Null | Wake0 | Wake1 | Rep0 | Rep1 | Conf | Sock | Logf.
Definition fds := nat -> option file.
Definition upd (t : fds) (n : nat) (f : option file) : fds := fun k => if k =? n then f else t k.

(** The lowest free descriptor, of the first [n]. *)
Fixpoint lowest (n : nat) (t : fds) (k : nat) : option nat :=
  match n with
  | 0 => None
  | S n => match t k with None => Some k | Some _ => lowest n t (S k) end
  end.
Definition open_ (limit : nat) (t : fds) (f : file) : option (fds * nat) :=
  match lowest limit t 0 with Some k => Some (upd t k (Some f), k) | None => None end.
Definition close_ (t : fds) (n : nat) : fds := upd t n None.
(** dup2(a, b) *)
Definition dup2 (t : fds) (a b : nat) : fds := if a =? b then t else upd t b (t a).

(** Where the daemon believes its files to be. *)
Record roles := mkRoles { r_wake0 : nat; r_wake1 : nat; r_conf : nat; r_sock : nat; r_log : option nat }.

Definition obind {A B} (o : option A) (f : A -> option B) : option B := match o with Some a => f a | None => None end.

(** server.c:288-319 *)
Definition end_fds (limit : nat) (t : fds) (rep1 : nat) : option fds :=
  obind (open_ limit t Null) (fun '(t, d) =>                                (* 296 *)
  let t := dup2 t d 0 in                                                    (* 299 *)
  let t := dup2 t d 1 in
  let t := dup2 t d 2 in
  let t := close_ t d in                                                    (* 308 *)
  Some (close_ t rep1)).                                                    (* 317 *)

(** server.c:91-148 in the surviving process: tpoll_create's pipe (tpoll.c:162), the pipe
    to the parent (206), whose read end the child closes (246), the configuration, which
    stays open for its lock (server-conf.c:396), the listening socket (645), the log file
    (881) if there is one [logs], end_daemonize.  Files that are opened and closed again on
    the way (the PID file, the resolver's) are left out. *)
Definition boot_fds (limit : nat) (logs : bool) (t : fds) : option (fds * roles) :=
  obind (open_ limit t Wake0) (fun '(t, wake0) =>
  obind (open_ limit t Wake1) (fun '(t, wake1) =>
  obind (open_ limit t Rep0) (fun '(t, rep0) =>
  obind (open_ limit t Rep1) (fun '(t, rep1) =>
  let t := close_ t rep0 in
  obind (open_ limit t Conf) (fun '(t, conf) =>
  obind (open_ limit t Sock) (fun '(t, sock) =>
  obind (if logs then obind (open_ limit t Logf) (fun '(t, l) => Some (t, Some l)) else Some (t, None)) (fun '(t, log) =>
  obind (end_fds limit t rep1) (fun t =>
  Some (t, mkRoles wake0 wake1 conf sock log))))))))).

(** ** Sessions and process groups *)

(** The ids of a process and whether it has a controlling terminal. *)
Record ids := mkIds { i_pid : nat; i_sid : nat; i_pgid : nat; i_ctty : bool }.
(** fork(): a new process id, the rest is inherited. *)
Definition forked (p : ids) (pid : nat) : ids := mkIds pid (i_sid p) (i_pgid p) (i_ctty p).
(** setsid(): fails for the leader of a process group. *)
Definition setsid (p : ids) : option ids :=
  if i_pgid p =? i_pid p then None else Some (mkIds (i_pid p) (i_pid p) (i_pid p) false).
(** open() of a terminal without O_NOCTTY: a session leader without one gets it. *)
Definition open_tty (p : ids) : ids := if (i_sid p =? i_pid p) && negb (i_ctty p) then mkIds (i_pid p) (i_sid p) (i_pgid p) true else p.
(** server.c:216-267: the daemon's ids and pgid, which is kept for kill(-pgid) at the end
    (166).  [None]: setsid() has failed. *)
Definition detach (p : ids) (pid1 pid2 : nat) : option (ids * nat) :=
  obind (setsid (forked p pid1)) (fun c => Some (forked c pid2, i_sid c)).
