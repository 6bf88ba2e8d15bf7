(** Model of where the daemon's messages go: src/log.c:log_set_file (84-98), log_set_syslog
    (101-117), log_msg (169-178), the end of log_aux (242-257), log_prefix (261-283), and
    src/server.c:main (102, 130-140), open_daemon_logfile (829-930), reopen_logfiles (949-951).

    A stream (FILE) is a number; what has been written to it is a list of the strings passed to
    fprintf().  Names of files, directories and locks are in [Inst*.v]; here fopen(), fileno(),
    get_write_lock(), fprintf() and fclose() have outcomes as arguments. *)
From Coq Require Import String.
From Verif Require Import Base Chars StrModel MsgModel.
Local Open Scope Z_scope.

(** syslog.h *)
Definition LOG_CRIT : Z := 2.
Definition LOG_ERR : Z := 3.
Definition LOG_WARNING : Z := 4.
Definition LOG_INFO : Z := 6.
Definition LOG_DEBUG : Z := 7.

(** log.c:261-283, log_prefix *)
Definition log_prefix (p : Z) : list Z :=
  if p =? 0 then zs "EMERGENCY" else if p =? 1 then zs "ALERT" else if p =? 2 then zs "CRITICAL" else if p =? 3 then zs "ERROR"
  else if p =? 4 then zs "WARNING" else if p =? 5 then zs "NOTICE" else if p =? 6 then zs "INFO" else if p =? 7 then zs "DEBUG" else zs "UNKNOWN".

(** A call of log_msg: the priority, the time, the format and what it expands to; [m_buf]: what
    is in log_aux's buffer before. *)
Record msg := mkMsg { m_prio : Z; m_stamp : list Z; m_fmt : list Z; m_text : list Z; m_buf : list Z }.
Definition str_at (b : list Z) (p : nat) : res (list Z) := do e <- find_nul (S (length b)) b p; slice b p (e - p)%nat.
(** log.c:194-240: the strings at buf, pbuf and sbuf *)
Definition strings (m : msg) : res (list Z * list Z * list Z) :=
  do r <- log_aux (Z.to_nat 1024) (m_buf m) (m_stamp m) (Some (log_prefix (m_prio m))) (m_fmt m) (m_text m) None;
  let '(b, p, s) := r in
  do whole <- str_at b 0;
  do part <- str_at b p;
  do text <- str_at b s;
  Ok (whole, part, text).

(** log.c:49-52, conf->logFilePtr; [g_open]: the streams that are open; [g_new]: the next stream
    that fopen() gives; [g_text], [g_err]: what has been written to a stream, to stderr;
    [g_sys]: to syslog() *)
Inductive dest := Stderr | File (n : nat).
Record lg := mkLg { g_fp : option dest; g_level : Z; g_time : bool; g_syslog : bool; g_ptr : option nat;
                    g_open : list nat; g_new : nat; g_text : nat -> list (list Z); g_err : list (list Z); g_sys : list (Z * list Z) }.
Definition isin (n : nat) (l : list nat) : bool := existsb (Nat.eqb n) l.
Definition to_syslog (p : Z) (t : list Z) (s : lg) : lg :=
  mkLg (g_fp s) (g_level s) (g_time s) (g_syslog s) (g_ptr s) (g_open s) (g_new s) (g_text s) (g_err s) (g_sys s ++ [(p, t)]).
Definition set_fp (fp : option dest) (s : lg) : lg :=
  mkLg fp (g_level s) (g_time s) (g_syslog s) (g_ptr s) (g_open s) (g_new s) (g_text s) (g_err s) (g_sys s).
(** fprintf(d, "%s", t); [ok]: it succeeds *)
Definition print (d : dest) (t : list Z) (ok : bool) (s : lg) : res (lg * bool) :=
  match d with
  | Stderr =>
      Ok (mkLg (g_fp s) (g_level s) (g_time s) (g_syslog s) (g_ptr s) (g_open s) (g_new s) (g_text s) (if ok then g_err s ++ [t] else g_err s) (g_sys s), ok)
  | File n =>
      if isin n (g_open s)
      then Ok (mkLg (g_fp s) (g_level s) (g_time s) (g_syslog s) (g_ptr s) (g_open s) (g_new s)
                    (fun k => if (k =? n)%nat && ok then g_text s k ++ [t] else g_text s k) (g_err s) (g_sys s), ok)
      else UB UseAfterFree
  end.
(** log.c:84-98, log_set_file; ferror() is false for a stream that was just opened *)
Definition log_set_file (fp : option dest) (priority : Z) (timestamp : bool) (s : lg) : lg :=
  match fp with
  | Some d => mkLg (Some d) (if 0 <? priority then priority else 0) timestamp (g_syslog s) (g_ptr s) (g_open s) (g_new s) (g_text s) (g_err s) (g_sys s)
  | None => mkLg None (-1) false (g_syslog s) (g_ptr s) (g_open s) (g_new s) (g_text s) (g_err s) (g_sys s)
  end.
(** log.c:169-178 and 247-257 *)
Definition stopped : list Z := zs "Logging stopped due to error".
Definition log_msg (m : msg) (ok : bool) (s : lg) : res lg :=
  do x <- strings m;
  let '(whole, part, text) := x in
  let s := if g_syslog s then to_syslog (m_prio m) text s else s in                          (* 247 *)
  match g_fp s with
  | Some d =>
      if m_prio m <=? g_level s then                                                        (* 250 *)
        do r <- print d (if g_time s then whole else part) ok s;
        let '(s, ok) := r in
        Ok (if ok then s else set_fp None (to_syslog LOG_CRIT stopped s))                   (* 252-255 *)
      else Ok s
  | None => Ok s
  end.
(** fclose(); a stream that is not open is undefined *)
Definition fclose (n : nat) (s : lg) : res lg :=
  if isin n (g_open s)
  then Ok (mkLg (g_fp s) (g_level s) (g_time s) (g_syslog s) (g_ptr s) (filter (fun k => negb (k =? n)%nat) (g_open s)) (g_new s) (g_text s) (g_err s) (g_sys s))
  else UB UseAfterFree.
Definition set_ptr (p : option nat) (s : lg) : lg :=
  mkLg (g_fp s) (g_level s) (g_time s) (g_syslog s) p (g_open s) (g_new s) (g_text s) (g_err s) (g_sys s).
(** 905-910, 922-927: the old stream; [warn]: the message if fclose() fails, and whether it can
    be written *)
Definition close_old (warn : option (msg * bool)) (s : lg) : res lg :=
  match g_ptr s with
  | None => Ok s
  | Some n =>
      do s <- fclose n s;
      match warn with None => Ok s | Some (m, ok) => log_msg m ok s end
  end.
(** The outcome of opening: not opened at all (name too long, 860-864, or fopen() fails, 884-888),
    opened but of no use (no descriptor or no lock, 889-899), opened; with the warning. *)
Inductive outcome := NoFile (m : msg) (ok : bool) | NoUse (m : msg) (ok : bool) | Opened.
(** server.c:829-930; [level]: conf->logFileLevel *)
Definition open_daemon_logfile (level : Z) (o : outcome) (warn : option (msg * bool)) (s : lg) : res lg :=
  let fopen s := mkLg (g_fp s) (g_level s) (g_time s) (g_syslog s) (g_ptr s) (g_new s :: g_open s) (S (g_new s)) (g_text s) (g_err s) (g_sys s) in
  let err s := do s <- close_old warn (log_set_file None 0 false s); Ok (set_ptr None s) in        (* 921-928 *)
  match o with
  | NoFile m ok => do s <- log_msg m ok s; err s
  | NoUse m ok =>
      let n := g_new s in
      do s <- log_msg m ok (fopen s);
      do s <- fclose n s;                                                                     (* 916-918 *)
      err s
  | Opened =>
      let n := g_new s in
      let s := log_set_file (Some (File n)) level true (fopen s) in                           (* 904 *)
      do s <- close_old warn s;
      Ok (set_ptr (Some n) s)                                                                 (* 911 *)
  end.
(** server.c:102; [dbg]: built for debugging *)
Definition first (dbg : bool) : lg :=
  log_set_file (Some Stderr) (if dbg then LOG_DEBUG else LOG_INFO) false (mkLg None (-1) false false None [] 0 (fun _ => []) [] []).
(** server.c:130-140: [fg]: in the foreground; [fac]: conf->syslogFacility; [name]: LOGFILE is
    set, with the outcome of opening it *)
Definition settle (fg : bool) (fac : Z) (level : Z) (name : option outcome) (s : lg) : res lg :=
  if fg then Ok s
  else
    let s := if 0 <? fac then mkLg (g_fp s) (g_level s) (g_time s) true (g_ptr s) (g_open s) (g_new s) (g_text s) (g_err s) (g_sys s) else s in
    match name with
    | Some o => open_daemon_logfile level o None s
    | None => Ok (log_set_file None 0 false s)
    end.

(** What happens then: messages, and requests to reopen (949-951). *)
Inductive op := Msg (m : msg) (ok : bool) | Reopen (o : outcome) (warn : option (msg * bool)).
Definition step (fg named : bool) (level : Z) (s : lg) (x : op) : res lg :=
  match x with
  | Msg m ok => log_msg m ok s
  | Reopen o warn => if named && negb fg then open_daemon_logfile level o warn s else Ok s
  end.
Fixpoint run (fg named : bool) (level : Z) (s : lg) (l : list op) : res lg :=
  match l with [] => Ok s | x :: l => do s <- step fg named level s x; run fg named level s l end.
(** The whole life: messages until 130, then [settle], then the rest. *)
Definition life (dbg fg : bool) (fac level : Z) (name : option outcome) (before : list (msg * bool)) (l : list op) : res lg :=
  let named := match name with Some _ => true | None => false end in
  do s <- run fg named level (first dbg) (map (fun x => Msg (fst x) (snd x)) before);
  do s <- settle fg fac level name s;
  run fg named level s l.

(** ** Threads *)
(** Threads that serve clients call log_msg while the main thread may be in
    open_daemon_logfile.  Each access to log_file_fp is a step of its own: the test in 250, the
    use in 251, and fprintf() itself. *)
Inductive pc := Ready (m : msg) | Tested (m : msg) | Loaded (m : msg) (d : option dest) | Done.
(** What the main thread is about to do: log_set_file, fclose() *)
Inductive todo := SetFile (fp : option dest) | Close (n : nat).
Record world := mkW { w_lg : lg; w_th : nat -> pc; w_main : list todo }.
Definition set_pc (t : nat) (p : pc) (f : nat -> pc) : nat -> pc := fun k => if (k =? t)%nat then p else f k.
(** The main thread in 900-911 ([good]) or 921-928, with a log that was open. *)
Definition halfway (good : bool) (th : nat -> pc) (s : lg) : world :=
  let old := match g_ptr s with Some n => [Close n] | None => [] end in
  if good
  then mkW (mkLg (g_fp s) (g_level s) (g_time s) (g_syslog s) (g_ptr s) (g_new s :: g_open s) (S (g_new s)) (g_text s) (g_err s) (g_sys s)) th
           (SetFile (Some (File (g_new s))) :: old)
  else mkW s th (SetFile None :: old).
Inductive turn := Main | Thread (t : nat) (ok : bool).
Definition turn_step (level : Z) (w : world) (x : turn) : res world :=
  match x with
  | Main =>
      match w_main w with
      | [] => Ok w
      | SetFile fp :: r => Ok (mkW (log_set_file fp level true (w_lg w)) (w_th w) r)
      | Close n :: r => do s <- fclose n (w_lg w); Ok (mkW s (w_th w) r)
      end
  | Thread t ok =>
      let s := w_lg w in
      match w_th w t with
      | Done => Ok w
      | Ready m =>
          do y <- strings m;
          let s1 := if g_syslog s then to_syslog (m_prio m) (snd y) s else s in
          let go := match g_fp s1 with Some _ => m_prio m <=? g_level s1 | None => false end in
          Ok (mkW s1 (set_pc t (if go then Tested m else Done) (w_th w)) (w_main w))
      | Tested m => Ok (mkW s (set_pc t (Loaded m (g_fp s)) (w_th w)) (w_main w))
      | Loaded m None => UB NullDeref
      | Loaded m (Some d) =>
          do y <- strings m;
          let '(whole, part, _) := y in
          do r <- print d (if g_time s then whole else part) ok s;
          let '(s, ok) := r in
          Ok (mkW (if ok then s else set_fp None (to_syslog LOG_CRIT stopped s)) (set_pc t Done (w_th w)) (w_main w))
      end
  end.
Fixpoint turns (level : Z) (w : world) (l : list turn) : res world :=
  match l with [] => Ok w | x :: l => do w <- turn_step level w x; turns level w l end.
