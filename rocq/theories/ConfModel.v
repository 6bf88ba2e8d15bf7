(** Model of the server's command line and configuration file:
    src/server-conf.c:323-381 (process_cmdline), 384-480 (process_config),
    506-578 (signal_daemon), 581-1482 (the three directives), 1577-1616,
    and of the recognition and creation of consoles:
    src/server-unixsock.c:57-159, src/server-telnet.c:63-151, src/server-serial.c:95-120
    and 319-372, src/server-process.c:59-212, src/server-ipmi.c:131-153 and 714-783,
    src/server-test.c:58-63 and 184-225.

    A C string is the list of its characters before the terminator.  Error messages are
    reduced to what they complain about. *)
From Coq Require Import String.
From Verif Require Import Base Chars Fmt LexModel LexSpec StrModel FnameModel OptModel.
Local Open Scope Z_scope.

(** ** What is outside the program *)

Inductive ftype := NoFile | Dir | Reg | Chr | Other.

(** [e_stat]: stat(2), NoFile when it fails; [e_rw], [e_x]: access(2) with R_OK|W_OK and
    X_OK; [e_sun]: sizeof(sun_path) - 1; [e_ipmi], [e_tcpw]: WITH_FREEIPMI and
    WITH_TCP_WRAPPERS; [e_wrap]: see OptModel.scan_d; [e_pid], [e_tm]: see FnameModel;
    [e_dbg]: assertions are checked. *)
Record env := mkEnv {
  e_dbg : bool;
  e_iso : bool;
  e_cwd : list Z;
  e_stat : list Z -> ftype;
  e_rw : list Z -> bool;
  e_x : list Z -> bool;
  e_sun : nat;
  e_ipmi : bool;
  e_tcpw : bool;
  e_wrap : Z -> Z;
  e_lib : lib;
  e_pid : Z;
  e_tm : Z -> list Z }.

(** limits.h *)
Definition PATH_MAX : nat := Z.to_nat 4096.

(** ** Objects *)

(** server.h:107-280, what the configuration says about a console *)
Inductive dev :=
| UnixSock (path : list Z)
| Telnet (host : list Z) (port : Z) (keepalive : bool)
| Serial (path : list Z) (o : seropt)
| Process (argv : list (list Z))
| Ipmi (host : list Z) (o : ipmiopt)
| Test (o : testopt).
Inductive cobj := OCon (name : list Z) (d : dev) | OLog (l : log) (o : logopt).

(** What a message complains about: no '=' after a keyword, a value of the wrong kind, a
    value that is not accepted; an unmatched quote; a token that does not belong there; a
    console without name or device; a console that cannot be created as told. *)
Inductive cerr := ENoEq (tok : Z) | EKind (tok : Z) | EValue (tok : Z) | EQuote | EToken (text : list Z) | EIncomplete | EConsole.

(** server.h:296-343 server_conf_t.  logDirName is never NULL (server-conf.c:272, 1233).
    [c_errs]: what has been logged.  [c_erange]: errno is ERANGE (see OptModel.process_test_opt);
    of the calls that fail and set errno to something else only stat() and access() are taken
    into account. *)
Record conf := mkConf {
  c_coredump : bool; c_coredir : option (list Z); c_execpath : option (list Z); c_keepalive : bool;
  c_logdir : list Z; c_logfile : option (list Z); c_loglevel : Z; c_loopback : bool; c_nofile : Z;
  c_pidfile : option (list Z); c_port : Z; c_resetcmd : option (list Z); c_syslog : Z; c_tcpwrap : bool; c_tstamp : Z;
  g_log : option (list Z); g_lopts : logopt; g_sopts : seropt; g_iopts : ipmiopt; g_topts : testopt;
  c_objs : list cobj; c_errs : list cerr; c_erange : bool }.

Definition set_coredump c v := mkConf v (c_coredir c) (c_execpath c) (c_keepalive c) (c_logdir c) (c_logfile c) (c_loglevel c) (c_loopback c) (c_nofile c) (c_pidfile c) (c_port c) (c_resetcmd c) (c_syslog c) (c_tcpwrap c) (c_tstamp c) (g_log c) (g_lopts c) (g_sopts c) (g_iopts c) (g_topts c) (c_objs c) (c_errs c) (c_erange c).
Definition set_coredir c v := mkConf (c_coredump c) v (c_execpath c) (c_keepalive c) (c_logdir c) (c_logfile c) (c_loglevel c) (c_loopback c) (c_nofile c) (c_pidfile c) (c_port c) (c_resetcmd c) (c_syslog c) (c_tcpwrap c) (c_tstamp c) (g_log c) (g_lopts c) (g_sopts c) (g_iopts c) (g_topts c) (c_objs c) (c_errs c) (c_erange c).
Definition set_execpath c v := mkConf (c_coredump c) (c_coredir c) v (c_keepalive c) (c_logdir c) (c_logfile c) (c_loglevel c) (c_loopback c) (c_nofile c) (c_pidfile c) (c_port c) (c_resetcmd c) (c_syslog c) (c_tcpwrap c) (c_tstamp c) (g_log c) (g_lopts c) (g_sopts c) (g_iopts c) (g_topts c) (c_objs c) (c_errs c) (c_erange c).
Definition set_keepalive c v := mkConf (c_coredump c) (c_coredir c) (c_execpath c) v (c_logdir c) (c_logfile c) (c_loglevel c) (c_loopback c) (c_nofile c) (c_pidfile c) (c_port c) (c_resetcmd c) (c_syslog c) (c_tcpwrap c) (c_tstamp c) (g_log c) (g_lopts c) (g_sopts c) (g_iopts c) (g_topts c) (c_objs c) (c_errs c) (c_erange c).
Definition set_logdir c v := mkConf (c_coredump c) (c_coredir c) (c_execpath c) (c_keepalive c) v (c_logfile c) (c_loglevel c) (c_loopback c) (c_nofile c) (c_pidfile c) (c_port c) (c_resetcmd c) (c_syslog c) (c_tcpwrap c) (c_tstamp c) (g_log c) (g_lopts c) (g_sopts c) (g_iopts c) (g_topts c) (c_objs c) (c_errs c) (c_erange c).
Definition set_logfile c v lv := mkConf (c_coredump c) (c_coredir c) (c_execpath c) (c_keepalive c) (c_logdir c) v lv (c_loopback c) (c_nofile c) (c_pidfile c) (c_port c) (c_resetcmd c) (c_syslog c) (c_tcpwrap c) (c_tstamp c) (g_log c) (g_lopts c) (g_sopts c) (g_iopts c) (g_topts c) (c_objs c) (c_errs c) (c_erange c).
Definition set_loopback c v := mkConf (c_coredump c) (c_coredir c) (c_execpath c) (c_keepalive c) (c_logdir c) (c_logfile c) (c_loglevel c) v (c_nofile c) (c_pidfile c) (c_port c) (c_resetcmd c) (c_syslog c) (c_tcpwrap c) (c_tstamp c) (g_log c) (g_lopts c) (g_sopts c) (g_iopts c) (g_topts c) (c_objs c) (c_errs c) (c_erange c).
Definition set_nofile c v := mkConf (c_coredump c) (c_coredir c) (c_execpath c) (c_keepalive c) (c_logdir c) (c_logfile c) (c_loglevel c) (c_loopback c) v (c_pidfile c) (c_port c) (c_resetcmd c) (c_syslog c) (c_tcpwrap c) (c_tstamp c) (g_log c) (g_lopts c) (g_sopts c) (g_iopts c) (g_topts c) (c_objs c) (c_errs c) (c_erange c).
Definition set_pidfile c v := mkConf (c_coredump c) (c_coredir c) (c_execpath c) (c_keepalive c) (c_logdir c) (c_logfile c) (c_loglevel c) (c_loopback c) (c_nofile c) v (c_port c) (c_resetcmd c) (c_syslog c) (c_tcpwrap c) (c_tstamp c) (g_log c) (g_lopts c) (g_sopts c) (g_iopts c) (g_topts c) (c_objs c) (c_errs c) (c_erange c).
Definition set_port c v := mkConf (c_coredump c) (c_coredir c) (c_execpath c) (c_keepalive c) (c_logdir c) (c_logfile c) (c_loglevel c) (c_loopback c) (c_nofile c) (c_pidfile c) v (c_resetcmd c) (c_syslog c) (c_tcpwrap c) (c_tstamp c) (g_log c) (g_lopts c) (g_sopts c) (g_iopts c) (g_topts c) (c_objs c) (c_errs c) (c_erange c).
Definition set_resetcmd c v := mkConf (c_coredump c) (c_coredir c) (c_execpath c) (c_keepalive c) (c_logdir c) (c_logfile c) (c_loglevel c) (c_loopback c) (c_nofile c) (c_pidfile c) (c_port c) v (c_syslog c) (c_tcpwrap c) (c_tstamp c) (g_log c) (g_lopts c) (g_sopts c) (g_iopts c) (g_topts c) (c_objs c) (c_errs c) (c_erange c).
Definition set_syslog c v := mkConf (c_coredump c) (c_coredir c) (c_execpath c) (c_keepalive c) (c_logdir c) (c_logfile c) (c_loglevel c) (c_loopback c) (c_nofile c) (c_pidfile c) (c_port c) (c_resetcmd c) v (c_tcpwrap c) (c_tstamp c) (g_log c) (g_lopts c) (g_sopts c) (g_iopts c) (g_topts c) (c_objs c) (c_errs c) (c_erange c).
Definition set_tcpwrap c v := mkConf (c_coredump c) (c_coredir c) (c_execpath c) (c_keepalive c) (c_logdir c) (c_logfile c) (c_loglevel c) (c_loopback c) (c_nofile c) (c_pidfile c) (c_port c) (c_resetcmd c) (c_syslog c) v (c_tstamp c) (g_log c) (g_lopts c) (g_sopts c) (g_iopts c) (g_topts c) (c_objs c) (c_errs c) (c_erange c).
Definition set_tstamp c v := mkConf (c_coredump c) (c_coredir c) (c_execpath c) (c_keepalive c) (c_logdir c) (c_logfile c) (c_loglevel c) (c_loopback c) (c_nofile c) (c_pidfile c) (c_port c) (c_resetcmd c) (c_syslog c) (c_tcpwrap c) v (g_log c) (g_lopts c) (g_sopts c) (g_iopts c) (g_topts c) (c_objs c) (c_errs c) (c_erange c).
Definition set_glog c v := mkConf (c_coredump c) (c_coredir c) (c_execpath c) (c_keepalive c) (c_logdir c) (c_logfile c) (c_loglevel c) (c_loopback c) (c_nofile c) (c_pidfile c) (c_port c) (c_resetcmd c) (c_syslog c) (c_tcpwrap c) (c_tstamp c) v (g_lopts c) (g_sopts c) (g_iopts c) (g_topts c) (c_objs c) (c_errs c) (c_erange c).
Definition set_glopts c v := mkConf (c_coredump c) (c_coredir c) (c_execpath c) (c_keepalive c) (c_logdir c) (c_logfile c) (c_loglevel c) (c_loopback c) (c_nofile c) (c_pidfile c) (c_port c) (c_resetcmd c) (c_syslog c) (c_tcpwrap c) (c_tstamp c) (g_log c) v (g_sopts c) (g_iopts c) (g_topts c) (c_objs c) (c_errs c) (c_erange c).
Definition set_gsopts c v := mkConf (c_coredump c) (c_coredir c) (c_execpath c) (c_keepalive c) (c_logdir c) (c_logfile c) (c_loglevel c) (c_loopback c) (c_nofile c) (c_pidfile c) (c_port c) (c_resetcmd c) (c_syslog c) (c_tcpwrap c) (c_tstamp c) (g_log c) (g_lopts c) v (g_iopts c) (g_topts c) (c_objs c) (c_errs c) (c_erange c).
Definition set_giopts c v := mkConf (c_coredump c) (c_coredir c) (c_execpath c) (c_keepalive c) (c_logdir c) (c_logfile c) (c_loglevel c) (c_loopback c) (c_nofile c) (c_pidfile c) (c_port c) (c_resetcmd c) (c_syslog c) (c_tcpwrap c) (c_tstamp c) (g_log c) (g_lopts c) (g_sopts c) v (g_topts c) (c_objs c) (c_errs c) (c_erange c).
Definition set_gtopts c v er := mkConf (c_coredump c) (c_coredir c) (c_execpath c) (c_keepalive c) (c_logdir c) (c_logfile c) (c_loglevel c) (c_loopback c) (c_nofile c) (c_pidfile c) (c_port c) (c_resetcmd c) (c_syslog c) (c_tcpwrap c) (c_tstamp c) (g_log c) (g_lopts c) (g_sopts c) (g_iopts c) v (c_objs c) (c_errs c) er.
Definition set_erange c er := mkConf (c_coredump c) (c_coredir c) (c_execpath c) (c_keepalive c) (c_logdir c) (c_logfile c) (c_loglevel c) (c_loopback c) (c_nofile c) (c_pidfile c) (c_port c) (c_resetcmd c) (c_syslog c) (c_tcpwrap c) (c_tstamp c) (g_log c) (g_lopts c) (g_sopts c) (g_iopts c) (g_topts c) (c_objs c) (c_errs c) er.
Definition set_objs c v er := mkConf (c_coredump c) (c_coredir c) (c_execpath c) (c_keepalive c) (c_logdir c) (c_logfile c) (c_loglevel c) (c_loopback c) (c_nofile c) (c_pidfile c) (c_port c) (c_resetcmd c) (c_syslog c) (c_tcpwrap c) (c_tstamp c) (g_log c) (g_lopts c) (g_sopts c) (g_iopts c) (g_topts c) v (c_errs c) er.
Definition add_err c e := mkConf (c_coredump c) (c_coredir c) (c_execpath c) (c_keepalive c) (c_logdir c) (c_logfile c) (c_loglevel c) (c_loopback c) (c_nofile c) (c_pidfile c) (c_port c) (c_resetcmd c) (c_syslog c) (c_tcpwrap c) (c_tstamp c) (g_log c) (g_lopts c) (g_sopts c) (g_iopts c) (g_topts c) (c_objs c) (c_errs c ++ [e]) (c_erange c).

(** syslog.h *)
Definition LOG_INFO := 6.

(** server-conf.c:199-274 create_server_conf; [io]: init_ipmi_opts(), [so], [lo]: the
    defaults of server.h:88-96 *)
Definition create_server_conf (E : env) (lo : logopt) (so : seropt) (io : ipmiopt) : conf :=
  mkConf false None None true (e_cwd E) None LOG_INFO true 0 None (-1) None (-1) false 0
    None lo so io init_test_opts [] [] false.

(** ** Devices *)

Definition has_char (c : Z) (s : list Z) : bool := existsb (Z.eqb c) s.
(** snprintf(buf, sizeof(buf), "%s/%s", cwd, dev) with PATH_MAX; None: does not fit *)
Definition join (dir file : list Z) : option (list Z) :=
  let p := (dir ++ SLASH :: file)%list in if (PATH_MAX <=? length p)%nat then None else Some p.
Definition absolute (s : list Z) : bool := match s with c :: _ => c =? SLASH | [] => false end.
Definition full_path (cwd s : list Z) : option (list Z) := if absolute s then Some s else join cwd s.
(** strncasecmp(s, prefix, strlen(prefix)) == 0 *)
Definition starts (prefix : string) (s : list Z) : bool :=
  strcasecmp (firstn (length (zs prefix)) s) (zs prefix) =? 0.

(** server-unixsock.c:57-83 *)
Definition is_unixsock_dev (E : env) (s : list Z) : option (list Z) :=
  if starts "unix:" s then
    match skipn 5 s with [] => None | p => full_path (e_cwd E) p end
  else None.

(** strchr(s, ':'): what is before and after *)
Fixpoint at_colon (s : list Z) : option (list Z * list Z) :=
  match s with
  | [] => None
  | c :: t => if c =? COLON then Some ([], t) else match at_colon t with Some (a, b) => Some (c :: a, b) | None => None end
  end.
(** server-telnet.c:63-91 *)
Definition is_telnet_dev (s : list Z) : res (option (list Z * Z)) :=
  if (MAX_LINE <=? length s)%nat then Ok None
  else
    match at_colon s with
    | None => Ok None
    | Some (host, p) =>
        if (length p =? 0)%nat || negb (forallb isdigit p) then Ok None
        else do port <- atoi p; Ok (Some (host, port))
    end.

(** server-serial.c:95-120 *)
Definition is_serial_dev (E : env) (s : list Z) : option (list Z) :=
  match full_path (e_cwd E) s with
  | Some p => match e_stat E p with Chr => Some p | _ => None end
  | None => None
  end.

(** server-process.c:117-123: the elements of a search path *)
Fixpoint elements (cur s : list Z) : list (list Z) :=
  match s with
  | [] => match cur with [] => [] | _ => [rev cur] end
  | c :: t => if c =? COLON then rev cur :: elements [] t else elements (c :: cur) t
  end.
(** server-process.c:124-142 *)
Fixpoint search_loop (E : env) (src : list Z) (dirs : list (list Z)) : option (list Z) :=
  match dirs with
  | [] => None
  | d :: dirs =>
      match e_stat E d with
      | Dir =>
          match join d src with
          | Some f => if e_x E f then Some f else search_loop E src dirs
          | None => search_loop E src dirs
          end
      | _ => search_loop E src dirs
      end
  end.
(** server-process.c:95-145 *)
Definition search_exec_path (E : env) (path : option (list Z)) (src : list Z) : option (list Z) :=
  match path with
  | None => None
  | Some p => if (PATH_MAX <=? length p)%nat then None else search_loop E src (elements [] p)
  end.
(** server-process.c:59-92 *)
Definition is_process_dev (E : env) (path : option (list Z)) (s : list Z) : option (list Z) :=
  let d := match (if has_char SLASH s then None else search_exec_path E path s) with
           | Some f => Some f
           | None => full_path (e_cwd E) s
           end in
  match d with
  | Some p => match e_stat E p with Reg => if e_x E p then Some p else None | _ => None end
  | None => None
  end.

(** server-ipmi.c:131-153 *)
Definition is_ipmi_dev (s : list Z) : option (list Z) :=
  if starts "ipmi:" s then match skipn 5 s with [] => None | h => Some h end else None.
(** server-test.c:58-63 *)
Definition is_test_dev (s : list Z) : bool := strcasecmp s (zs "test:") =? 0.

(** ** Creating consoles *)

Definition has_name (name : list Z) (o : cobj) : bool :=
  match o with OCon n _ => strcmp n name =? 0 | OLog _ _ => false end.
(** Another console of the same type on the same device. *)
Definition same_dev (d : dev) (o : cobj) : bool :=
  match o, d with
  | OCon _ (UnixSock p), UnixSock q => strcmp p q =? 0
  | OCon _ (Serial p _), Serial q _ => strcmp p q =? 0
  | OCon _ (Ipmi p _), Ipmi q _ => strcmp p q =? 0
  | _, _ => false
  end.
(** The checks of create_unixsock_obj (server-unixsock.c:103-138), create_telnet_obj
    (server-telnet.c:107-131), create_serial_obj (server-serial.c:340-361),
    create_process_obj (server-process.c:169-182), create_ipmi_obj (server-ipmi.c:729-750)
    and create_test_obj (server-test.c:199-212), and the new object at the end of the list.
    The watch that create_unixsock_obj() asks for is left out here. *)
Definition create_console (E : env) (name : list Z) (d : dev) (objs : list cobj) : res (option (list cobj)) :=
  do _ <- assert_if (e_dbg E) (match d with Telnet [] _ _ => false | _ => true end);   (* server-telnet.c:107 *)
  let bad := match d with
             | UnixSock p => (e_sun E <? length p)%nat
             | Telnet _ port _ => port <=? 0
             | _ => false
             end in
  if bad || existsb (fun o => has_name name o || same_dev d o) objs then Ok None
  else Ok (Some (objs ++ [OCon name d])%list).

(** What format_obj_string() uses of a console. *)
Definition view (name : list Z) (d : dev) : conobj :=
  mkObj name (match d with
              | UnixSock p => DFile p
              | Serial p _ => DFile p
              | Telnet h p _ => DTelnet h p
              | _ => DNone
              end).
Fixpoint logs_of (objs : list cobj) : list log :=
  match objs with [] => [] | OLog l _ :: t => l :: logs_of t | _ :: t => logs_of t end.
(** server-logfile.c:206-213 *)
Fixpoint insert_before (name : list Z) (x : cobj) (objs : list cobj) : list cobj :=
  match objs with
  | [] => []
  | o :: t => if has_name name o then x :: o :: t else o :: insert_before name x t
  end.

(** ** process_console *)

(** server-conf.c:173-183 *)
Record constrs := mkStrs {
  n_name : option (list Z); n_dev : option (list Z); n_log : option (list Z);
  n_lopts : option (list Z); n_sopts : option (list Z); n_iopts : option (list Z); n_topts : option (list Z) }.

(** server-conf.c:800-811: the words of the device string; "%N" is replaced in those
    that are not in single quotes *)
Fixpoint subst_words (name buf : list Z) (ws : list (nat * Z)) : res (option (list (list Z))) :=
  match ws with
  | [] => Ok (Some [])
  | (p, q) :: ws =>
      do w <- c_string (skipn p buf);
      do w <- (if q =? QUOTE then Ok (Some w)
               else do r <- substitute_string (repeat 0 MAX_LINE) MAX_LINE (cstr w) 78 (Some (cstr name));
                    let '(dst, rv) := r in
                    if rv <? 0 then Ok None else do s <- c_string dst; Ok (Some s));
      match w with
      | None => Ok None
      | Some w => do r <- subst_words name buf ws; Ok (match r with None => None | Some l => Some (w :: l) end)
      end
  end.
Definition dev_args (E : env) (name s : list Z) : res (option (list (list Z))) :=
  do r <- parse_words (S (length (cstr s))) (e_iso E) (cstr s) 0;
  let '(ws, buf, rc) := r in
  do a <- subst_words name buf ws;
  match a with
  | None => Ok None
  | Some a => if rc <? 0 then Ok None else Ok (Some a)
  end.

(** errno after stat(p) and after access(p, X_OK), if it was ERANGE only if [er] *)
Definition stat_er (E : env) (p : list Z) (er : bool) : bool := match e_stat E p with NoFile => false | _ => er end.
Definition x_er (E : env) (p : list Z) (er : bool) : bool := er && e_x E p.
(** errno after is_serial_dev(), search_exec_path() and is_process_dev() have said no *)
Definition serial_er (E : env) (s : list Z) (er : bool) : bool :=
  match full_path (e_cwd E) s with Some p => stat_er E p er | None => er end.
Fixpoint search_er (E : env) (src : list Z) (dirs : list (list Z)) (er : bool) : bool :=
  match dirs with
  | [] => er
  | d :: dirs =>
      match e_stat E d with
      | Dir =>
          match join d src with
          | Some f => if e_x E f then er else search_er E src dirs false
          | None => search_er E src dirs er
          end
      | _ => search_er E src dirs (stat_er E d er)
      end
  end.
Definition process_er (E : env) (path : option (list Z)) (s : list Z) (er : bool) : bool :=
  let search := if has_char SLASH s then None else path in
  let er := match search with
            | Some p => if (PATH_MAX <=? length p)%nat then er else search_er E s (elements [] p) er
            | None => er
            end in
  match search_exec_path E search s with
  | Some p => x_er E p (stat_er E p er)
  | None => match full_path (e_cwd E) s with Some p => x_er E p (stat_er E p er) | None => er end
  end.

(** server-conf.c:822-922: the device with its options, and errno *)
Definition find_dev (E : env) (c : conf) (n : constrs) (args : list (list Z)) : res (option dev * bool) :=
  let er := c_erange c in
  match args with
  | [] => Ok (None, er)
  | arg0 :: more =>
      let one_arg := match more with [] => true | _ => false end in
      match is_unixsock_dev E arg0 with
      | Some p => Ok (if one_arg then Some (UnixSock p) else None, er)
      | None =>
          do t <- is_telnet_dev arg0;
          match t with
          | Some (host, port) => Ok (if one_arg then Some (Telnet host port (c_keepalive c)) else None, er)
          | None =>
              match is_serial_dev E arg0 with
              | Some p =>
                  if negb one_arg then Ok (None, er)
                  else if negb (e_rw E p) then Ok (None, false)
                  else
                    match n_sopts n with
                    | None => Ok (Some (Serial p (g_sopts c)), er)
                    | Some s => Ok (match parse_serial_opts (e_wrap E) (g_sopts c) s with
                                    | Some o => Some (Serial p o) | None => None end, er)
                    end
              | None =>
                  let er := serial_er E arg0 er in
                  match is_process_dev E (c_execpath c) arg0 with
                  | Some p => Ok (Some (Process (p :: more)), er)
                  | None =>
                      let er := process_er E (c_execpath c) arg0 er in
                      match (if e_ipmi E then is_ipmi_dev arg0 else None) with
                      | Some h =>
                          if negb one_arg then Ok (None, er)
                          else
                            match n_iopts n with
                            | None => Ok (Some (Ipmi h (g_iopts c)), er)
                            | Some s =>
                                do o <- parse_ipmi_opts (e_lib E) (g_iopts c) s;
                                Ok (match o with Some o => Some (Ipmi h o) | None => None end, er)
                            end
                      | None =>
                          if negb (is_test_dev arg0) || negb one_arg then Ok (None, er)
                          else
                            match n_topts n with
                            | None => Ok (Some (Test (g_topts c)), er)
                            | Some s =>
                                let '(o, er) := parse_test_opts er (g_topts c) s in
                                Ok (match o with Some o => Some (Test o) | None => None end, er)
                            end
                      end
                  end
              end
          end
      end
  end.

(** the name of the log, if there is to be one: server-conf.c:923-935; the buffer has
    MAX_LINE bytes *)
Definition log_name (c : conf) (n : constrs) : option (list Z) :=
  match n_log n with
  | Some [] => None
  | Some s => Some (firstn (MAX_LINE - 1) s)
  | None =>
      match g_log c with
      | None => None
      | Some g => Some (firstn (MAX_LINE - 1) (if absolute g then g else c_logdir c ++ SLASH :: g)%list)
      end
  end.

(** server-conf.c:766-956; true: an error is reported *)
Definition process_console (E : env) (c : conf) (name sdev : list Z) (n : constrs) : res (conf * bool) :=
  do a <- dev_args E name sdev;
  match a with
  | None => Ok (c, true)
  | Some args =>
      do f <- find_dev E c n args;
      let '(d, er) := f in
      match d with
      | None => Ok (set_objs c (c_objs c) er, true)
      | Some d =>
          do m <- create_console E name d (c_objs c);
          match m with
          | None => Ok (set_objs c (c_objs c) er, true)
          | Some objs =>
              let c := set_objs c objs er in
              match log_name c n with
              | None => Ok (c, false)
              | Some lname =>
                  match (match n_lopts n with None => Some (g_lopts c) | Some s => parse_logfile_opts (g_lopts c) s end) with
                  | None => Ok (c, true)
                  | Some lo =>
                      do r <- create_logfile (e_iso E) (e_pid E) (e_tm E) (repeat 0 MAX_LINE) lname (view name d) (logs_of objs);
                      match r with
                      | None => Ok (c, true)
                      | Some ls =>
                          match rev ls with
                          | l :: _ => Ok (set_objs c (insert_before name (OLog l lo) objs) er, false)
                          | [] => UB AssertFail
                          end
                      end
                  end
              end
          end
      end
  end.

(** ** Reading tokens *)

(** The lexer as the parser sees it: lex_prev(), lex_text() and the tokens that
    further calls of lex_next() return.  (The parser does nothing else to it.) *)
Record strm := mkStrm { prev : Z; text : list Z; rest : list (Z * list Z) }.
Definition next (s : strm) : strm :=
  match rest s with
  | [] => mkStrm LEX_EOF [] []
  | (k, x) :: r => mkStrm k x r
  end.
Definition at_end (k : Z) : bool := (k =? LEX_EOL) || (k =? LEX_EOF).
(** while (lex_prev(l) != LEX_EOL && lex_prev(l) != LEX_EOF) lex_next(l) *)
Fixpoint skip_toks (k : Z) (x : list Z) (r : list (Z * list Z)) : strm :=
  if at_end k then mkStrm k x r
  else match r with
       | [] => mkStrm LEX_EOF [] []
       | (k, x) :: r => skip_toks k x r
       end.
Definition skip_line (s : strm) : strm := skip_toks (prev s) (text s) (rest s).

(** server-conf.c:54-85: the token of a keyword is LEX_TOK_OFFSET plus its position in
    server_conf_strs; the enumeration has the keywords in the same order.  A name that is not in
    the table has no token. *)
Fixpoint position (w : list Z) (i : Z) (l : list (list Z)) : option Z :=
  match l with [] => None | t :: l => if list_eqb w t then Some i else position w (i + 1) l end.
Definition kw (E : env) (s : string) : Z :=
  match position (zs s) LEX_TOK_OFFSET (server_conf_strs (e_ipmi E)) with Some k => k | None => -1000 end.

(** Every keyword begins by asking for '=' and a value:
    if (lex_next(l) != '=') error; else if (lex_next(l) ...) *)
Definition eq_val (s : strm) : strm * bool :=
  let s := next s in if prev s =? EQUALS then (next s, true) else (s, false).

(** server-conf.c:600-737 and the like: the loop over the keywords of a directive.  [kwd]
    deals with the keyword just read.  [n] bounds the number of rounds. *)
Fixpoint dir_loop {A} (kwd : A -> strm -> res (A * option cerr * strm)) (n : nat) (a : A) (s : strm)
    : res (A * option cerr * strm) :=
  match n with
  | O => UB OutOfFuel
  | S n' =>
      let s := next s in
      if at_end (prev s) then Ok (a, None, s)
      else if prev s =? LEX_ERR then Ok (a, Some EQuote, s)
      else
        do r <- kwd a s;
        let '(a, e, s) := r in
        match e with
        | Some e => Ok (a, Some e, s)
        | None => dir_loop kwd n' a s
        end
  end.
Definition fuel_of (s : strm) : nat := S (length (rest s)).

(** A keyword whose value is dealt with by [f]. *)
Definition valued {A} (f : A -> Z -> list Z -> res (A * option cerr)) (a : A) (s : strm) : res (A * option cerr * strm) :=
  let tok := prev s in
  let '(s, ok) := eq_val s in
  if negb ok then Ok (a, Some (ENoEq tok), s)
  else do r <- f a (prev s) (text s); Ok (fst r, snd r, s).

(** lex_next(l) != LEX_STR || is_empty_string(lex_text(l)) *)
Definition full_str (E : env) (k : Z) (x : list Z) : res bool :=
  if k =? LEX_STR then do e <- is_empty_string (e_iso E) x; Ok (negb e) else Ok false.

(** ** CONSOLE *)

Definition upd_name n v := mkStrs v (n_dev n) (n_log n) (n_lopts n) (n_sopts n) (n_iopts n) (n_topts n).
Definition upd_dev n v := mkStrs (n_name n) v (n_log n) (n_lopts n) (n_sopts n) (n_iopts n) (n_topts n).
Definition upd_log n v := mkStrs (n_name n) (n_dev n) v (n_lopts n) (n_sopts n) (n_iopts n) (n_topts n).
Definition upd_lopts n v := mkStrs (n_name n) (n_dev n) (n_log n) v (n_sopts n) (n_iopts n) (n_topts n).
Definition upd_sopts n v := mkStrs (n_name n) (n_dev n) (n_log n) (n_lopts n) v (n_iopts n) (n_topts n).
Definition upd_iopts n v := mkStrs (n_name n) (n_dev n) (n_log n) (n_lopts n) (n_sopts n) v (n_topts n).
Definition upd_topts n v := mkStrs (n_name n) (n_dev n) (n_log n) (n_lopts n) (n_sopts n) (n_iopts n) v.

(** common.h:64-65: DEPRECATED_CONF_ESCAPE.  DO_CONF_ESCAPE_ERROR is defined (as 0) and the
    code asks "#ifdef", so the test for it is compiled. *)
Definition AMP : Z := 38.

(** server-conf.c:603-722 after '=' *)
Definition console_val (E : env) (c : conf) (tok : Z) (n : constrs) (k : Z) (x : list Z) : res (constrs * option cerr) :=
  if tok =? kw E "LOG" then                                                  (* 640 *)
    if negb (k =? LEX_STR) then Ok (n, Some (EKind tok))
    else if has_char AMP x then Ok (n, Some (EValue tok))
    else do e <- is_empty_string (e_iso E) x;
         if e then Ok (upd_log n (Some []), None)
         else Ok (upd_log n (Some (if absolute x then x else c_logdir c ++ SLASH :: x)%list), None)
  else if tok =? kw E "IPMIOPTS" then                                        (* 700 *)
    if negb (k =? LEX_STR) then Ok (n, Some (EKind tok)) else Ok (upd_iopts n (Some x), None)
  else if tok =? kw E "TESTOPTS" then                                        (* 715 *)
    if negb (k =? LEX_STR) then Ok (n, Some (EKind tok)) else Ok (upd_topts n (Some x), None)
  else
    do ok <- full_str E k x;
    if negb ok then Ok (n, Some (EKind tok))
    else if tok =? kw E "NAME" then Ok (upd_name n (Some x), None)
    else if tok =? kw E "DEV" then Ok (upd_dev n (Some x), None)
    else if tok =? kw E "LOGOPTS" then Ok (upd_lopts n (Some x), None)
    else Ok (upd_sopts n (Some x), None).

Definition console_kws : list string := ["NAME"; "DEV"; "LOG"; "LOGOPTS"; "SEROPTS"; "IPMIOPTS"; "TESTOPTS"]%string.
Definition among (E : env) (tok : Z) (l : list string) : bool := existsb (fun s => tok =? kw E s) l.

(** server-conf.c:603-736 *)
Definition console_kwd (E : env) (c : conf) (n : constrs) (s : strm) : res (constrs * option cerr * strm) :=
  if among E (prev s) console_kws then valued (console_val E c (prev s)) n s
  else Ok (n, Some (EToken (text s)), s).

(** server-conf.c:746-752, 1092-1098, 1474-1480 *)
Definition finish (c : conf) (e : option cerr) (s : strm) : conf * strm :=
  match e with
  | None => (c, s)
  | Some e => (add_err c e, skip_line s)
  end.

(** server-conf.c:581-763 *)
Definition parse_console_directive (E : env) (c : conf) (s : strm) : res (conf * strm) :=
  do r <- dir_loop (console_kwd E c) (fuel_of s) (mkStrs None None None None None None None) s;
  let '(n, e, s) := r in
  match e with
  | Some _ => Ok (finish c e s)
  | None =>
      match n_name n, n_dev n with
      | Some name, Some d =>
          do p <- process_console E c name d n;
          let '(c, bad) := p in
          Ok (finish c (if bad then Some EConsole else None) s)
      | _, _ => Ok (finish c (Some EIncomplete) s)
      end
  end.

(** ** GLOBAL *)

(** strstr(s, "%" c) *)
Fixpoint has_spec (c : Z) (s : list Z) : bool :=
  match s with
  | a :: t => ((a =? PERCENT) && match t with b :: _ => b =? c | [] => false end) || has_spec c t
  | [] => false
  end.

(** server-conf.c:974-1075 after '=' *)
Definition global_val (E : env) (tok : Z) (c : conf) (k : Z) (x : list Z) : res (conf * option cerr) :=
  if tok =? kw E "LOG" then
    if negb (k =? LEX_STR) then Ok (c, Some (EKind tok))
    else do e <- is_empty_string (e_iso E) x;
         if e then Ok (set_glog c None, None)
         else if has_char AMP x then Ok (c, Some (EValue tok))
         else if negb (has_spec 78 x) && negb (has_spec 68 x) then Ok (c, Some (EValue tok))
         else Ok (set_glog c (Some x), None)
  else
    do ok <- full_str E k x;
    if negb ok then Ok (c, Some (EKind tok))
    else if tok =? kw E "LOGOPTS" then
      Ok (match parse_logfile_opts (g_lopts c) x with Some o => (set_glopts c o, None) | None => (c, Some (EValue tok)) end)
    else if tok =? kw E "SEROPTS" then
      Ok (match parse_serial_opts (e_wrap E) (g_sopts c) x with Some o => (set_gsopts c o, None) | None => (c, Some (EValue tok)) end)
    else if tok =? kw E "IPMIOPTS" then
      do o <- parse_ipmi_opts (e_lib E) (g_iopts c) x;
      Ok (match o with Some o => (set_giopts c o, None) | None => (c, Some (EValue tok)) end)
    else
      Ok (match parse_test_opts (c_erange c) (g_topts c) x with
          | (Some o, er) => (set_gtopts c o er, None)
          | (None, er) => (set_gtopts c (g_topts c) er, Some (EValue tok))
          end).
Definition global_kws : list string := ["LOG"; "LOGOPTS"; "SEROPTS"; "IPMIOPTS"; "TESTOPTS"]%string.
Definition global_kwd (E : env) (c : conf) (s : strm) : res (conf * option cerr * strm) :=
  if among E (prev s) global_kws then valued (global_val E (prev s)) c s
  else Ok (c, Some (EToken (text s)), s).
(** server-conf.c:959-1100 *)
Definition parse_global_directive (E : env) (c : conf) (s : strm) : res (conf * strm) :=
  do r <- dir_loop (global_kwd E) (fuel_of s) c s;
  let '(c, e, s) := r in Ok (finish c e s).

(** ** SERVER *)

(** server-conf.c:132-171, the values of syslog.h *)
Definition logPriorities : list (string * Z) :=
  [("alert", 1); ("crit", 2); ("critical", 2); ("debug", 7); ("emerg", 0); ("emergency", 0); ("err", 3); ("error", 3);
   ("info", 6); ("notice", 5); ("panic", 0); ("warn", 4); ("warning", 4)]%string.
Definition logFacilities : list (string * Z) :=
  [("auth", 32); ("authpriv", 80); ("cron", 72); ("daemon", 24); ("kern", 0); ("lpr", 48); ("mail", 16); ("news", 56);
   ("user", 8); ("uucp", 64); ("local0", 128); ("local1", 136); ("local2", 144); ("local3", 152); ("local4", 160);
   ("local5", 168); ("local6", 176); ("local7", 184)]%string.
Fixpoint skip_isspace (iso : bool) (s : list Z) : res (list Z) :=
  match s with
  | [] => Ok []
  | c :: t => do b <- ctype iso isspace c; if b then skip_isspace iso t else Ok s
  end.
Fixpoint find_tag (s : list Z) (l : list (string * Z)) : Z :=
  match l with [] => -1 | (k, v) :: l => if strcasecmp (zs k) s =? 0 then v else find_tag s l end.
(** server-conf.c:1577-1616 *)
Definition lookup_tag (iso : bool) (tags : list (string * Z)) (s : list Z) : res Z :=
  do t <- skip_isspace iso s; Ok (find_tag t tags).

(** strrchr(s, ','): what is before and after *)
Fixpoint at_last_comma (s : list Z) : option (list Z * list Z) :=
  match s with
  | [] => None
  | c :: t =>
      match at_last_comma t with
      | Some (a, b) => Some (c :: a, b)
      | None => if c =? COMMA then Some ([], t) else None
      end
  end.
(** server-conf.c:1175-1178 *)
Fixpoint drop_slashes (s : list Z) : list Z :=
  match s with
  | c :: t => match t with
              | [] => s
              | _ => match drop_slashes t with
                     | [d] => if d =? SLASH then [c] else [c; d]
                     | t' => c :: t'
                     end
              end
  | [] => []
  end.

(** "expected ON or OFF" *)
Definition on_off (E : env) (tok : Z) (f : bool -> conf) (c : conf) (k : Z) : conf * option cerr :=
  if k =? kw E "ON" then (f true, None) else if k =? kw E "OFF" then (f false, None) else (c, Some (EKind tok)).

(** server-conf.c:1126-1410 after '=' *)
Definition server_val (E : env) (pid_set port_set : bool) (tok : Z) (c : conf) (k : Z) (x : list Z) : res (conf * option cerr) :=
  let is s := tok =? kw E s in
  if is "COREDUMP"%string then Ok (on_off E tok (set_coredump c) c k)
  else if is "KEEPALIVE"%string then Ok (on_off E tok (set_keepalive c) c k)
  else if is "LOOPBACK"%string then Ok (on_off E tok (set_loopback c) c k)
  else if is "TCPWRAPPERS"%string then Ok (on_off E tok (set_tcpwrap c) c k)
  else if is "NOFILE"%string then                                            (* 1298 *)
    if negb (k =? LEX_INT) then Ok (c, Some (EKind tok)) else do n <- atoi x; Ok (set_nofile c n, None)
  else if is "PORT"%string then                                              (* 1335 *)
    if negb (k =? LEX_INT) then Ok (c, Some (EKind tok))
    else do n <- atoi x;
         if n <? 0 then Ok (c, Some (EValue tok))
         else Ok (if port_set then c else set_port c n, None)
  else if is "COREDUMPDIR"%string then                                       (* 1150 *)
    if negb (k =? LEX_STR) then Ok (c, Some (EKind tok))
    else do e <- is_empty_string (e_iso E) x;
         if e then Ok (set_coredir c None, None)
         else match e_stat E x with
              | Dir => Ok (set_coredir c (Some (drop_slashes (if absolute x then x else e_cwd E ++ SLASH :: x)%list)), None)
              | _ => Ok (set_erange c (stat_er E x (c_erange c)), Some (EValue tok))
              end
  else if is "EXECPATH"%string then                                          (* 1187 *)
    if negb (k =? LEX_STR) then Ok (c, Some (EKind tok))
    else if (PATH_MAX <=? length x)%nat then Ok (c, Some (EValue tok))
    else do e <- is_empty_string (e_iso E) x; Ok (set_execpath c (if e then None else Some x), None)
  else if is "LOGDIR"%string then                                            (* 1227 *)
    if negb (k =? LEX_STR) then Ok (c, Some (EKind tok))
    else do e <- is_empty_string (e_iso E) x;
         Ok (set_logdir c (if e then e_cwd E else if absolute x then x else e_cwd E ++ SLASH :: x)%list, None)
  else
    do ok <- full_str E k x;
    if negb ok then Ok (c, Some (EKind tok))
    else if is "LOGFILE"%string then                                         (* 1255 *)
      let f := (if absolute x then x else c_logdir c ++ SLASH :: x)%list in
      match at_last_comma f with
      | None => Ok (set_logfile c (Some f) (c_loglevel c), None)
      | Some (a, p) =>
          do n <- lookup_tag (e_iso E) logPriorities p;
          if n <? 0 then Ok (set_logfile c (Some a) (c_loglevel c), Some (EValue tok))
          else Ok (set_logfile c (Some a) n, None)
      end
    else if is "PIDFILE"%string then                                         (* 1318 *)
      Ok (if pid_set then c else set_pidfile c (Some (if absolute x then x else e_cwd E ++ SLASH :: x)%list), None)
    else if is "RESETCMD"%string then                                        (* 1348 *)
      Ok (if has_char AMP x then (c, Some (EValue tok)) else (set_resetcmd c (Some x), None))
    else                                                                     (* 1381 SYSLOG *)
      do n <- lookup_tag (e_iso E) logFacilities x;
      Ok (if n <? 0 then (c, Some (EValue tok)) else (set_syslog c n, None)).

(** int multiplication, server-conf.c:1438, 1441 *)
Definition times (n k : Z) : res Z := if n * k <=? INT_MAX then Ok (n * k) else UB SignedOverflow.

(** server-conf.c:1412-1457 after the keyword: the value may be followed by a unit.
    (An empty string after it is rejected whatever lex_text(l)[1] holds.) *)
Definition timestamp_kwd (c : conf) (s : strm) : res (conf * option cerr * strm) :=
  let tok := prev s in
  let '(s, ok) := eq_val s in
  if negb ok then Ok (c, Some (ENoEq tok), s)
  else if negb (prev s =? LEX_INT) then Ok (c, Some (EKind tok), s)
  else
    do n <- atoi (text s);
    if n <? 0 then Ok (c, Some (EValue tok), s)
    else
      let s := next s in                                                     (* 1427 *)
      do m <- (if at_end (prev s) then Ok n
               else if prev s =? LEX_STR then
                 match text s with
                 | [u] =>
                     if (u =? 109) || (u =? 77) then Ok n
                     else if (u =? 104) || (u =? 72) then times n 60
                     else if (u =? 100) || (u =? 68) then times n 1440
                     else Ok (-1)
                 | _ => Ok (-1)
                 end
               else Ok (-1));
      if m <? 0 then Ok (set_tstamp c 0, Some (EValue tok), s)
      else Ok (set_tstamp c m, None, s).

Definition server_kws : list string :=
  ["COREDUMP"; "COREDUMPDIR"; "EXECPATH"; "KEEPALIVE"; "LOGDIR"; "LOGFILE"; "LOOPBACK"; "NOFILE"; "PIDFILE"; "PORT";
   "RESETCMD"; "SYSLOG"]%string.
(** server-conf.c:1126-1471 *)
Definition server_kwd (E : env) (pid_set port_set : bool) (c : conf) (s : strm) : res (conf * option cerr * strm) :=
  let tok := prev s in
  if tok =? kw E "TIMESTAMP" then timestamp_kwd c s
  else if tok =? kw E "TCPWRAPPERS" then
    if e_tcpw E then valued (server_val E pid_set port_set tok) c s else Ok (c, Some (EValue tok), s)
  else if among E tok server_kws then valued (server_val E pid_set port_set tok) c s
  else Ok (c, Some (EToken (text s)), s).
(** server-conf.c:1103-1482 *)
Definition parse_server_directive (E : env) (c : conf) (s : strm) : res (conf * strm) :=
  let pid_set := match c_pidfile c with Some _ => true | None => false end in
  let port_set := 0 <=? c_port c in
  do r <- dir_loop (server_kwd E pid_set port_set) (fuel_of s) c s;
  let '(c, e, s) := r in Ok (finish c e s).

(** ** The file *)

(** server-conf.c:436-461.  [n] bounds the number of rounds. *)
Fixpoint config_loop (n : nat) (E : env) (c : conf) (s : strm) : res conf :=
  match n with
  | O => UB OutOfFuel
  | S n' =>
      let s := next s in
      let k := prev s in
      if k =? LEX_EOF then Ok c
      else if k =? kw E "CONSOLE" then do r <- parse_console_directive E c s; config_loop n' E (fst r) (snd r)
      else if k =? kw E "GLOBAL" then do r <- parse_global_directive E c s; config_loop n' E (fst r) (snd r)
      else if k =? kw E "SERVER" then do r <- parse_server_directive E c s; config_loop n' E (fst r) (snd r)
      else if k =? LEX_EOL then config_loop n' E c s
      else if k =? LEX_ERR then config_loop n' E (add_err c EQuote) s
      else config_loop n' E (add_err c (EToken (text s))) (skip_line s)
  end.
Definition parse_toks (E : env) (c : conf) (ts : list (Z * list Z)) : res conf :=
  let s := mkStrm 0 [] ts in config_loop (fuel_of s) E c s.

(** server-conf.c:425-463: the file's content [f] is read into memory, a NUL is added and
    the tokens are parsed.  What follows a NUL in the file is not looked at. *)
Definition read_config (E : env) (c : conf) (f : list Z) : res conf :=
  do r <- lex_all (S (length f)) (e_iso E) (lex_create (f ++ [NUL]) (server_conf_strs (e_ipmi E)));
  parse_toks E c (fst r).

(** CONMAN_PORT, the default port *)
Definition CONMAN_PORT := 7890.

(** server-conf.c:384-480 process_config without the locks and the PID file *)
Definition process_config (E : env) (c : conf) (f : list Z) : res conf :=
  do c <- read_config E c f;
  Ok (if c_port c <? 0 then set_port c CONMAN_PORT else c).

(** ** The command line *)

(** The options as getopt() returns them; only those that matter for what follows. *)
Inductive opt := OPort (arg : list Z) | OPid (arg : list Z) | OSignal (sig : Z) | OOther.
(** server-conf.c:323-381; [t]: throwSignal.  Fatal: log_err() *)
Fixpoint process_cmdline (E : env) (c : conf) (t : Z) (l : list opt) : res (conf * Z) :=
  match l with
  | [] => Ok (c, t)
  | OPort a :: l => do n <- atoi a; if n <? 0 then UB Fatal else process_cmdline E (set_port c n) t l
  | OPid a :: l => process_cmdline E (set_pidfile c (Some (if absolute a then a else e_cwd E ++ SLASH :: a)%list)) t l
  | OSignal n :: l => process_cmdline E c n l
  | OOther :: l => process_cmdline E c t l
  end.

(** server-conf.c:396-404 and 506-578: with one of the options -k, -r, -q the process that
    holds the lock on the file is signalled, else the one whose pid is in the PID file.
    [lock]: what the lock says, 0 for nothing; [pidfiles]: what read_pidfile() gives for a
    file (server-conf.c:1485-1515), 0 for nothing.  None: not found. *)
Definition signal_target (c : conf) (lock : Z) (pidfiles : list Z -> Z) : option Z :=
  let p := if lock =? 0 then match c_pidfile c with Some f => pidfiles f | None => 0 end else lock in
  if p =? 0 then None else Some p.

Inductive started := Signalled (pid : option Z) | Runs (c : conf).
(** server.c:147-166: the command line, then the file *)
Definition start (E : env) (c : conf) (l : list opt) (f : list Z) (lock : Z) (pidfiles : list Z -> Z) : res started :=
  do r <- process_cmdline E c (-1) l;
  let '(c, t) := r in
  if 0 <=? t then Ok (Signalled (signal_target c lock pidfiles))
  else do c <- process_config E c f; Ok (Runs c).
