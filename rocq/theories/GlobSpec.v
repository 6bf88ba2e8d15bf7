(** What GLOBAL lines and rejected CONSOLE lines are meant to do, for GlobProps: the defaults for
    consoles, as conman.conf(5) describes them. *)
From Coq Require Import String.
From Verif Require Import Base Chars Fmt LexModel FnameModel OptModel StrSpec QuerySpec LexSpec ConfModel ConfSpec SetSpec.
Local Open Scope Z_scope.

(** The defaults: name of the log, options for logs, serial ports, IPMI and test consoles. *)
Record dflts := mkDflts { d_log : option (list Z); d_lopts : logopt; d_sopts : seropt; d_iopts : ipmiopt; d_topts : testopt }.
Definition in_force (c : conf) : dflts := mkDflts (g_log c) (g_lopts c) (g_sopts c) (g_iopts c) (g_topts c).

(** What GLOBAL k="s" makes of the defaults [d].  A log name is for many consoles, so it has to
    name one of its own for each.  What the texts of options mean is the subject of C53 and C75.
    [er]: a number out of range was met before in this process (see C53_test_errno_refuted). *)
Inductive gives (E : env) (er : bool) (d : dflts) : string -> value -> dflts -> bool -> Prop :=
| G_nolog s : blank_text s -> gives E er d "LOG" (VStr s) (mkDflts None (d_lopts d) (d_sopts d) (d_iopts d) (d_topts d)) er
| G_log s : ~ blank_text s -> ~ In 38 s -> per_console s ->
    gives E er d "LOG" (VStr s) (mkDflts (Some s) (d_lopts d) (d_sopts d) (d_iopts d) (d_topts d)) er
| G_lopts s o : ~ blank_text s -> parse_logfile_opts (d_lopts d) s = Some o ->
    gives E er d "LOGOPTS" (VStr s) (mkDflts (d_log d) o (d_sopts d) (d_iopts d) (d_topts d)) er
| G_sopts s o : ~ blank_text s -> parse_serial_opts (e_wrap E) (d_sopts d) s = Some o ->
    gives E er d "SEROPTS" (VStr s) (mkDflts (d_log d) (d_lopts d) o (d_iopts d) (d_topts d)) er
| G_iopts s o : e_ipmi E = true -> ~ blank_text s -> parse_ipmi_opts (e_lib E) (d_iopts d) s = Ok (Some o) ->
    gives E er d "IPMIOPTS" (VStr s) (mkDflts (d_log d) (d_lopts d) (d_sopts d) o (d_topts d)) er
| G_topts s o er' : ~ blank_text s -> parse_test_opts er (d_topts d) s = (Some o, er') ->
    gives E er d "TESTOPTS" (VStr s) (mkDflts (d_log d) (d_lopts d) (d_sopts d) (d_iopts d) o) er'.

(** The settings of a line one after the other. *)
Inductive gives_all (E : env) : bool -> dflts -> list (string * value) -> dflts -> bool -> Prop :=
| GA_nil er d : gives_all E er d [] d er
| GA_cons er d k v d1 er1 kvs d' er' : gives E er d k v d1 er1 -> gives_all E er1 d1 kvs d' er' ->
    gives_all E er d ((k, v) :: kvs) d' er'.

(** The words that are not the name of a default. *)
Definition no_default : list string :=
  ["CONSOLE"; "COREDUMP"; "COREDUMPDIR"; "DEV"; "EXECPATH"; "GLOBAL"; "KEEPALIVE"; "LOGDIR"; "LOGFILE"; "LOOPBACK"; "NAME"; "NOFILE"; "OFF"; "ON"; "PIDFILE";
   "PORT"; "RESETCMD"; "SERVER"; "SYSLOG"; "TCPWRAPPERS"; "TIMESTAMP"]%string.
(** What is not accepted on a GLOBAL line when [d] is in force. *)
Inductive not_given (E : env) (er : bool) (d : dflts) : string -> value -> Prop :=
| N_kind k v : In k ["LOG"; "LOGOPTS"; "SEROPTS"; "TESTOPTS"]%string -> (forall s, v <> VStr s) -> not_given E er d k v
| N_ikind v : e_ipmi E = true -> (forall s, v <> VStr s) -> not_given E er d "IPMIOPTS" v
| N_blank k s : In k ["LOGOPTS"; "SEROPTS"; "TESTOPTS"]%string -> blank_text s -> not_given E er d k (VStr s)
| N_iblank s : e_ipmi E = true -> blank_text s -> not_given E er d "IPMIOPTS" (VStr s)
| N_amp s : In 38 s -> not_given E er d "LOG" (VStr s)
| N_shared s : ~ blank_text s -> ~ per_console s -> not_given E er d "LOG" (VStr s)
| N_lopts s : parse_logfile_opts (d_lopts d) s = None -> not_given E er d "LOGOPTS" (VStr s)
| N_sopts s : parse_serial_opts (e_wrap E) (d_sopts d) s = None -> not_given E er d "SEROPTS" (VStr s)
| N_iopts s : e_ipmi E = true -> parse_ipmi_opts (e_lib E) (d_iopts d) s = Ok None -> not_given E er d "IPMIOPTS" (VStr s)
| N_topts s er' : parse_test_opts er (d_topts d) s = (None, er') -> not_given E er d "TESTOPTS" (VStr s)
| N_other k v : In k no_default -> not_given E er d k v.

(** ** CONSOLE lines *)
(** The words that say nothing about a console. *)
Definition not_console : list string :=
  ["CONSOLE"; "COREDUMP"; "COREDUMPDIR"; "EXECPATH"; "GLOBAL"; "KEEPALIVE"; "LOGDIR"; "LOGFILE"; "LOOPBACK"; "NOFILE"; "OFF"; "ON"; "PIDFILE";
   "PORT"; "RESETCMD"; "SERVER"; "SYSLOG"; "TCPWRAPPERS"; "TIMESTAMP"]%string.
(** What is not accepted on a CONSOLE line. *)
Inductive no_pair (E : env) : string -> value -> Prop :=
| P_kind k v : In k ["NAME"; "DEV"; "LOG"; "LOGOPTS"; "SEROPTS"; "TESTOPTS"]%string -> (forall s, v <> VStr s) -> no_pair E k v
| P_ikind v : e_ipmi E = true -> (forall s, v <> VStr s) -> no_pair E "IPMIOPTS" v
| P_blank k s : In k ["NAME"; "DEV"; "LOGOPTS"; "SEROPTS"]%string -> blank_text s -> no_pair E k (VStr s)
| P_amp s : In 38 s -> no_pair E "LOG" (VStr s)
| P_other k v : In k not_console -> no_pair E k v.
(** The words of the file, with those of optional features if there. *)
Definition known_word (E : env) (k : string) : Prop := In k conf_words \/ k = "IPMIOPTS"%string /\ e_ipmi E = true.
