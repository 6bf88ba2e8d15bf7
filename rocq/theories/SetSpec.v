(** What the settings of the daemon are meant to do, for SetProps: SERVER lines of the
    configuration file, as conman.conf(5) describes them. *)
From Coq Require Import String.
From Verif Require Import Base Chars Fmt LexModel FnameModel OptModel StrSpec QuerySpec LexSpec ConfModel ConfSpec.
Local Open Scope Z_scope.

(** The value of a setting: a switch, a text or none, a number, a file with the lowest
    priority that is written to it. *)
Inductive sval := SBool (b : bool) | SText (t : option (list Z)) | SNum (n : Z) | SLog (file : option (list Z)) (level : Z).

(** The settings of a configuration by name. *)
Definition table (c : conf) : list (string * sval) :=
  [("COREDUMP", SBool (c_coredump c)); ("COREDUMPDIR", SText (c_coredir c)); ("EXECPATH", SText (c_execpath c));
   ("KEEPALIVE", SBool (c_keepalive c)); ("LOGDIR", SText (Some (c_logdir c))); ("LOGFILE", SLog (c_logfile c) (c_loglevel c));
   ("LOOPBACK", SBool (c_loopback c)); ("NOFILE", SNum (c_nofile c)); ("PIDFILE", SText (c_pidfile c)); ("PORT", SNum (c_port c));
   ("RESETCMD", SText (c_resetcmd c)); ("SYSLOG", SNum (c_syslog c)); ("TCPWRAPPERS", SBool (c_tcpwrap c));
   ("TIMESTAMP", SNum (c_tstamp c))]%string.
Fixpoint look (k : string) (l : list (string * sval)) : sval :=
  match l with [] => SNum 0 | (k', v) :: l => if String.eqb k k' then v else look k l end.
Definition shown (c : conf) (k : string) : sval := look k (table c).

(** A setting replaced. *)
Definition put_in (st : string -> sval) (k : string) (v : sval) : string -> sval :=
  fun k' => if String.eqb k' k then v else st k'.

(** The names of syslog(3) and their numbers in <syslog.h>. *)
Definition priorities : list (Z * list string) :=
  [(0, ["emerg"; "emergency"; "panic"]); (1, ["alert"]); (2, ["crit"; "critical"]); (3, ["err"; "error"]); (4, ["warn"; "warning"]);
   (5, ["notice"]); (6, ["info"]); (7, ["debug"])]%string.
Definition facilities : list (Z * list string) :=
  [(0 * 8, ["kern"]); (1 * 8, ["user"]); (2 * 8, ["mail"]); (3 * 8, ["daemon"]); (4 * 8, ["auth"]); (6 * 8, ["lpr"]);
   (7 * 8, ["news"]); (8 * 8, ["uucp"]); (9 * 8, ["cron"]); (10 * 8, ["authpriv"]);
   (16 * 8, ["local0"]); (17 * 8, ["local1"]); (18 * 8, ["local2"]); (19 * 8, ["local3"]); (20 * 8, ["local4"]);
   (21 * 8, ["local5"]); (22 * 8, ["local6"]); (23 * 8, ["local7"])]%string.
(** [s] is one of the names for [n], in any case, after any white space. *)
Definition named (t : list (Z * list string)) (s : list Z) (n : Z) : Prop :=
  exists sp w ns name, s = (sp ++ w)%list /\ blank_text sp /\ In (n, ns) t /\ In name ns /\ map tolower w = map tolower (zs name).

(** A directory name without the slashes at its end. *)
Definition without_slashes (p q : list Z) : Prop :=
  q <> [] /\ (exists n, p = (q ++ repeat SLASH n)%list) /\ (length q = 1%nat \/ forall r, q <> (r ++ [SLASH])%list).

Definition numeral (n : list Z) : Prop := n <> [] /\ Forall digit n /\ (length n < LEX_MAX_STR)%nat /\ number n <= INT_MAX.
Definition switches : list string := ["COREDUMP"; "KEEPALIVE"; "LOOPBACK"; "TCPWRAPPERS"]%string.

(** What SERVER k=v makes of the setting [k], if [st] is in force.  [fixed]: the settings
    that were already decided when the line began (on the command line or by an earlier line). *)
Inductive says (E : env) (fixed : string -> Prop) (st : string -> sval) : string -> value -> sval -> Prop :=
| Y_on k : In k switches -> (k = "TCPWRAPPERS"%string -> e_tcpw E = true) -> says E fixed st k (VWord "ON") (SBool true)
| Y_off k : In k switches -> (k = "TCPWRAPPERS"%string -> e_tcpw E = true) -> says E fixed st k (VWord "OFF") (SBool false)
| Y_nofile n : numeral n -> says E fixed st "NOFILE" (VNum n) (SNum (number n))
| Y_port n : numeral n -> ~ fixed "PORT"%string -> says E fixed st "PORT" (VNum n) (SNum (number n))
| Y_port_fixed n : numeral n -> fixed "PORT"%string -> says E fixed st "PORT" (VNum n) (st "PORT"%string)
| Y_pid s p : ~ blank_text s -> ~ fixed "PIDFILE"%string -> from_cwd E s p -> says E fixed st "PIDFILE" (VStr s) (SText (Some p))
| Y_pid_fixed s : ~ blank_text s -> fixed "PIDFILE"%string -> says E fixed st "PIDFILE" (VStr s) (st "PIDFILE"%string)
| Y_core_none s : blank_text s -> says E fixed st "COREDUMPDIR" (VStr s) (SText None)
| Y_core s p q : ~ blank_text s -> e_stat E s = Dir -> from_cwd E s p -> without_slashes p q ->
    says E fixed st "COREDUMPDIR" (VStr s) (SText (Some q))
| Y_exec_none s : blank_text s -> says E fixed st "EXECPATH" (VStr s) (SText None)
| Y_exec s : ~ blank_text s -> says E fixed st "EXECPATH" (VStr s) (SText (Some s))
| Y_logdir_none s : blank_text s -> says E fixed st "LOGDIR" (VStr s) (SText (Some (e_cwd E)))
| Y_logdir s p : ~ blank_text s -> from_cwd E s p -> says E fixed st "LOGDIR" (VStr s) (SText (Some p))
| Y_logfile s d f lv p : ~ blank_text s -> st "LOGDIR"%string = SText (Some d) -> st "LOGFILE"%string = SLog f lv ->
    in_dir d s p -> ~ In COMMA p -> says E fixed st "LOGFILE" (VStr s) (SLog (Some p) lv)
| Y_logfile_level a b d p n : st "LOGDIR"%string = SText (Some d) -> in_dir d a p -> ~ In COMMA b -> named priorities b n ->
    says E fixed st "LOGFILE" (VStr (a ++ COMMA :: b)) (SLog (Some p) n)
| Y_reset s : ~ blank_text s -> ~ In 38 s -> says E fixed st "RESETCMD" (VStr s) (SText (Some s))
| Y_syslog s n : named facilities s n -> says E fixed st "SYSLOG" (VStr s) (SNum n).

(** The settings of a line one after the other. *)
Inductive says_all (E : env) (fixed : string -> Prop) : (string -> sval) -> list (string * value) -> (string -> sval) -> Prop :=
| YA_nil st : says_all E fixed st [] st
| YA_cons st k v w kvs st' : says E fixed st k v w -> says_all E fixed (put_in st k w) kvs st' ->
    says_all E fixed st ((k, v) :: kvs) st'.

(** What is not accepted: a value of the wrong kind, or that cannot be, or a word that is
    not the name of a setting. *)
Definition strings : list string := ["COREDUMPDIR"; "EXECPATH"; "LOGDIR"; "LOGFILE"; "PIDFILE"; "RESETCMD"; "SYSLOG"]%string.
Definition no_settings : list string := ["CONSOLE"; "DEV"; "GLOBAL"; "LOG"; "LOGOPTS"; "NAME"; "OFF"; "ON"; "SEROPTS"; "SERVER"; "TESTOPTS"]%string.
(** The words that have a meaning in the file, without those of optional features. *)
Definition conf_words : list string := (no_settings ++ switches ++ strings ++ ["NOFILE"; "PORT"; "TIMESTAMP"])%list%string.
Inductive refused (E : env) : string -> value -> Prop :=
| X_switch k v : In k switches -> (forall w, v <> VWord w) -> refused E k v
| X_wrappers v : e_tcpw E = false -> refused E "TCPWRAPPERS" v
| X_number k v : In k ["NOFILE"; "PORT"]%string -> (forall n, v <> VNum n) -> refused E k v
| X_string k v : In k strings -> (forall s, v <> VStr s) -> refused E k v
| X_blank k s : In k ["LOGFILE"; "PIDFILE"; "RESETCMD"; "SYSLOG"]%string -> blank_text s -> refused E k (VStr s)
| X_core s : ~ blank_text s -> e_stat E s <> Dir -> refused E "COREDUMPDIR" (VStr s)
| X_amp s : In 38 s -> refused E "RESETCMD" (VStr s)
| X_syslog s : (forall n, ~ named facilities s n) -> refused E "SYSLOG" (VStr s)
| X_other k v : In k no_settings -> refused E k v.

(** The port and the PID file are decided once. *)
Definition decided (c : conf) (k : string) : Prop :=
  k = "PORT"%string /\ 0 <= c_port c \/ k = "PIDFILE"%string /\ c_pidfile c <> None.

(** A line that sets the interval between timestamps: a number and perhaps a unit. *)
Definition stamp_line (n u : list Z) : list Z := (zs "SERVER TIMESTAMP=" ++ n ++ u ++ [LF])%list.
(** Minutes in a unit. *)
Definition unit_of (u : Z) (m : Z) : Prop :=
  (u = 109 \/ u = 77) /\ m = 1 \/ (u = 104 \/ u = 72) /\ m = 60 \/ (u = 100 \/ u = 68) /\ m = 60 * 24.
(** The same among other settings. *)
Definition pairs (kvs : list (string * value)) : list Z := flat_map (fun kv => SPACE :: zs (fst kv) ++ EQUALS :: show (snd kv))%list kvs.
Definition stamp_among (a : list (string * value)) (n u : list Z) (b : list (string * value)) : list Z :=
  (zs "SERVER" ++ pairs a ++ zs " TIMESTAMP=" ++ n ++ u ++ pairs b ++ [LF])%list.
