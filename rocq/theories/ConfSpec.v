(** What the configuration is meant to do, for ConfProps. *)
From Coq Require Import String.
From Verif Require Import Base Chars Fmt LexModel FnameModel FnameSpec OptModel StrSpec QuerySpec LexSpec ConfModel.
Local Open Scope Z_scope.

(** ** Lines *)

(** Text that ends at the end of a line: with a line feed that is not preceded by the
    backslash that would continue the line. *)
Definition ends_line (a : list Z) : Prop :=
  exists p, a = (p ++ [LF])%list /\ forall q, p <> (q ++ [BACKSLASH])%list /\ p <> (q ++ [BACKSLASH; CR])%list.

(** The tokens of a text, as specified in LexSpec, with the keywords of the server. *)
Definition tokens_of (E : env) (s : list Z) : list (Z * list Z) :=
  tokens (S (length s)) (server_conf_strs (e_ipmi E)) s.

(** Some line says "TIMESTAMP = n" and ends there. *)
Definition bare_timestamp (E : env) (a : list Z) : Prop :=
  exists before after x1 x2 n x4, tokens_of E a =
    (before ++ [(kw E "TIMESTAMP", x1); (EQUALS, x2); (LEX_INT, n); (LEX_EOL, x4)] ++ after)%list.

(** Text the lexer is defined on: no NUL, and 7-bit if characters are signed and the
    library insists (see LexModel.ctype). *)
Definition plain_text (E : env) (s : list Z) : Prop :=
  chars_ok s /\ (e_iso E = true -> Forall (fun c => c < 128) s).

(** Lines after which a new directive can begin. *)
Definition whole_lines (E : env) (a : list Z) : Prop :=
  plain_text E a /\ (a = [] \/ ends_line a /\ ~ bare_timestamp E a).
(** A single line with the first token [k] and the text [x] of that token. *)
Definition one_line (E : env) (a : list Z) (k : Z) (x : list Z) : Prop :=
  plain_text E a /\
  exists ts t, tokens_of E a = ((k, x) :: ts ++ [(LEX_EOL, t); (LEX_EOF, [])])%list /\
    Forall (fun p => fst p <> LEX_EOL /\ fst p <> LEX_EOF) ((k, x) :: ts).

(** ** Directives as text *)

Inductive value := VStr (s : list Z) | VNum (n : list Z) | VWord (w : string).
Definition show (v : value) : list Z :=
  match v with VStr s => (DQUOTE :: s ++ [DQUOTE])%list | VNum n => n | VWord w => zs w end.
(** a line like: CONSOLE NAME="a" DEV="b" *)
Definition directive (d : string) (kvs : list (string * value)) : list Z :=
  (zs d ++ flat_map (fun kv => SPACE :: zs (fst kv) ++ EQUALS :: show (snd kv)) kvs ++ [LF])%list.

Definition quotable (s : list Z) : Prop :=
  ~ In DQUOTE s /\ ~ In LF s /\ ~ In CR s /\ (length s < LEX_MAX_STR)%nat.
Definition value_ok (E : env) (v : value) : Prop :=
  match v with
  | VStr s => quotable s
  | VNum n => n <> [] /\ Forall digit n /\ (length n < LEX_MAX_STR)%nat
  | VWord w => In w ["ON"; "OFF"]%string
  end.
Definition blank_text (s : list Z) : Prop := Forall (fun c => isspace c = true) s.

(** The last value given for a keyword. *)
Fixpoint last_val (k : string) (kvs : list (string * value)) : option value :=
  match kvs with
  | [] => None
  | (k', v) :: t => match last_val k t with
                    | Some v => Some v
                    | None => if String.eqb k k' then Some v else None
                    end
  end.
Definition last_str (k : string) (kvs : list (string * value)) : option (list Z) :=
  match last_val k kvs with Some (VStr s) => Some s | _ => None end.

(** The values of a console line: strings; names, devices, log and serial options are not
    blank; no '&' in the name of the log. *)
Definition console_pair (E : env) (kv : string * value) : Prop :=
  match snd kv with
  | VStr s =>
      quotable s /\
      (In (fst kv) ["NAME"; "DEV"; "LOGOPTS"; "SEROPTS"]%string /\ ~ blank_text s \/
       fst kv = "LOG"%string /\ ~ In 38 s \/
       fst kv = "TESTOPTS"%string \/
       fst kv = "IPMIOPTS"%string /\ e_ipmi E = true)
  | _ => False
  end.

(** ** Consoles *)

Definition names (objs : list cobj) : list (list Z) :=
  flat_map (fun o => match o with OCon n _ => [n] | _ => [] end) objs.
Definition sockets (objs : list cobj) : list (list Z) :=
  flat_map (fun o => match o with OCon _ (UnixSock p) => [p] | _ => [] end) objs.
Definition serials (objs : list cobj) : list (list Z) :=
  flat_map (fun o => match o with OCon _ (Serial p _) => [p] | _ => [] end) objs.
Definition ipmis (objs : list cobj) : list (list Z) :=
  flat_map (fun o => match o with OCon _ (Ipmi h _) => [h] | _ => [] end) objs.

(** ** Devices *)

(** The arguments of a device string: its words, with %N replaced by the console's name
    unless in single quotes. *)
Definition argument (name : list Z) (w : list Z * Z) : list Z :=
  if snd w =? QUOTE then fst w else replaced 78 name (fst w).
Definition device_words (name s : list Z) (args : list (list Z)) : Prop :=
  exists ws, words (S (length s)) s = (ws, false) /\ args = map (argument name) ws /\
    Forall (fun w => snd w = QUOTE \/ (length (argument name w) < MAX_LINE)%nat) ws.

Definition located (E : env) (s path : list Z) : Prop :=
  (exists t, s = SLASH :: t) /\ path = s \/
  (forall t, s <> SLASH :: t) /\ path = (e_cwd E ++ SLASH :: s)%list /\ (length path < PATH_MAX)%nat.

Definition prefixed (p : string) (s t : list Z) : Prop :=
  exists q, s = (q ++ t)%list /\ map tolower q = map tolower (zs p).
Definition unix_like (E : env) (s path : list Z) : Prop := exists p, prefixed "unix:" s p /\ p <> [] /\ located E p path.
Definition telnet_like (s host port : list Z) : Prop :=
  s = (host ++ COLON :: port)%list /\ ~ In COLON host /\ port <> [] /\ Forall digit port /\ (length s < MAX_LINE)%nat.

(** EXECPATH *)
Fixpoint colons (dirs : list (list Z)) : list Z :=
  match dirs with [] => [] | [d] => d | d :: t => (d ++ COLON :: colons t)%list end.
Definition exec_path (c : conf) (dirs : list (list Z)) : Prop :=
  Forall (fun d => d <> [] /\ ~ In COLON d) dirs /\
  match c_execpath c with
  | None => dirs = []
  | Some p => p = colons dirs /\ (length p < PATH_MAX)%nat
  end.
Definition has_exec (E : env) (s d f : list Z) : Prop :=
  e_stat E d = Dir /\ f = (d ++ SLASH :: s)%list /\ (length f < PATH_MAX)%nat /\ e_x E f = true.
(** the first directory with something of that name one may execute *)
Inductive found (E : env) (s : list Z) : list (list Z) -> list Z -> Prop :=
| F_here d ds f : has_exec E s d f -> found E s (d :: ds) f
| F_later d ds f : (forall g, ~ has_exec E s d g) -> found E s ds f -> found E s (d :: ds) f.
Definition program (E : env) (c : conf) (s path : list Z) : Prop :=
  (exists dirs, exec_path c dirs /\
     (~ In SLASH s /\ found E s dirs path \/
      (In SLASH s \/ forall g, ~ found E s dirs g) /\ located E s path)) /\
  e_stat E path = Reg /\ e_x E path = true.

Definition is_file (E : env) (s : list Z) (t : ftype) (path : list Z) : Prop := located E s path /\ e_stat E path = t.

(** What a device string's arguments denote.  [kvs]: the rest of the line. *)
Inductive means (E : env) (c : conf) (kvs : list (string * value)) : list (list Z) -> dev -> Prop :=
| M_unix s path : unix_like E s path -> (length path <= e_sun E)%nat -> means E c kvs [s] (UnixSock path)
| M_telnet s host port :
    (forall path, ~ unix_like E s path) -> telnet_like s host port -> host <> [] -> 0 < number port <= INT_MAX ->
    means E c kvs [s] (Telnet host (number port) (c_keepalive c))
| M_serial s path o :
    (forall path, ~ unix_like E s path) -> (forall h p, ~ telnet_like s h p) ->
    is_file E s Chr path -> e_rw E path = true ->
    match last_str "SEROPTS" kvs with
    | None => o = g_sopts c
    | Some t => parse_serial_opts (e_wrap E) (g_sopts c) t = Some o
    end -> means E c kvs [s] (Serial path o)
| M_process s path more :
    (forall path, ~ unix_like E s path) -> (forall h p, ~ telnet_like s h p) -> (forall p, ~ is_file E s Chr p) ->
    program E c s path -> means E c kvs (s :: more) (Process (path :: more))
| M_ipmi s h o :
    (forall path, ~ unix_like E s path) -> (forall h p, ~ telnet_like s h p) -> (forall p, ~ is_file E s Chr p) ->
    (exists dirs, exec_path c dirs) -> (forall p, ~ program E c s p) ->
    e_ipmi E = true -> prefixed "ipmi:" s h -> h <> [] ->
    match last_str "IPMIOPTS" kvs with
    | None => o = g_iopts c
    | Some t => parse_ipmi_opts (e_lib E) (g_iopts c) t = Ok (Some o)
    end -> means E c kvs [s] (Ipmi h o)
| M_test s o :
    (exists p, is_file E s NoFile p) -> (exists dirs, exec_path c dirs) -> (forall p, ~ program E c s p) ->
    prefixed "test:" s [] ->
    match last_str "TESTOPTS" kvs with
    | None => o = g_topts c
    | Some t => exists er, parse_test_opts false (g_topts c) t = (Some o, er)
    end -> means E c kvs [s] (Test o).

(** What a device string's arguments do not denote: none of the forms above, more arguments
    than the form has, bad options, a path, port or file that cannot be used. *)
Definition plain_form (E : env) (s : list Z) : Prop :=
  (forall path, ~ unix_like E s path) /\ (forall h p, ~ telnet_like s h p) /\ (forall p, ~ is_file E s Chr p).
Definition no_program (E : env) (c : conf) (s : list Z) : Prop :=
  (exists dirs, exec_path c dirs) /\ (forall p, ~ program E c s p).
Inductive refused (E : env) (c : conf) (kvs : list (string * value)) : list (list Z) -> Prop :=
| R_none : refused E c kvs []
| R_unix_long s path : unix_like E s path -> (e_sun E < length path)%nat -> refused E c kvs [s]
| R_unix_more s path x more : unix_like E s path -> refused E c kvs (s :: x :: more)
| R_telnet_port s host port :
    (forall path, ~ unix_like E s path) -> telnet_like s host port -> host <> [] -> number port = 0 -> refused E c kvs [s]
| R_telnet_more s host port x more :
    (forall path, ~ unix_like E s path) -> telnet_like s host port -> number port <= INT_MAX -> refused E c kvs (s :: x :: more)
| R_serial s path x more :
    (forall path, ~ unix_like E s path) -> (forall h p, ~ telnet_like s h p) -> is_file E s Chr path ->
    refused E c kvs (s :: x :: more)
| R_serial_use s path :
    (forall path, ~ unix_like E s path) -> (forall h p, ~ telnet_like s h p) -> is_file E s Chr path ->
    e_rw E path = false -> refused E c kvs [s]
| R_serial_opts s path t :
    (forall path, ~ unix_like E s path) -> (forall h p, ~ telnet_like s h p) -> is_file E s Chr path ->
    last_str "SEROPTS" kvs = Some t -> parse_serial_opts (e_wrap E) (g_sopts c) t = None -> refused E c kvs [s]
| R_ipmi_more s h x more :
    plain_form E s -> no_program E c s -> e_ipmi E = true -> prefixed "ipmi:" s h -> h <> [] -> refused E c kvs (s :: x :: more)
| R_ipmi_opts s h t :
    plain_form E s -> no_program E c s -> e_ipmi E = true -> prefixed "ipmi:" s h -> h <> [] ->
    last_str "IPMIOPTS" kvs = Some t -> parse_ipmi_opts (e_lib E) (g_iopts c) t = Ok None -> refused E c kvs [s]
| R_test_more s x more : plain_form E s -> no_program E c s -> prefixed "test:" s [] -> refused E c kvs (s :: x :: more)
| R_test_opts s t er :
    (exists p, is_file E s NoFile p) -> no_program E c s -> prefixed "test:" s [] ->
    last_str "TESTOPTS" kvs = Some t -> parse_test_opts false (g_topts c) t = (None, er) -> refused E c kvs [s]
| R_unknown s more :
    plain_form E s -> no_program E c s -> (e_ipmi E = true -> forall h, prefixed "ipmi:" s h -> h = []) ->
    ~ prefixed "test:" s [] -> refused E c kvs (s :: more).

(** The name of the log of a console, if it is to have one. *)
Definition in_dir (dir s path : list Z) : Prop :=
  (exists t, s = SLASH :: t) /\ path = s \/ (forall t, s <> SLASH :: t) /\ path = (dir ++ SLASH :: s)%list.
Definition log_wanted (c : conf) (kvs : list (string * value)) (l : option (list Z)) : Prop :=
  match last_str "LOG" kvs, g_log c with
  | Some s, _ => blank_text s /\ l = None \/ ~ blank_text s /\ exists p, in_dir (c_logdir c) s p /\ l = Some p
  | None, None => l = None
  | None, Some g => exists p, in_dir (c_logdir c) g p /\ l = Some p
  end.
Definition log_options (c : conf) (kvs : list (string * value)) (o : logopt) : Prop :=
  match last_str "LOGOPTS" kvs with
  | None => o = g_lopts c
  | Some t => parse_logfile_opts (g_lopts c) t = Some o
  end.

(** Every log stands just before its console. *)
Fixpoint paired (objs : list cobj) : Prop :=
  match objs with
  | [] => True
  | OCon _ _ :: t => paired t
  | OLog l _ :: t => match t with OCon n d :: t' => l_con l = view n d /\ paired t' | _ => False end
  end.

(** What is true of the devices themselves. *)
Definition dev_good (E : env) (d : dev) : Prop :=
  match d with
  | UnixSock p => (length p <= e_sun E)%nat
  | Telnet h port _ => 0 < port <= INT_MAX /\ ~ In COLON h
  | Serial p o => e_stat E p = Chr /\ e_rw E p = true
  | Process (p :: _) => e_stat E p = Reg /\ e_x E p = true
  | Process [] => False
  | Ipmi h _ => e_ipmi E = true /\ h <> []
  | Test _ => True
  end.

Record objs_good (E : env) (objs : list cobj) : Prop := mkGood {
  og_names : NoDup (names objs);
  og_socks : NoDup (sockets objs);
  og_serials : NoDup (serials objs);
  og_ipmis : NoDup (ipmis objs);
  og_paired : paired objs;
  og_logs : configured (e_iso E) (e_pid E) (logs_of objs);
  og_devs : forall n d, In (OCon n d) objs -> dev_good E d }.

(** The name and the device are not used by another console. *)
Definition unused (objs : list cobj) (name : list Z) (d : dev) : Prop :=
  ~ In name (names objs) /\
  match d with
  | UnixSock p => ~ In p (sockets objs)
  | Serial p _ => ~ In p (serials objs)
  | Ipmi h _ => ~ In h (ipmis objs)
  | _ => True
  end.
Definition dev_text (E : env) (d : dev) : Prop :=
  match d with UnixSock p => plain_text E p | Serial p _ => plain_text E p | Telnet h _ _ => plain_text E h | _ => True end.

(** What %D stands for in the name of a log: the path of a serial line or of a socket, the
    address of a terminal server. *)
Definition shown (d : dev) : what :=
  match d with UnixSock p => Path p | Serial p _ => Path p | Telnet h q _ => Host h q | _ => FnameSpec.Other end.

(** What a console line adds: the console, preceded by its log if it has one. *)
Inductive adds (E : env) (c : conf) (kvs : list (string * value)) (name : list Z) (d : dev) : list cobj -> Prop :=
| A_plain : log_wanted c kvs None -> adds E c kvs name d [OCon name d]
| A_logged p t o l :
    log_wanted c kvs (Some p) -> chars_ok p -> (length p < MAX_LINE)%nat ->
    expands (Some (name, shown d)) (e_pid E) (e_tm E) p t -> (length t < MAX_LINE)%nat ->
    (forall x, In x (logs_of (c_objs c)) -> l_name x <> t) ->
    log_options c kvs o -> l_name l = p -> conv (l_con l) = (name, shown d) -> l_fmt l = (if existsb (Z.eqb PERCENT) p then Some p else None) ->
    adds E c kvs name d [OLog l o; OCon name d].

(** The log that the line asks for is another console's. *)
Inductive log_taken (E : env) (c : conf) (kvs : list (string * value)) (name : list Z) (d : dev) : Prop :=
| L_taken p t o x :
    log_wanted c kvs (Some p) -> chars_ok p -> (length p < MAX_LINE)%nat -> log_options c kvs o ->
    expands (Some (name, shown d)) (e_pid E) (e_tm E) p t -> (length t < MAX_LINE)%nat ->
    In x (logs_of (c_objs c)) -> l_name x = t -> log_taken E c kvs name d.

(** [s] relative to the directory where the server was started *)
Definition from_cwd (E : env) (s path : list Z) : Prop := in_dir (e_cwd E) s path.

(** ** Defaults *)
(** The defaults for consoles: log name, log, serial, IPMI and test options. *)
Definition defaults (c : conf) : option (list Z) * logopt * seropt * ipmiopt * testopt :=
  (g_log c, g_lopts c, g_sopts c, g_iopts c, g_topts c).
(** Settings of the daemon that have an effect on later consoles. *)
Definition settings (c : conf) : option (list Z) * bool * list Z := (c_execpath c, c_keepalive c, c_logdir c).
(** %N or %D occurs *)
Definition per_console (s : list Z) : Prop := exists a x b, (s = a ++ PERCENT :: x :: b)%list /\ (x = 78 \/ x = 68).
(** What GLOBAL k="s" makes of the defaults. *)
Inductive sets (E : env) (c : conf) : string -> list Z -> option (list Z) * logopt * seropt * ipmiopt * testopt -> Prop :=
| S_nolog s : blank_text s -> sets E c "LOG" s (None, g_lopts c, g_sopts c, g_iopts c, g_topts c)
| S_log s : ~ blank_text s -> ~ In 38 s -> per_console s -> sets E c "LOG" s (Some s, g_lopts c, g_sopts c, g_iopts c, g_topts c)
| S_lopts s o : ~ blank_text s -> parse_logfile_opts (g_lopts c) s = Some o ->
    sets E c "LOGOPTS" s (g_log c, o, g_sopts c, g_iopts c, g_topts c)
| S_sopts s o : ~ blank_text s -> parse_serial_opts (e_wrap E) (g_sopts c) s = Some o ->
    sets E c "SEROPTS" s (g_log c, g_lopts c, o, g_iopts c, g_topts c)
| S_iopts s o : ~ blank_text s -> e_ipmi E = true -> parse_ipmi_opts (e_lib E) (g_iopts c) s = Ok (Some o) ->
    sets E c "IPMIOPTS" s (g_log c, g_lopts c, g_sopts c, o, g_topts c)
| S_topts s o er : ~ blank_text s -> c_erange c = false -> parse_test_opts false (g_topts c) s = (Some o, er) ->
    sets E c "TESTOPTS" s (g_log c, g_lopts c, g_sopts c, g_iopts c, o).
(** Settings of a SERVER line that are always accepted. *)
Definition server_pair (kv : string * value) : Prop :=
  match snd kv with
  | VWord w => In (fst kv) ["COREDUMP"; "KEEPALIVE"; "LOOPBACK"]%string /\ In w ["ON"; "OFF"]%string
  | VNum n => In (fst kv) ["NOFILE"; "PORT"]%string /\ n <> [] /\ Forall digit n /\ (length n < LEX_MAX_STR)%nat /\ number n <= INT_MAX
  | VStr s => quotable s /\
      (In (fst kv) ["EXECPATH"; "LOGDIR"]%string \/
       fst kv = "PIDFILE"%string /\ ~ blank_text s \/
       fst kv = "RESETCMD"%string /\ ~ blank_text s /\ ~ In 38 s)
  end.
(** What SERVER k=v makes of the settings. *)
Inductive server_sets (E : env) (c : conf) : string -> value -> option (list Z) * bool * list Z -> Prop :=
| V_keep : server_sets E c "KEEPALIVE" (VWord "ON") (c_execpath c, true, c_logdir c)
| V_nokeep : server_sets E c "KEEPALIVE" (VWord "OFF") (c_execpath c, false, c_logdir c)
| V_logdir s p : ~ blank_text s -> from_cwd E s p -> server_sets E c "LOGDIR" (VStr s) (c_execpath c, c_keepalive c, p)
| V_nologdir s : blank_text s -> server_sets E c "LOGDIR" (VStr s) (c_execpath c, c_keepalive c, e_cwd E)
| V_exec s : ~ blank_text s -> (length s < PATH_MAX)%nat -> server_sets E c "EXECPATH" (VStr s) (Some s, c_keepalive c, c_logdir c)
| V_noexec s : blank_text s -> (length s < PATH_MAX)%nat -> server_sets E c "EXECPATH" (VStr s) (None, c_keepalive c, c_logdir c).

(** ** The command line *)
Fixpoint last_port (l : list opt) : option (list Z) :=
  match l with
  | [] => None
  | o :: t => match last_port t, o with Some a, _ => Some a | None, OPort a => Some a | None, _ => None end
  end.
Fixpoint last_pid (l : list opt) : option (list Z) :=
  match l with
  | [] => None
  | o :: t => match last_pid t, o with Some a, _ => Some a | None, OPid a => Some a | None, _ => None end
  end.
Definition no_signal (l : list opt) : Prop := forall n, ~ In (OSignal n) l.
(** The signal of the last of the options -k, -r, -q. *)
Fixpoint last_signal (l : list opt) : option Z :=
  match l with
  | [] => None
  | o :: t => match last_signal t, o with Some a, _ => Some a | None, OSignal n => Some n | None, _ => None end
  end.
