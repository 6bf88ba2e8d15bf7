(** The client's command line and environment: src/client-conf.c:53-312 and src/client.c:45-47. *)
From Coq Require Import String.
From Verif Require Import Base Chars Fmt StrModel LexModel EnvModel.
Local Open Scope Z_scope.

(** ** What the client is to do (client.h:40-53, common.h:102-131) *)
Inductive command := Connect | Monitor | Query.
Record conf := mkConf {
  c_user : option (list Z); c_tty : option (list Z);
  c_host : list Z; c_port : Z; c_consoles : list (list Z); c_cmd : command;
  c_bcast : bool; c_force : bool; c_join : bool; c_quiet : bool; c_regex : bool;
  c_esc : Z; c_log : option (list Z); c_verbose : bool }.

Definition set_host (c : conf) (h : list Z) : conf :=
  mkConf (c_user c) (c_tty c) h (c_port c) (c_consoles c) (c_cmd c) (c_bcast c) (c_force c) (c_join c) (c_quiet c) (c_regex c) (c_esc c) (c_log c) (c_verbose c).
Definition set_port (c : conf) (p : Z) : conf :=
  mkConf (c_user c) (c_tty c) (c_host c) p (c_consoles c) (c_cmd c) (c_bcast c) (c_force c) (c_join c) (c_quiet c) (c_regex c) (c_esc c) (c_log c) (c_verbose c).
Definition set_consoles (c : conf) (l : list (list Z)) : conf :=
  mkConf (c_user c) (c_tty c) (c_host c) (c_port c) l (c_cmd c) (c_bcast c) (c_force c) (c_join c) (c_quiet c) (c_regex c) (c_esc c) (c_log c) (c_verbose c).
Definition set_cmd (c : conf) (k : command) : conf :=
  mkConf (c_user c) (c_tty c) (c_host c) (c_port c) (c_consoles c) k (c_bcast c) (c_force c) (c_join c) (c_quiet c) (c_regex c) (c_esc c) (c_log c) (c_verbose c).
Definition set_modes (c : conf) (b f j : bool) : conf :=
  mkConf (c_user c) (c_tty c) (c_host c) (c_port c) (c_consoles c) (c_cmd c) b f j (c_quiet c) (c_regex c) (c_esc c) (c_log c) (c_verbose c).
Definition set_quiet (c : conf) : conf :=
  mkConf (c_user c) (c_tty c) (c_host c) (c_port c) (c_consoles c) (c_cmd c) (c_bcast c) (c_force c) (c_join c) true (c_regex c) (c_esc c) (c_log c) (c_verbose c).
Definition set_regex (c : conf) : conf :=
  mkConf (c_user c) (c_tty c) (c_host c) (c_port c) (c_consoles c) (c_cmd c) (c_bcast c) (c_force c) (c_join c) (c_quiet c) true (c_esc c) (c_log c) (c_verbose c).
Definition set_esc (c : conf) (e : Z) : conf :=
  mkConf (c_user c) (c_tty c) (c_host c) (c_port c) (c_consoles c) (c_cmd c) (c_bcast c) (c_force c) (c_join c) (c_quiet c) (c_regex c) e (c_log c) (c_verbose c).
Definition set_log (c : conf) (l : list Z) : conf :=
  mkConf (c_user c) (c_tty c) (c_host c) (c_port c) (c_consoles c) (c_cmd c) (c_bcast c) (c_force c) (c_join c) (c_quiet c) (c_regex c) (c_esc c) (Some l) (c_verbose c).
Definition set_verbose (c : conf) : conf :=
  mkConf (c_user c) (c_tty c) (c_host c) (c_port c) (c_consoles c) (c_cmd c) (c_bcast c) (c_force c) (c_join c) (c_quiet c) (c_regex c) (c_esc c) (c_log c) true.

(** ** Who calls *)
(** the entries of the password file: name and uid *)
Definition passwd := list (list Z * Z).
Definition getpwnam (db : passwd) (name : list Z) : option (list Z * Z) := find (fun e => list_eqb (fst e) name) db.
Definition getpwuid (db : passwd) (uid : Z) : option (list Z * Z) := find (fun e => snd e =? uid) db.
(** client-conf.c:68-75; [login]: the result of getlogin() *)
Definition who (db : passwd) (uid : Z) (login : option (list Z)) (env : list (list Z)) : res (option (list Z)) :=
  let p := match login with
           | Some l => Some l
           | None => match getenv env (zs "USER") with Some u => Some u | None => getenv env (zs "LOGNAME") end
           end in
  let pw := match p with Some n => getpwnam db n | None => None end in
  do e <- (match pw with
           | Some e => if snd e =? uid then Ok e
                       else match getpwuid db uid with Some e => Ok e | None => UB Fatal end
           | None => match getpwuid db uid with Some e => Ok e | None => UB Fatal end
           end);
  Ok (match fst e with [] => None | n => Some n end).
(** client-conf.c:79-83; strstr(p, "/dev/") == p *)
Definition DEV : list Z := zs "/dev/".
Definition where_ (ttyname : option (list Z)) : option (list Z) :=
  match ttyname with
  | None => None
  | Some p => match (if list_eqb (firstn 5 p) DEV then skipn 5 p else p) with [] => None | q => Some q end
  end.
(** common.h:46-60; the values can be set when the program is built *)
Definition CONMAN_HOST : list Z := zs "127.0.0.1".
Definition CONMAN_PORT : Z := 7890.
Definition DEFAULT_CLIENT_ESCAPE : Z := 38.
(** client-conf.c:53-100 *)
Definition create_client_conf (db : passwd) (uid : Z) (login : option (list Z)) (env : list (list Z)) (tty : option (list Z)) : res conf :=
  do u <- who db uid login env;
  Ok (mkConf u (where_ tty) CONMAN_HOST CONMAN_PORT [] Connect false false false false false DEFAULT_CLIENT_ESCAPE None false).

(** ** The environment *)
(** strchr(s, c): what comes before and after the first c *)
Fixpoint cut (c : Z) (s : list Z) : list Z * option (list Z) :=
  match s with
  | [] => ([], None)
  | x :: t => if x =? c then ([], Some t) else let '(a, b) := cut c t in (x :: a, b)
  end.
(** client-conf.c:132-141 and 171-180 *)
Definition take_host (c : conf) (p : list Z) : res conf :=
  let '(h, q) := cut COLON p in
  do c <- (match q with
           | None => Ok c
           | Some q => do i <- atoi q; Ok (if 0 <? i then set_port c i else c)
           end);
  Ok (match h with [] => c | _ => set_host c h end).
(** client-conf.c:126-151 *)
Definition process_env (env : list (list Z)) (c : conf) : res conf :=
  do c <- (match getenv env (zs "CONMAN_HOST") with Some p => take_host c p | None => Ok c end);
  do c <- (match getenv env (zs "CONMAN_PORT") with
           | Some (x :: p) => do i <- atoi (x :: p); Ok (if 0 <? i then set_port c i else c)
           | _ => Ok c
           end);
  Ok (match getenv env (zs "CONMAN_ESCAPE") with Some (e :: _) => set_esc c e | _ => c end).

(** ** Files with names of consoles *)
(** fgets(buf, size, fp): what is left of the file; None at its end *)
Fixpoint line_of (n : nat) (file : list Z) : list Z * list Z :=
  match n, file with
  | O, _ | _, [] => ([], file)
  | S n, c :: t => if c =? LF then ([c], t) else let '(a, b) := line_of n t in (c :: a, b)
  end.
Definition fgets (buf file : list Z) : res (option (list Z * list Z)) :=
  match file with
  | [] => Ok None
  | _ => let '(l, rest) := line_of (length buf - 1) file in
         do buf <- blit buf 0 (l ++ [NUL]); Ok (Some (buf, rest))
  end.
(** client-conf.c:291-292; [n]: q - buf + 1.  Gives buf and the new n. *)
Fixpoint trim_end (iso : bool) (buf : list Z) (n : nat) : res (list Z * nat) :=
  match n with
  | O => Ok (buf, O)
  | S m =>
      do c <- get buf m;
      do sp <- ctype iso isspace c;
      if sp then do buf <- put buf m NUL; trim_end iso buf m else Ok (buf, n)
  end.
(** client-conf.c:297-298; [k] bounds the number of steps; [n]: q - buf + 1 *)
Fixpoint skip_start (iso : bool) (k : nat) (buf : list Z) (n p : nat) : res nat :=
  match k with
  | O => UB OutOfFuel
  | S k =>
      if (p + 1 <? n)%nat then
        do c <- get buf p;
        do sp <- ctype iso isspace c;
        if sp then skip_start iso k buf n (S p) else Ok p
      else Ok p
  end.
(** client-conf.c:286-306, the loop; [k] bounds the number of steps *)
Fixpoint read_loop (iso : bool) (k : nat) (buf file : list Z) (consoles : list (list Z)) : res (list (list Z)) :=
  match k with
  | O => UB OutOfFuel
  | S k =>
      do r <- fgets buf file;
      match r with
      | None => Ok consoles
      | Some (buf, rest) =>
          do e <- find_nul (S (length buf)) buf 0;
          do t <- trim_end iso buf e;
          let '(buf, n) := t in
          do p <- skip_start iso (S (length buf)) buf n 0;
          do c <- get buf p;
          if (c =? HASH) || (c =? NUL) then read_loop iso k buf rest consoles
          else
            do z <- find_nul (S (length buf)) buf p;
            do s <- slice buf p (z - p);
            read_loop iso k buf rest (consoles ++ [s])
      end
  end.
(** client-conf.c:268-312; [file]: the contents, None if it cannot be opened; [buf]: the
    local buffer, of MAX_LINE bytes *)
Definition read_consoles_from_file (iso : bool) (buf : list Z) (consoles : list (list Z)) (file : option (list Z)) : res (list (list Z)) :=
  match file with
  | None => UB Fatal
  | Some f => read_loop iso (S (length f)) buf f consoles
  end.

(** ** The command line *)
(** an option as getopt() returns it, with its argument; for -F the contents of the file *)
Inductive opt :=
  | OBcast | ODest (a : list Z) | OEsc (a : list Z) | OForce | OFile (f : option (list Z)) | OHelp | OJoin
  | OLog (a : list Z) | OLicense | OMonitor | OQuery | OQuiet | ORegex | OVerbose | OVersion | OInvalid.
(** the client ends with a status, or goes on *)
Inductive outcome := Exit (n : Z) | Go (c : conf).

(** client-conf.c:165-232: the options; [h]: gotHelp *)
Fixpoint options (iso : bool) (buf : list Z) (c : conf) (h : bool) (l : list opt) : res (outcome * bool) :=
  match l with
  | [] => Ok (Go c, h)
  | o :: l =>
      match o with
      | OBcast => options iso buf (set_modes c true (c_force c) (c_join c)) h l
      | ODest a => do c <- take_host c a; options iso buf c h l
      | OEsc a => do e <- get (cstr a) 0; options iso buf (set_esc c e) h l
      | OForce => options iso buf (set_modes c (c_bcast c) true false) h l
      | OFile f => do cs <- read_consoles_from_file iso buf (c_consoles c) f; options iso buf (set_consoles c cs) h l
      | OHelp => options iso buf c true l
      | OJoin => options iso buf (set_modes c (c_bcast c) false true) h l
      | OLog a => options iso buf (set_log c a) h l
      | OLicense => Ok (Exit 0, h)
      | OMonitor => options iso buf (set_cmd c Monitor) h l
      | OQuery => options iso buf (set_cmd c Query) h l
      | OQuiet => options iso buf (set_quiet c) h l
      | ORegex => options iso buf (set_regex c) h l
      | OVerbose => options iso buf (set_verbose c) h l
      | OVersion => Ok (Exit 0, h)
      | OInvalid => UB Fatal                                                 (* log_err ends the client *)
      end
  end.
(** client-conf.c:248-255: one argument; [k] bounds the number of steps *)
Fixpoint split_names (k : nat) (p : list Z) (consoles : list (list Z)) : res (list (list Z)) :=
  match k with
  | O => UB OutOfFuel
  | S k =>
      let '(a, q) := cut COMMA p in
      let consoles := match a with [] => consoles | _ => consoles ++ [a] end in
      match q with None => Ok consoles | Some q => split_names k q consoles end
  end.
Fixpoint arguments (args : list (list Z)) (consoles : list (list Z)) : res (list (list Z)) :=
  match args with
  | [] => Ok consoles
  | a :: args => do cs <- split_names (S (length a)) a consoles; arguments args cs
  end.
(** client-conf.c:154-265 *)
Definition process_cmd_line (iso : bool) (buf : list Z) (c : conf) (l : list opt) (args : list (list Z)) : res outcome :=
  do r <- options iso buf c false l;
  match r with
  | (Exit n, _) => Ok (Exit n)
  | (Go c, h) =>
      let c := match c_cmd c with Monitor => set_modes c false false false | _ => c end in   (* 236 *)
      do cs <- arguments args (c_consoles c);
      let c := set_consoles c cs in
      if h || match c_cmd c, c_consoles c with Query, _ => false | _, [] => true | _, _ => false end   (* 258 *)
      then Ok (Exit 0) else Ok (Go c)
  end.
(** client.c:45-47 *)
Definition start (iso : bool) (db : passwd) (uid : Z) (login : option (list Z)) (env : list (list Z)) (tty : option (list Z))
    (buf : list Z) (l : list opt) (args : list (list Z)) : res outcome :=
  do c <- create_client_conf db uid login env tty;
  do c <- process_env env c;
  process_cmd_line iso buf c l args.
(** client-sock.c:66: the port that the client connects to, htons() takes 16 bits *)
Definition sin_port (c : conf) : Z := c_port c mod 65536.
