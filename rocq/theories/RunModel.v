(** One run of the client after its command line has been read: src/client.c:50-68 and
    src/client-sock.c:51-301, 370-456, on top of ProtoModel (what goes over the socket).

    Left out: the words of the messages with which log_err() ends the program (status 1);
    what the addresses are (HostModel); the session itself (TermModel). *)
From Coq Require Import String.
From Verif Require Import Base Chars Fmt StrModel FileModel MsgModel ProtoModel.
Local Open Scope Z_scope.

Definition MAX_BUF_SIZE : nat := Z.to_nat 4096.
Definition MAX_STR_SIZE : nat := Z.to_nat 1024.
Definition ERR_LOCAL : Z := 1.
Definition ERR_AUTHENTICATE : Z := 4.
Definition ERR_TOO_MANY_CONSOLES : Z := 6.
Definition ERR_BUSY_CONSOLES : Z := 7.

(** What the user sees: standard output and error, the client's log if there is one; what has
    gone into the socket; how the further writes to the first three will end. *)
Record st := mkSt { t_out : list Z; t_err : list Z; t_log : option (list Z); t_sent : list Z;
                    w_out : list io_ev; w_err : list io_ev; w_log : list io_ev }.
Definition set_sent (s : st) (b : list Z) : st := mkSt (t_out s) (t_err s) (t_log s) b (w_out s) (w_err s) (w_log s).
(** write_n() to standard output or error, then to the log: client-sock.c:378-382, 398-402,
    426-430, 448-452.  False: one has failed. *)
Definition emit (toerr : bool) (s : st) (t : list Z) : res (st * bool) :=
  do w <- write_n (if toerr then w_err s else w_out s) (if toerr then t_err s else t_out s) t (length t);
  let '(o, rv, ws) := w in
  let s := if toerr then mkSt (t_out s) o (t_log s) (t_sent s) (w_out s) ws (w_log s)
           else mkSt o (t_err s) (t_log s) (t_sent s) ws (w_err s) (w_log s) in
  if rv <? 0 then Ok (s, false)
  else match t_log s with
       | None => Ok (s, true)
       | Some l =>
           do w <- write_n (w_log s) l t (length t);
           let '(l, rv, ws) := w in
           Ok (mkSt (t_out s) (t_err s) (Some l) (t_sent s) (w_out s) (w_err s) ws, negb (rv <? 0))
       end.

(** util-str.c:63-82, create_format_string; [junk]: its buffer; [t]: what the format and its
    arguments expand to *)
Definition create_format_string (junk t : list Z) : res (list Z) :=
  do r <- vsnprintf junk 0 MAX_STR_SIZE t;
  do b <- put (fst r) (MAX_STR_SIZE - 1) NUL;
  FileModel.cstr b.

(** client-sock.c:409-433, display_data; [f] bounds the number of calls.  A read that is
    interrupted ends the program, too. *)
Fixpoint display_data (f : nat) (rs : list io_ev) (stream : list Z) (s : st) : res (st * bool) :=
  match f with
  | O => UB OutOfFuel
  | S f =>
      match sys_read rs stream MAX_BUF_SIZE with
      | (IoOk d, rs, stream) =>
          if (length d =? 0)%nat then Ok (s, true)
          else
            do e <- emit true s d;
            if snd e then display_data f rs stream (fst e) else Ok (fst e, false)
      | _ => Ok (s, false)
      end
  end.

(** How a run ends: with a status, or in a session: with what is known of the consoles and what
    the server will still send. *)
Inductive ended := Exit (status : Z) | Session (k : client) (rest : list Z).

(** client-sock.c:388-395 *)
Definition hint (q : req) (code : Z) : list Z :=
  if (code =? ERR_TOO_MANY_CONSOLES) && negb (q_bcast q) then [LF] ++ zs "Do you want to broadcast (-b) to multiple consoles?" ++ [LF; LF]
  else if (code =? ERR_BUSY_CONSOLES) && (negb (q_force q) && negb (q_join q)) then [LF] ++ zs "Do you want to force (-f) or join (-j) the connection?" ++ [LF; LF]
  else [].
(** client-sock.c:370-406, display_error; [sock]: what the server will still send, if the socket
    is open *)
Definition display_error (dbg : bool) (junk : list Z) (q : req) (code : Z) (msg : option (list Z)) (sock : option (list io_ev * list Z)) (s : st) : res (st * ended) :=
  do _ <- assert_if dbg (0 <? code);
  do p <- create_format_string junk (zs "ERROR: " ++ match msg with Some m => m | None => zs "Unspecified" end ++ zs "." ++ [LF; LF]);
  do e <- emit true s p;
  if negb (snd e) then Ok (fst e, Exit 1)
  else
    do e <- (match sock with
             | Some (rs, stream) => if code =? ERR_LOCAL then Ok e else display_data (S (length rs + length stream)) rs stream (fst e)    (* 385, 416 *)
             | None => Ok e
             end);
    if negb (snd e) then Ok (fst e, Exit 1)
    else match hint q code with
         | [] => Ok (fst e, Exit 2)
         | p => do e <- emit true (fst e) p; Ok (fst e, Exit (if snd e then 2 else 1))
         end.
(** client-sock.c:436-456, display_consoles; [buf]: its buffer of MAX_LINE bytes *)
Fixpoint display_consoles (buf : list Z) (l : list (list Z)) (s : st) : res (st * bool) :=
  match l with
  | [] => Ok (s, true)
  | n :: l =>
      do r <- vsnprintf buf 0 ProtoModel.MAX_LINE (n ++ [LF]);
      if (ProtoModel.MAX_LINE <=? snd r)%nat then Ok (s, false)                         (* 446 *)
      else
        do b <- slice (fst r) 0 (snd r);
        do e <- emit false s b;
        if snd e then display_consoles (fst r) l (fst e) else Ok (fst e, false)
  end.

(** What the rest of the world does.  [y_cname]: what host_name_to_cname() finds; [y_conn],
    [y_shut]: None if connect(), shutdown() succeed, else strerror(); [y_serr]: strerror() of the
    other errors; the schedules of writing and reading the greeting and its answer, the request
    and its answer, and of reading what follows an error; [y_junk]: what is in the buffers of
    create_format_string() and display_consoles(), [y_jline] in that of recv_rsp(); [y_time]: the
    time when the log is closed. *)
Record sys := mkSys { y_sock : bool; y_addr : bool; y_cname : option (list Z); y_conn : option (list Z); y_shut : option (list Z); y_close : bool; y_serr : list Z;
                      y_gw : list io_ev; y_gr : list io_ev; y_rw : list io_ev; y_rr : list io_ev; y_dr : list io_ev;
                      y_junk : list Z; y_jline : list Z; y_time : list Z; y_logclose : bool }.

(** strchr(buf, '.'): what comes before (client-sock.c:81-83) *)
Fixpoint before_dot (s : list Z) : list Z := match s with [] => [] | c :: t => if c =? DOT then [] else c :: before_dot t end.
Definition at_host (h : list Z) (port : Z) : list Z := zs "<" ++ h ++ zs ":" ++ fmt_d port ++ zs ">".

(** recv_rsp() with the messages that it makes up itself (client-sock.c:257-269, 295-299):
    read_line() is looked at once more to see which *)
Definition receive (iso : bool) (y : sys) (rs : list io_ev) (stream : list Z) (host : list Z) (port : Z) (k : client) : res (client * Z * list io_ev * list Z * option (list Z)) :=
  do r <- recv_rsp iso rs stream (y_jline y) k;
  let '(k, rv, rs1, st1) := r in
  do l <- read_line rs stream (y_jline y) ProtoModel.MAX_SOCK_LINE;
  let '(_, n, _, _) := l in
  do m <- (match k_msg k with
           | NoMsg => Ok None
           | Text t => Ok (Some t)
           | Local =>
               do t <- create_format_string (y_junk y)
                 (if n <? 0 then zs "Unable to read response from " ++ at_host host port ++ zs ":" ++ [LF] ++ zs "  " ++ y_serr y ++ zs " (blocked by TCP-Wrappers?)"
                  else if n =? 0 then zs "Connection terminated by " ++ at_host host port
                  else zs "Received invalid response from " ++ at_host host port);
               Ok (Some t)
           end);
  Ok (k, rv, rs1, st1, m).

(** client.c:58-68 once the answer is there; the log's last line is made like others, see
    client-conf.c:373-394 *)
Definition finish (y : sys) (s : st) : res (st * ended) :=
  match t_log s with
  | None => Ok (s, Exit 0)
  | Some l =>
      do p <- create_format_string (y_junk y) (MSG_PREFIX ++ zs "Log finished at " ++ y_time y ++ MSG_SUFFIX);
      do w <- write_n (w_log s) l p (length p);
      let '(l, rv, ws) := w in
      let s := mkSt (t_out s) (t_err s) (Some l) (t_sent s) (w_out s) (w_err s) ws in
      Ok (s, Exit (if rv <? 0 then 1 else if y_logclose y then 0 else 1))
  end.

(** client.c:50-68.  [host], [port]: where to; [user], [tty], [q]: the request; [stream]: all that
    the server sends.  An overrun of the buffer uses up nothing of a schedule, a failing write
    does: this tells 120-125 from 127-133, and 217-221 from 223-229. *)
Definition run_client (dbg iso : bool) (y : sys) (host : list Z) (port : Z) (user : list Z) (tty : option (list Z)) (q : req) (stream : list Z) (s : st) : res (st * ended) :=
  let fail code msg sock s := display_error dbg (y_junk y) q code msg sock s in
  let local sock s t := do t <- create_format_string (y_junk y) t; fail ERR_LOCAL (Some t) sock s in
  if negb (y_sock y) then Ok (s, Exit 1)                                                                 (* 61 *)
  else if negb (y_addr y) then local None s (zs "Unable to resolve host <" ++ host ++ zs ">")             (* 67 *)
  else
    let '(fqdn, host) := match y_cname y with None => (host, host) | Some n => (n, before_dot n) end in     (* 75-84 *)
    match y_conn y with
    | Some e => local None s (zs "Unable to connect to " ++ at_host fqdn port ++ zs ": " ++ e)            (* 86 *)
    | None =>
        do g <- send_greeting dbg (y_gw y) (t_sent s) user tty;
        let '(sent, rv, ws1) := g in
        let s := set_sent s sent in
        let unable := zs "Unable to send greeting to " ++ at_host host port ++ zs ": " ++ y_serr y in
        if rv <? 0 then
          if (length ws1 =? length (y_gw y))%nat then fail ERR_LOCAL (Some (zs "Overran request buffer for sending greeting")) (Some ([], stream)) s
          else local (Some ([], stream)) s unable
        else
          do r <- receive iso y (y_gr y) stream host port (mkClient (q_cons q) false 0 NoMsg);             (* 135 *)
          let '(k, rv, _, st1, m) := r in
          if rv <? 0 then
            if k_err k =? ERR_AUTHENTICATE then if y_close y then fail (k_err k) m None s else Ok (s, Exit 1)    (* 136-144 *)
            else fail (k_err k) m (Some (y_dr y, st1)) s
          else
            do r <- send_req dbg (y_rw y) (t_sent s) q;
            let '(sent, rv, ws1, q1) := r in
            let s := set_sent s sent in
            if rv <? 0 then
              if (length ws1 =? length (y_rw y))%nat then fail ERR_LOCAL (Some (zs "Overran request buffer")) (Some (y_dr y, st1)) s
              else local (Some (y_dr y, st1)) s unable
            else
              match q_cmd q, y_shut y with
              | CmdQuery, Some e => local (Some (y_dr y, st1)) s (zs "Unable to close write-half of connection to " ++ at_host host port ++ zs ": " ++ e)    (* 234 *)
              | _, _ =>
                  do r <- receive iso y (y_rr y) st1 host port (mkClient (q_cons q1) (k_reset k) (k_err k) (k_msg k));
                  let '(k, rv, _, st2, m) := r in
                  if rv <? 0 then fail (k_err k) m (Some (y_dr y, st2)) s
                  else
                    match q_cmd q with
                    | CmdQuery =>
                        do e <- display_consoles (y_junk y) (k_cons k) s;
                        if snd e then finish y (fst e) else Ok (fst e, Exit 1)
                    | _ => Ok (s, Session k st2)
                    end
              end
    end.
