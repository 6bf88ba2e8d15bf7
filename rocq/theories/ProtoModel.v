(** Model of the protocol between client and daemon: client-sock.c and server-sock.c,
    from the structures holding requests to the bytes on the socket and back. *)
From Coq Require Import String.
From Verif Require Import Base Chars Fmt LexModel StrModel FileModel.
Local Open Scope Z_scope.

(** common.h:86-90 *)
Definition MAX_SOCK_LINE : nat := Z.to_nat 131072.
Definition MAX_LINE : nat := Z.to_nat 1024.
(** common.h:138-143, cmd_t *)
Inductive cmd := CmdNone | CmdConnect | CmdMonitor | CmdQuery.
(** common.h:145-161, request; the fields that take part in the protocol.  The client's
    list holds patterns before and names after the response, the server's patterns;
    where the server's list holds consoles ([send_rsp]) it is given as the list of names. *)
Record req := mkReq {
  q_user : option (list Z); q_tty : option (list Z); q_cmd : cmd;
  q_bcast : bool; q_force : bool; q_join : bool; q_quiet : bool; q_regex : bool; q_reset : bool;
  q_cons : list (list Z) }.
(** common.c:82-107, create_req *)
Definition create_req : req := mkReq None None CmdNone false false false false false false [].
Definition set_user q u := mkReq u (q_tty q) (q_cmd q) (q_bcast q) (q_force q) (q_join q) (q_quiet q) (q_regex q) (q_reset q) (q_cons q).
Definition set_tty q t := mkReq (q_user q) t (q_cmd q) (q_bcast q) (q_force q) (q_join q) (q_quiet q) (q_regex q) (q_reset q) (q_cons q).
Definition set_cmd q c := mkReq (q_user q) (q_tty q) c (q_bcast q) (q_force q) (q_join q) (q_quiet q) (q_regex q) (q_reset q) (q_cons q).
Definition set_bcast q := mkReq (q_user q) (q_tty q) (q_cmd q) true (q_force q) (q_join q) (q_quiet q) (q_regex q) (q_reset q) (q_cons q).
Definition set_force q := mkReq (q_user q) (q_tty q) (q_cmd q) (q_bcast q) true (q_join q) (q_quiet q) (q_regex q) (q_reset q) (q_cons q).
Definition set_join q := mkReq (q_user q) (q_tty q) (q_cmd q) (q_bcast q) (q_force q) true (q_quiet q) (q_regex q) (q_reset q) (q_cons q).
Definition set_quiet q := mkReq (q_user q) (q_tty q) (q_cmd q) (q_bcast q) (q_force q) (q_join q) true (q_regex q) (q_reset q) (q_cons q).
Definition set_regex q := mkReq (q_user q) (q_tty q) (q_cmd q) (q_bcast q) (q_force q) (q_join q) (q_quiet q) true (q_reset q) (q_cons q).
Definition set_reset q := mkReq (q_user q) (q_tty q) (q_cmd q) (q_bcast q) (q_force q) (q_join q) (q_quiet q) (q_regex q) true (q_cons q).
Definition set_cons q l := mkReq (q_user q) (q_tty q) (q_cmd q) (q_bcast q) (q_force q) (q_join q) (q_quiet q) (q_regex q) (q_reset q) l.

(** LEX_TOK2STR, lex.h:83-84 *)
Definition TOK2STR (tok : Z) : list Z := nth (Z.to_nat (tok - LEX_TOK_OFFSET)) proto_strs [].
(** " %s=%s" and " %s='%s'" *)
Definition opt_fmt (a b : list Z) : list Z := zs " " ++ a ++ zs "=" ++ b.
Definition str_fmt (a b : list Z) : list Z := zs " " ++ a ++ zs "='" ++ b ++ zs "'".

(** n = append_format_string(buf, sizeof(buf), ...): buffer and last result *)
Definition app (st : list Z * Z) (t : list Z) : res (list Z * Z) :=
  append_format_string (fst st) MAX_SOCK_LINE t.
Definition app_if (b : bool) (st : list Z * Z) (t : list Z) : res (list Z * Z) :=
  if b then app st t else Ok st.
(** char buf[MAX_SOCK_LINE] = "" *)
Definition new_buf : list Z * Z := (repeat NUL MAX_SOCK_LINE, 0).

(** write_n(sd, buf, strlen(buf)): descriptor, success, schedule *)
Definition write_str (sched : list io_ev) (out : list Z) (buf : list Z) : res (list Z * bool * list io_ev) :=
  do n <- strlen buf;
  do r <- write_n sched out buf n;
  let '(out1, rv, s1) := r in Ok (out1, negb (rv <? 0), s1).

(** ** Client: sending *)
(** client-sock.c:99-133, send_greeting without the response; user is not NULL.
    Result: what the socket has taken, the return value. *)
Definition send_greeting (dbg : bool) (sched : list io_ev) (out : list Z) (user : list Z) (tty : option (list Z))
    : res (list Z * Z * list io_ev) :=
  do eu <- lex_encode dbg user;
  do st1 <- app new_buf (TOK2STR TOK_HELLO ++ zs " " ++ TOK2STR TOK_USER ++ zs "='" ++ eu ++ zs "'");
  do st2 <- (match tty with
             | Some t => do et <- lex_encode dbg t; app st1 (str_fmt (TOK2STR TOK_TTY) et)
             | None => Ok st1
             end);
  do st3 <- app st2 [LF];
  if snd st3 <? 0 then Ok (out, -1, sched)
  else do w <- write_str sched out (fst st3);
       let '(out1, ok, s1) := w in Ok (out1, if ok then 0 else -1, s1).

(** client-sock.c:208-213 *)
Fixpoint app_consoles (dbg : bool) (st : list Z * Z) (l : list (list Z)) : res (list Z * Z) :=
  match l with
  | [] => Ok st
  | c :: t => do e <- lex_encode dbg c;
              do st1 <- app st (str_fmt (TOK2STR TOK_CONSOLE) e);
              app_consoles dbg st1 t
  end.
(** client-sock.c:151-229, send_req up to the write; closing the write half for a query
    (234-242) is left out.  An invalid command (170-172) ends the client. *)
Definition send_req (dbg : bool) (sched : list io_ev) (out : list Z) (q : req)
    : res (list Z * Z * list io_ev * req) :=
  do cmd <- (match q_cmd q with
             | CmdQuery => Ok (TOK2STR TOK_QUERY)
             | CmdMonitor => Ok (TOK2STR TOK_MONITOR)
             | CmdConnect => Ok (TOK2STR TOK_CONNECT)
             | CmdNone => UB Fatal
             end);
  let connect := match q_cmd q with CmdConnect => true | _ => false end in
  do st1 <- app new_buf cmd;
  do st2 <- app_if (q_quiet q) st1 (opt_fmt (TOK2STR TOK_OPTION) (TOK2STR TOK_QUIET));
  do st3 <- app_if (q_regex q) st2 (opt_fmt (TOK2STR TOK_OPTION) (TOK2STR TOK_REGEX));
  do st4 <- app_if (connect && q_force q) st3 (opt_fmt (TOK2STR TOK_OPTION) (TOK2STR TOK_FORCE));
  do st5 <- app_if (connect && q_join q) st4 (opt_fmt (TOK2STR TOK_OPTION) (TOK2STR TOK_JOIN));
  do st6 <- app_if (connect && q_bcast q) st5 (opt_fmt (TOK2STR TOK_OPTION) (TOK2STR TOK_BROADCAST));
  do st7 <- app_consoles dbg st6 (q_cons q);
  do st8 <- app st7 [LF];
  let q1 := set_cons q [] in
  if snd st8 <? 0 then Ok (out, -1, sched, q1)                          (* 217 *)
  else do w <- write_str sched out (fst st8);
       let '(out1, ok, s1) := w in Ok (out1, if ok then 0 else -1, s1, q1).

(** ** Parsing *)
(** The loop common to all the parsers:
    while (!done) { tok = lex_next(l); switch (tok) ... }.
    [body] handles the other tokens and says whether it sets done; LEX_EOF and LEX_EOL
    end the loop. *)
Fixpoint parse_loop {S : Type} (n : nat) (iso : bool) (body : Z -> lex -> S -> res (lex * S * bool)) (l : lex) (st : S)
    : res (lex * S) :=
  match n with
  | O => UB OutOfFuel
  | Datatypes.S n' =>
      do r <- lex_next iso l;
      let '(tok, l1) := r in
      if (tok =? LEX_EOF) || (tok =? LEX_EOL) then Ok (l1, st)
      else
        do r2 <- body tok l1 st;
        let '(l2, st2, done) := r2 in
        if done then Ok (l2, st2) else parse_loop n' iso body l2 st2
  end.
Definition fuel_of (l : lex) : nat := S (length (x_buf l)).
(** (lex_next(l) == '=') && (lex_next(l) == kind), and then lex_text(l) *)
Definition lex_value (iso : bool) (kind : Z) (l : lex) : res (lex * option (list Z)) :=
  do r1 <- lex_next iso l;
  if fst r1 =? EQUALS then
    do r2 <- lex_next iso (snd r1);
    if fst r2 =? kind then Ok (snd r2, Some (x_text (snd r2))) else Ok (snd r2, None)
  else Ok (snd r1, None).
(** if (lex_next(l) == '=') { lex_next(l) ... }: the token after '=' *)
Definition lex_option (iso : bool) (l : lex) : res (lex * option Z) :=
  do r1 <- lex_next iso l;
  if fst r1 =? EQUALS then do r2 <- lex_next iso (snd r1); Ok (snd r2, Some (fst r2))
  else Ok (snd r1, None).
(** *lex_text(l) != '\0' *)
Definition nonempty (o : option (list Z)) : option (list Z) :=
  match o with Some [] => None | _ => o end.

(** ** Server: receiving *)
(** server-sock.c:279-315, parse_greeting *)
Definition greeting_body (iso : bool) (tok : Z) (l : lex) (q : req) : res (lex * req * bool) :=
  if tok =? TOK_USER then
    do r <- lex_value iso LEX_STR l;
    Ok (fst r, match nonempty (snd r) with Some s => set_user q (Some (lex_decode s)) | None => q end, false)
  else if tok =? TOK_TTY then
    do r <- lex_value iso LEX_STR l;
    Ok (fst r, match nonempty (snd r) with Some s => set_tty q (Some (lex_decode s)) | None => q end, false)
  else Ok (l, q, false).
(** server-sock.c:248-261 *)
Definition hello_body (iso : bool) (tok : Z) (l : lex) (q : req) : res (lex * req * bool) :=
  if tok =? TOK_HELLO then
    do r <- parse_loop (fuel_of l) iso (greeting_body iso) l q; Ok (r, false)
  else Ok (l, q, false).
(** server-sock.c:374-415, parse_cmd_opts *)
Definition opts_body (iso : bool) (tok : Z) (l : lex) (q : req) : res (lex * req * bool) :=
  if tok =? TOK_CONSOLE then
    do r <- lex_value iso LEX_STR l;
    Ok (fst r, match nonempty (snd r) with Some s => set_cons q (q_cons q ++ [lex_decode s]) | None => q end, false)
  else if tok =? TOK_OPTION then
    do r <- lex_option iso l;
    Ok (fst r,
        match snd r with
        | Some k => if k =? TOK_BROADCAST then set_bcast q
                    else if k =? TOK_FORCE then set_force q
                    else if k =? TOK_JOIN then set_join q
                    else if k =? TOK_QUIET then set_quiet q
                    else if k =? TOK_REGEX then set_regex q else q
        | None => q
        end, false)
  else Ok (l, q, false).
Definition parse_cmd_opts (iso : bool) (l : lex) (q : req) : res (lex * req * bool) :=
  do r <- parse_loop (fuel_of l) iso (opts_body iso) l q; Ok (r, false).
(** server-sock.c:345-367 *)
Definition req_body (iso : bool) (tok : Z) (l : lex) (q : req) : res (lex * req * bool) :=
  if tok =? TOK_CONNECT then parse_cmd_opts iso l (set_cmd q CmdConnect)
  else if tok =? TOK_MONITOR then parse_cmd_opts iso l (set_cmd q CmdMonitor)
  else if tok =? TOK_QUERY then parse_cmd_opts iso l (set_cmd q CmdQuery)
  else Ok (l, q, false).
(** server-sock.c:318-371, recv_req; [junk]: the uninitialised buf[] *)
Definition recv_req (iso : bool) (sched : list io_ev) (stream : list Z) (junk : list Z) (q : req)
    : res (req * Z * list io_ev * list Z) :=
  do r <- read_line sched stream junk MAX_SOCK_LINE;
  let '(buf, n, s1, st1) := r in
  if n <=? 0 then Ok (q, -1, s1, st1)
  else
    let l := lex_create buf proto_strs in
    do r2 <- parse_loop (fuel_of l) iso (req_body iso) l q;
    Ok (snd r2, 0, s1, st1).

(** ** Server: responding *)
(** char tmp[MAX_LINE]; n = strlcpy(tmp, s, sizeof(tmp)); lex_encode(tmp).  [None]: overrun *)
Definition enc_tmp (dbg : bool) (s : list Z) : res (option (list Z)) :=
  do r <- strlcpy (repeat NUL MAX_LINE) 0 (s ++ [NUL]) MAX_LINE;
  let '(tmp, n) := r in
  if (MAX_LINE <=? n)%nat then Ok None
  else do t <- FileModel.cstr tmp; do e <- lex_encode dbg t; Ok (Some e).
(** server-sock.c:747-758.  [None]: overrun *)
Fixpoint rsp_consoles (dbg : bool) (buf : list Z) (l : list (list Z)) : res (option (list Z)) :=
  match l with
  | [] => Ok (Some buf)
  | c :: t =>
      do o <- enc_tmp dbg c;
      match o with
      | None => Ok None
      | Some e =>
          do r <- append_format_string buf MAX_SOCK_LINE (str_fmt (TOK2STR TOK_CONSOLE) e);
          if snd r =? -1 then Ok None else rsp_consoles dbg (fst r) t
      end
  end.
(** n = append_format_string(...); if (n == -1) goto overrun; *)
Definition app_or (buf : list Z) (t : list Z) : res (option (list Z)) :=
  do r <- append_format_string buf MAX_SOCK_LINE t;
  Ok (if snd r =? -1 then None else Some (fst r)).
Definition obind {A} (o : option A) (f : A -> res (option A)) : res (option A) :=
  match o with Some a => f a | None => Ok None end.
(** server-sock.c:726-781: the contents of buf[], [None] on overrun; [names] are the
    names of req->consoles *)
Definition rsp_buf (dbg : bool) (reset : bool) (names : list (list Z)) (errnum : Z) (errmsg : option (list Z))
    : res (option (list Z)) :=
  let buf0 := repeat NUL MAX_SOCK_LINE in
  if errnum =? 0 then
    do o1 <- app_or buf0 (TOK2STR TOK_OK);
    do o2 <- obind o1 (fun b1 =>
      match names with
      | [] => Ok (Some b1)
      | _ => do o <- (if reset then app_or b1 (opt_fmt (TOK2STR TOK_OPTION) (TOK2STR TOK_RESET)) else Ok (Some b1));
             obind o (fun b2 => rsp_consoles dbg b2 names)
      end);
    obind o2 (fun b => app_or b [LF])
  else
    do o <- enc_tmp dbg (match errmsg with Some m => m | None => zs "unspecified error" end);
    match o with
    | None => Ok None
    | Some e =>
        do r <- vsnprintf buf0 0 MAX_SOCK_LINE
                  (TOK2STR TOK_ERROR ++ zs " " ++ TOK2STR TOK_CODE ++ zs "=" ++ fmt_d errnum ++ zs " " ++
                   TOK2STR TOK_MESSAGE ++ zs "='" ++ e ++ zs "'" ++ [LF]);
        Ok (if (MAX_SOCK_LINE <=? snd r)%nat then None else Some (fst r))
    end.
(** server-sock.c:708-799, send_rsp; log messages left out *)
Definition send_rsp (dbg : bool) (sched : list io_ev) (out : list Z) (reset : bool) (names : list (list Z))
    (errnum : Z) (errmsg : option (list Z)) : res (list Z * Z * list io_ev) :=
  do o <- rsp_buf dbg reset names errnum errmsg;
  match o with
  | None => Ok (out, -1, sched)
  | Some buf => do w <- write_str sched out buf;
                let '(out1, ok, s1) := w in Ok (out1, if ok then 0 else -1, s1)
  end.

(** server-sock.c:220-276, recv_greeting: result: the request, the return value, what was
    written in response.  The request has no consoles yet. *)
Definition recv_greeting (dbg iso : bool) (sched : list io_ev) (stream : list Z) (junk : list Z)
    (wsched : list io_ev) (out : list Z) (q : req)
    : res (req * Z * list io_ev * list Z * (list Z * list io_ev)) :=
  do r <- read_line sched stream junk MAX_SOCK_LINE;
  let '(buf, n, s1, st1) := r in
  if n <=? 0 then Ok (q, -1, s1, st1, (out, wsched))
  else
    let l := lex_create buf proto_strs in
    do r2 <- parse_loop (fuel_of l) iso (hello_body iso) l q;
    let q1 := snd r2 in
    match q_user q1 with
    | None =>
        do w <- send_rsp dbg wsched out (q_reset q1) [] 2 (Some (zs "Invalid greeting: no user specified"));
        let '(out1, _, ws1) := w in
        Ok (set_user q1 (Some (zs "unknown")), -1, s1, st1, (out1, ws1))
    | Some _ =>
        do w <- send_rsp dbg wsched out (q_reset q1) [] 0 None;
        let '(out1, rv, ws1) := w in Ok (q1, rv, s1, st1, (out1, ws1))
    end.

(** ** Client: receiving the response *)
(** conf->errmsg: text made up by the client, or received *)
Inductive emsg := NoMsg | Local | Text (s : list Z).
(** conf->req->consoles, conf->req->enableReset, conf->errnum, conf->errmsg *)
Record client := mkClient { k_cons : list (list Z); k_reset : bool; k_err : Z; k_msg : emsg }.
(** client-sock.c:304-334, parse_rsp_ok *)
Definition ok_body (iso : bool) (tok : Z) (l : lex) (k : client) : res (lex * client * bool) :=
  if tok =? TOK_CONSOLE then
    do r <- lex_value iso LEX_STR l;
    Ok (fst r, match snd r with
               | Some s => mkClient (k_cons k ++ [lex_decode s]) (k_reset k) (k_err k) (k_msg k)
               | None => k end, false)
  else if tok =? TOK_OPTION then
    do r <- lex_option iso l;
    Ok (fst r, match snd r with
               | Some t => if t =? TOK_RESET then mkClient (k_cons k) true (k_err k) (k_msg k) else k
               | None => k end, false)
  else Ok (l, k, false).
(** client-sock.c:344-362; state: err, buf[] *)
Definition err_body (iso : bool) (tok : Z) (l : lex) (st : Z * list Z) : res (lex * (Z * list Z) * bool) :=
  if tok =? TOK_CODE then
    do r <- lex_value iso LEX_INT l;
    do e <- (match snd r with Some s => atoi s | None => Ok (fst st) end);
    Ok (fst r, (e, snd st), false)
  else if tok =? TOK_MESSAGE then
    do r <- lex_value iso LEX_STR l;
    do b <- (match snd r with
             | Some s => do w <- strlcpy (snd st) 0 (s ++ [NUL]) MAX_LINE; Ok (fst w)
             | None => Ok (snd st) end);
    Ok (fst r, (fst st, b), false)
  else Ok (l, st, false).
(** client-sock.c:337-367, parse_rsp_err *)
Definition parse_rsp_err (iso : bool) (l : lex) (k : client) : res (lex * client) :=
  do r <- parse_loop (fuel_of l) iso (err_body iso) l (0, repeat NUL MAX_LINE);
  let '(l1, (err, buf)) := r in
  do s <- FileModel.cstr buf;
  Ok (l1, mkClient (k_cons k) (k_reset k) err (match s with [] => k_msg k | _ => Text (lex_decode s) end)).
(** client-sock.c:272-290; state: the client and done == 1 *)
Definition rsp_body (iso : bool) (tok : Z) (l : lex) (st : client * bool) : res (lex * (client * bool) * bool) :=
  if tok =? TOK_OK then
    do r <- parse_loop (fuel_of l) iso (ok_body iso) l (fst st); Ok (fst r, (snd r, true), true)
  else if tok =? TOK_ERROR then
    do r <- parse_rsp_err iso l (fst st); Ok (fst r, (snd r, false), true)
  else Ok (l, st, false).
(** client-sock.c:247-301, recv_rsp *)
Definition recv_rsp (iso : bool) (sched : list io_ev) (stream : list Z) (junk : list Z) (k : client)
    : res (client * Z * list io_ev * list Z) :=
  do r <- read_line sched stream junk MAX_SOCK_LINE;
  let '(buf, n, s1, st1) := r in
  if n <=? 0 then Ok (mkClient (k_cons k) (k_reset k) 1 Local, -1, s1, st1)
  else
    let l := lex_create buf proto_strs in
    do r2 <- parse_loop (fuel_of l) iso (rsp_body iso) l (k, false);
    let '(k1, ok) := snd r2 in
    if ok then Ok (k1, 0, s1, st1)
    else if k_err k1 =? 0 then Ok (mkClient (k_cons k1) (k_reset k1) 1 Local, -1, s1, st1)
    else Ok (k1, -1, s1, st1).
