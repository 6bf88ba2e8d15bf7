(** src/server-sock.c:89-217, 562-705, 802-904: what the thread of a client does from the
    accepted connection to its end or to the start of a session, on top of ProtoModel (bytes)
    and QueryModel (selection); src/server.c:956-1018: accepting connections;
    src/common.c:110-137, destroy_req.

    Left out: what is logged; TCP wrappers (only their verdict); what the links of a session
    are (SessModel). *)
From Coq Require Import String.
From Verif Require Import Base Chars Fmt LexModel StrModel FileModel ProtoModel QueryModel.
Local Open Scope Z_scope.

(** The connection: its socket is open; its request is allocated. *)
Record conn := mkConn { c_sock : bool; c_req : bool }.
(** common.c:110-137; [closes]: close() succeeds *)
Definition destroy_req (closes : bool) (c : conn) : res conn :=
  if c_req c then
    if c_sock c then if closes then Ok (mkConn false false) else UB Fatal                 (* 117-121 *)
    else Ok (mkConn false false)
  else UB UseAfterFree.
(** One who writes to a console, as check_busy_consoles() sees them (675-683).  [w_idle]:
    what create_time_delta_string() gives. *)
Record who := mkWho { w_user : list Z; w_host : list Z; w_tty : option (list Z); w_bcast : bool; w_idle : option (list Z) }.

Section Serve.
Variables (dbg iso sgn : bool).
(** QueryModel: the objects and the matching functions of the C library; [regerr]: what
    regerror() says of a pattern *)
Variables (isc : nat -> bool) (nm : nat -> list Z) (fnm : list Z -> list Z -> bool).
Variables (regex : list Z -> option (list Z -> option (nat * nat))) (regerr : list Z -> list Z).
(** conf->objs; who writes to each console (the lists do not change meanwhile); conf->resetCmd *)
Variables (objs : list nat) (writers : nat -> list who) (resets : bool).

(** server-sock.c:607-616; [buf]: buf[] *)
Fixpoint list_names (ws : list io_ev) (out buf : list Z) (l : list nat) : res (list Z) :=
  match l with
  | [] => Ok out
  | o :: l =>
      do b1 <- strlcpy buf 0 (nm o ++ [NUL]) ProtoModel.MAX_SOCK_LINE;
      do b2 <- strlcat (fst b1) [LF; NUL] ProtoModel.MAX_SOCK_LINE;
      do w <- write_str ws out (fst b2);
      let '(out1, ok, ws1) := w in
      if ok then list_names ws1 out1 (fst b2) l else Ok out1
  end.
(** server-sock.c:685-692 *)
Definition busy_text (console : list Z) (w : who) : list Z :=
  zs "Console [" ++ console ++ zs "] open " ++ zs (if w_bcast w then "B/C" else "R/W") ++ zs " by <" ++ w_user w ++ zs "@" ++ w_host w ++ zs ">" ++
  match w_tty w with Some t => zs " on " ++ t | None => [] end ++ zs " (idle " ++ match w_idle w with Some d => d | None => zs "???" end ++ zs ")." ++ [LF].
Definition busy_buf (buf console : list Z) (w : who) : res (list Z) :=
  do r <- vsnprintf buf 0 MAX_LINE (busy_text console w);
  do b1 <- put (fst r) (MAX_LINE - 2) LF;
  put b1 (MAX_LINE - 1) NUL.
(** server-sock.c:674-700: the writers of one console; a failing write ends only this loop *)
Fixpoint list_writers (ws : list io_ev) (out buf console : list Z) (l : list who) : res (list Z * list Z * list io_ev) :=
  match l with
  | [] => Ok (out, buf, ws)
  | p :: l =>
      do b <- busy_buf buf console p;
      do w <- write_str ws out b;
      let '(out1, ok, ws1) := w in
      if ok then list_writers ws1 out1 b console l else Ok (out1, b, ws1)
  end.
(** 672-702 *)
Fixpoint list_busy (ws : list io_ev) (out buf : list Z) (l : list nat) : res (list Z) :=
  match l with
  | [] => Ok out
  | o :: l =>
      do r <- list_writers ws out buf (nm o) (writers o);
      let '(out1, buf1, ws1) := r in list_busy ws1 out1 buf1 l
  end.
(** server-sock.c:580-619: [None] if the request passes; else what has been written *)
Definition check_too_many_consoles (ws : list io_ev) (out jbuf : list Z) (q : req) (sel : list nat) : res (option (list Z)) :=
  let fails :=
    let n := fmt_d (Z.of_nat (length sel)) in
    let msg := zs "Found " ++ n ++ zs " matching consoles" in
    do r <- vsnprintf jbuf 0 ProtoModel.MAX_SOCK_LINE msg;                             (* 601 *)
    do m <- FileModel.cstr (fst r);
    do s <- send_rsp dbg ws out (q_reset q) (map nm sel) 6 (Some m);
    let '(out1, _, ws1) := s in
    do o <- list_names ws1 out1 (fst r) sel; Ok (Some o) in
  match q_cmd q with
  | CmdQuery => Ok None                                                              (* 594 *)
  | _ =>
      if (length sel =? 1)%nat then Ok None                                          (* 596 *)
      else match q_cmd q with
           | CmdConnect => if q_bcast q then Ok None else fails                      (* 598 *)
           | _ => fails
           end
  end.
(** server-sock.c:622-705 *)
Definition check_busy_consoles (ws : list io_ev) (out jbuf : list Z) (q : req) (sel : list nat) : res (option (list Z)) :=
  match q_cmd q with
  | CmdQuery | CmdMonitor => Ok None                                                 (* 640 *)
  | _ =>
      if q_force q || q_join q then Ok None                                          (* 643 *)
      else
        let busy := filter (fun o => match writers o with [] => false | _ => true end) sel in   (* 646-653 *)
        match busy with
        | [] => Ok None
        | _ =>
            let msg := if (length busy =? 1)%nat then zs "Found console already in use"
                       else zs "Found " ++ fmt_d (Z.of_nat (length busy)) ++ zs " consoles already in use" in
            do r <- vsnprintf jbuf 0 MAX_LINE msg;
            do m <- FileModel.cstr (fst r);
            do s <- send_rsp dbg ws out (q_reset q) (map nm sel) 7 (Some m);          (* 667 *)
            let '(out1, _, ws1) := s in
            do o <- list_busy ws1 out1 (fst r) busy; Ok (Some o)
        end
  end.
(** server-sock.c:562-577 *)
Definition validate_req (ws : list io_ev) (out jbuf1 jbuf2 : list Z) (q : req) (sel : list nat) : res (option (list Z)) :=
  match sel with
  | [] =>
      do s <- send_rsp dbg ws out (q_reset q) [] 5 (Some (zs "Found no matching consoles"));
      let '(out1, _, _) := s in Ok (Some out1)
  | _ =>
      do a <- check_too_many_consoles ws out jbuf1 q sel;
      match a with
      | Some o => Ok (Some o)
      | None => check_busy_consoles ws out jbuf2 q sel
      end
  end.
Definition set_bc (q : req) (b : bool) : req := mkReq (q_user q) (q_tty q) (q_cmd q) b (q_force q) (q_join q) (q_quiet q) (q_regex q) (q_reset q) (q_cons q).
Definition set_rst (q : req) (b : bool) : req := if b then set_reset q else q.

(** What the thread leaves: the bytes sent, the bytes not read, the connection, and the
    session it has started, with its request and consoles. *)
Record served := mkServed { v_out : list Z; v_rest : list Z; v_conn : conn; v_sess : option (req * list nat) }.
(** server-sock.c:121-151: from the request to the answer and to the session.  [closes]:
    close() succeeds; [out]: what has been sent; [rest]: what the client has sent that is not
    read; [jbuf1], [jbuf2]: the uninitialised buffers of the checks. *)
Definition answer_req (closes : bool) (ws : list io_ev) (out rest jbuf1 jbuf2 : list Z) (q2 : req) : res served :=
  let c := mkConn true true in
  let fail out := do c1 <- destroy_req closes c; Ok (mkServed out rest c1 None) in   (* 153-155 *)
  do s <- query_consoles sgn isc nm fnm regex (q_regex q2) (match q_cmd q2 with CmdQuery => true | _ => false end) (q_bcast q2) objs (q_cons q2);   (* 121 *)
  let '(sel, bc, ok) := s in
  let q3 := set_bc q2 bc in
  if negb ok then                                                                    (* 537-543 *)
    do w <- send_rsp dbg ws out (q_reset q3) [] 3 (Some (regerr (firstn (ProtoModel.MAX_SOCK_LINE - 1) (joined (match q_cons q2 with [] => [zs ".*"] | p => p end)))));
    let '(out2, _, _) := w in fail out2
  else
    do v <- validate_req ws out jbuf1 jbuf2 q3 sel;                                  (* 123 *)
    match v with
    | Some out2 => fail out2
    | None =>
        let q4 := set_rst q3 resets in                                               (* 130 *)
        match q_cmd q4 with                                                          (* 133-150 *)
        | CmdNone => fail out
        | _ =>
            do w <- send_rsp dbg ws out (q_reset q4) (map nm sel) 0 None;            (* 817, 838, 869 *)
            let '(out2, rv, _) := w in
            if rv <? 0 then fail out2
            else match q_cmd q4 with
                 | CmdQuery => do c1 <- destroy_req closes c; Ok (mkServed out2 rest c1 None)       (* 820 *)
                 | _ => Ok (mkServed out2 rest c (Some (q4, sel)))                   (* 841-850, 872-903 *)
                 end
        end
    end.
(** server-sock.c:89-156.  [peer]: getpeername() and inet_ntop() succeed (174-177);
    [allow]: the verdict of TCP wrappers (202-211); [rs], [ws]: how reads and writes end;
    [junk1], [junk2]: the uninitialised buffers of the receivers. *)
Definition process_client (peer allow closes : bool) (rs ws : list io_ev) (stream junk1 junk2 jbuf1 jbuf2 : list Z) : res served :=
  let c := mkConn true true in                                                       (* 113, 173 *)
  let fail out rest := do c1 <- destroy_req closes c; Ok (mkServed out rest c1 None) in   (* 153-155 *)
  if negb peer then UB Fatal                                                         (* 174-177 *)
  else if negb allow then fail [] stream
  else
    do g <- recv_greeting dbg iso rs stream junk1 ws [] create_req;                   (* 117 *)
    let '(q1, rv1, rs1, st1, (out1, ws1)) := g in
    if rv1 <? 0 then fail out1 st1
    else
      do r <- recv_req iso rs1 st1 junk2 q1;                                          (* 119 *)
      let '(q2, rv2, _, st2) := r in
      if rv2 <? 0 then fail out1 st2
      else answer_req closes ws1 out1 st2 jbuf1 jbuf2 q2.
End Serve.

(** ** Accepting *)
(** What accept() may give: a connection, or one of the errors. *)
Inductive acc := Conn | EIntr | EAgain | EAborted | EOther.
(** server.c:975-986; the results of successive calls; [None]: return without a client *)
Fixpoint accept_loop (l : list acc) : res (option (list acc)) :=
  match l with
  | [] => Ok None                                                     (* nothing more arrives *)
  | Conn :: l => Ok (Some l)
  | EIntr :: l => accept_loop l
  | EAgain :: _ | EAborted :: _ => Ok None
  | EOther :: _ => UB Fatal                                           (* 985 *)
  end.
(** server.c:956-1018.  [keepalive]: conf->enableKeepAlive; [opt]: setsockopt() succeeds;
    [thread]: pthread_create() succeeds.  True: a client was accepted. *)
Definition accept_client (keepalive opt thread : bool) (l : list acc) : res bool :=
  do a <- accept_loop l;
  match a with
  | None => Ok false
  | Some _ =>
      if keepalive && negb opt then UB Fatal                          (* 998-1003 *)
      else if thread then Ok true else UB Fatal                       (* 1013-1016 *)
  end.
(** The descriptors of the process: [used] of [limit].  Clients arrive (accept() gives EMFILE
    when all are used) and leave; the thread of each is always created. *)
Inductive visit := Arrive | Leave.
Fixpoint visits (limit used : nat) (l : list visit) : res nat :=
  match l with
  | [] => Ok used
  | Arrive :: l =>
      do a <- accept_client true true true [if (used <? limit)%nat then Conn else EOther];
      visits limit (if a then S used else used) l
  | Leave :: l => visits limit (used - 1) l
  end.
