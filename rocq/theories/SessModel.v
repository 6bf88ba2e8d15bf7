(** Model of the sessions between clients and consoles: the link graph, the
    escape commands, connection set-up by the client threads and the servicing of
    objects by the main loop (src/server-obj.c, src/server-esc.c,
    src/server-sock.c, src/server.c), on top of RingModel (buffers), EscModel and
    TelnetModel (in-band commands) and LogModel (log files).

    Objects live in a heap indexed by number; a freed object is [None], and any
    access to it is [UB UseAfterFree].

    Simplifications.  A client thread and the main loop interleave between the
    calls of link_objs, check_console_state etc., not inside them.  Message texts
    are an arbitrary function [e_txt].  Connecting to a device is an arbitrary
    outcome [reopen] supplied by the environment. *)
From Verif Require Import Base RingModel LogModel TelnetModel EscModel.
Set Implicit Arguments.

(** server.h:45-58, enum obj_type: the console types *)
Inductive ctype := TyProcess | TySerial | TyTelnet | TyUnixsock | TyIpmi | TyTest.

(** server.h, telnet_state_t / ipmi_state_t: connection state *)
Inductive cstate := StDown | StPending | StUp.

(** What a message is about; [e_txt] gives its bytes. *)
Inductive note :=
| NArrived (c k : nat) (stolen : bool)      (* server-obj.c:628 *)
| NWith (w k : nat) (stolen : bool)         (* server-obj.c:643 *)
| NDeparted (c k : nat)                     (* server-obj.c:710 *)
| NDown (k : nat)                           (* server-sock.c:919 etc. *)
| NQuiet (on : bool)                        (* server-esc.c:411 *)
| NNotLogged (k : nat)                      (* server-esc.c:298 *)
| NBegin (k : nat) | NEnd (k : nat).        (* server-esc.c:313, 382 *)

(** Constants and the outside world.  [e_wbuf] and [e_obuf] are the contents of
    uninitialised memory (work buffer of write_log_data, fresh object buffer);
    they are taken to be the same at every call, and never matter. *)
Record env := mkEnv {
  e_sz : nat;                        (* OBJ_BUF_SIZE *)
  e_rl : nat;                        (* LOG_REPLAY_LEN *)
  e_dbg : bool;                      (* asserts compiled in *)
  e_txt : note -> list Z;
  e_clock : nat -> nat -> list Z;    (* log object, how many-th stamp *)
  e_wbuf : list Z;
  e_obuf : list Z }.

(** common.h, struct request: the part the sessions look at *)
Inductive rcmd := CmdConnect | CmdMonitor | CmdQuery.
Record req := mkReq {
  r_cmd : rcmd;
  r_force : bool;
  r_join : bool;
  r_bcast : bool;
  r_quiet : bool }.

(** server.h:260-285, struct base_obj.  [s_ring] holds buffer, descriptor and
    flags; [s_esc]: aux.client.gotEscape; [s_req]: aux.client.req; [s_type],
    [s_state], [s_iac], [s_log]: console's aux; [s_lopt], [s_stamps]: log file's
    options and how many timestamps it has taken. *)
Record sobj := mkS {
  s_ring : obj;
  s_readers : list nat;
  s_writers : list nat;
  s_esc : bool;
  s_req : req;
  s_type : ctype;
  s_state : cstate;
  s_iac : Z;
  s_log : option nat;
  s_lopt : logopts;
  s_stamps : nat }.

Definition heap := nat -> option sobj.

(** server.h:361-369, is_client_obj, is_logfile_obj, is_console_obj *)
Definition client_b (o : sobj) : bool := match o_kind (s_ring o) with KClient _ _ => true | _ => false end.
Definition log_b (o : sobj) : bool := match o_kind (s_ring o) with KLogfile _ => true | _ => false end.
Definition console_b (o : sobj) : bool := match o_kind (s_ring o) with KConsole => true | _ => false end.
Definition telnet_b (o : sobj) : bool := match s_type o with TyTelnet => true | _ => false end && console_b o.
Definition state_up (o : sobj) : bool := match s_state o with StUp => true | _ => false end.

Definition set_ring (o : sobj) (r : obj) : sobj :=
  mkS r (s_readers o) (s_writers o) (s_esc o) (s_req o) (s_type o) (s_state o) (s_iac o)
      (s_log o) (s_lopt o) (s_stamps o).
Definition set_readers (o : sobj) (l : list nat) : sobj :=
  mkS (s_ring o) l (s_writers o) (s_esc o) (s_req o) (s_type o) (s_state o) (s_iac o)
      (s_log o) (s_lopt o) (s_stamps o).
Definition set_writers (o : sobj) (l : list nat) : sobj :=
  mkS (s_ring o) (s_readers o) l (s_esc o) (s_req o) (s_type o) (s_state o) (s_iac o)
      (s_log o) (s_lopt o) (s_stamps o).
Definition set_esc (o : sobj) (g : bool) : sobj :=
  mkS (s_ring o) (s_readers o) (s_writers o) g (s_req o) (s_type o) (s_state o) (s_iac o)
      (s_log o) (s_lopt o) (s_stamps o).
Definition set_req (o : sobj) (q : req) : sobj :=
  mkS (s_ring o) (s_readers o) (s_writers o) (s_esc o) q (s_type o) (s_state o) (s_iac o)
      (s_log o) (s_lopt o) (s_stamps o).
Definition set_state (o : sobj) (s : cstate) : sobj :=
  mkS (s_ring o) (s_readers o) (s_writers o) (s_esc o) (s_req o) (s_type o) s (s_iac o)
      (s_log o) (s_lopt o) (s_stamps o).
Definition set_iac (o : sobj) (i : Z) : sobj :=
  mkS (s_ring o) (s_readers o) (s_writers o) (s_esc o) (s_req o) (s_type o) (s_state o) i
      (s_log o) (s_lopt o) (s_stamps o).
Definition set_stamps (o : sobj) (k : nat) : sobj :=
  mkS (s_ring o) (s_readers o) (s_writers o) (s_esc o) (s_req o) (s_type o) (s_state o) (s_iac o)
      (s_log o) (s_lopt o) k.

Definition at_ (h : heap) (i : nat) : res sobj :=
  match h i with Some o => Ok o | None => UB UseAfterFree end.
Definition upd (h : heap) (i : nat) (o : option sobj) : heap :=
  fun j => if j =? i then o else h j.
Definition modify (h : heap) (i : nat) (f : sobj -> sobj) : res heap :=
  do o <- at_ h i; Ok (upd h i (Some (f o))).

(** list_find_first(l, find_obj, x), server-obj.c:496-512 *)
Definition mem (x : nat) (l : list nat) : bool := existsb (Nat.eqb x) l.
(** list_delete_all(l, find_obj, x) *)
Definition del (x : nat) (l : list nat) : list nat := filter (fun y => negb (y =? x)) l.

(** gotEOF = 1, server-obj.c:727, 732 (poll flags untouched) *)
Definition set_eof (r : obj) : obj :=
  mkObj (o_buf r) (o_in r) (o_out r) (o_wrap r) true (o_open r) (o_pollin r) (o_pollout r) (o_kind r).

Fixpoint foldr_res {A} (f : heap -> A -> res heap) (h : heap) (l : list A) : res heap :=
  match l with
  | [] => Ok h
  | a :: l' => do h1 <- f h a; foldr_res f h1 l'
  end.

Section Sess.
Variable E : env.
Let SZ := e_sz E.
Let dbg := e_dbg E.

(** write_obj_data(obj, src, len, isInfo) *)
Definition put_data (h : heap) (i : nat) (d : list Z) (info : bool) : res heap :=
  do o <- at_ h i;
  do r <- write_obj_data SZ (s_ring o) d info;
  Ok (upd h i (Some (set_ring o (snd r)))).

(** write_log_data(log, src, len) *)
Definition put_log (h : heap) (i : nat) (d : list Z) : res heap :=
  do o <- at_ h i;
  do r <- write_log_data SZ dbg (e_clock E i) (s_lopt o) (e_wbuf E) (s_ring o) (s_stamps o) d;
  let '(_, ring', k) := r in
  Ok (upd h i (Some (set_stamps (set_ring o ring') k))).

(** server-obj.c:575-602, notify_console_objs; write_notify_msg (515-572) ends
    in it. *)
Definition notify (h : heap) (k : nat) (msg : list Z) : res heap :=
  do c <- at_ h k;
  do _ <- assert_ (console_b c);                               (* 583 *)
  match msg with
  | [] => Ok h                                                 (* 585 *)
  | _ =>
      do h1 <- foldr_res (fun h i => put_data h i msg true) h (s_readers c);
      foldr_res (fun h i => if mem i (s_readers c) then Ok h else put_data h i msg true)
                h1 (s_writers c)
  end.

(** server-obj.c:759-794, validate_obj_links (debug builds only) *)
Fixpoint links_ok (h : heap) (f : sobj -> list nat) (x : nat) (l : list nat) : res bool :=
  match l with
  | [] => Ok true
  | i :: l' => do o <- at_ h i; do b <- links_ok h f x l'; Ok (mem x (f o) && b)
  end.
Definition validate_obj_links (h : heap) (x : nat) : res bool :=
  do o <- at_ h x;
  do a <- links_ok h s_writers x (s_readers o);
  do b <- links_ok h s_readers x (s_writers o);
  Ok (a && b).
Definition validate (h : heap) (x : nat) : res unit :=
  if dbg then do b <- validate_obj_links h x; assert_ b else Ok tt.

Definition no_links (o : sobj) : bool :=
  match s_readers o, s_writers o with [], [] => true | _, _ => false end.

(** server-obj.c:683-740, unlink_objs *)
Definition unlink_objs (h : heap) (src dst : nat) : res heap :=
  do h1 <- modify h src (fun o => set_readers o (del dst (s_readers o)));   (* 693 *)
  do d0 <- at_ h1 dst;
  do h2 <- modify h1 dst (fun o => set_writers o (del src (s_writers o)));  (* 697 *)
  do s1 <- at_ h2 src;
  do h3 <- (if mem src (s_writers d0) && client_b s1 && console_b d0        (* 703 *)
            then notify h2 dst (e_txt E (NDeparted src dst)) else Ok h2);
  do s2 <- at_ h3 src;
  do d2 <- at_ h3 dst;
  do h4 <- (if client_b s2 && no_links s2 then                              (* 724 *)
              do _ <- assert_ (console_b d2);
              modify h3 src (fun o => set_ring o (set_eof (s_ring o)))
            else if client_b d2 && no_links d2 then                         (* 729 *)
              do _ <- assert_ (console_b s2);
              modify h3 dst (fun o => set_ring o (set_eof (s_ring o)))
            else Ok h3);
  do _ <- validate h4 src;                                                  (* 737 *)
  do _ <- validate h4 dst;
  Ok h4.

(** server-obj.c:743-756, unlink_obj: the two loops.  The budget is the length
    of the list: every turn removes at least its first element. *)
Fixpoint unlink_writers (n : nat) (h : heap) (x : nat) : res heap :=
  do o <- at_ h x;
  match s_writers o with
  | [] => Ok h
  | w :: _ => match n with
              | O => UB OutOfFuel
              | S n' => do h1 <- unlink_objs h w x; unlink_writers n' h1 x
              end
  end.
Fixpoint unlink_readers (n : nat) (h : heap) (x : nat) : res heap :=
  do o <- at_ h x;
  match s_readers o with
  | [] => Ok h
  | r :: _ => match n with
              | O => UB OutOfFuel
              | S n' => do h1 <- unlink_objs h x r; unlink_readers n' h1 x
              end
  end.
Definition unlink_obj (h : heap) (x : nat) : res heap :=
  do o <- at_ h x;
  do h1 <- unlink_writers (length (s_writers o)) h x;
  do o1 <- at_ h1 x;
  unlink_readers (length (s_readers o1)) h1 x.

(** server-obj.c:605-680, link_objs.  The loops over dst->writers: the list
    iterator visits every element that is still in the list when it is reached
    (ListModel).  Following the request pointer of a writer that is not a client
    would be a wild access. *)
Definition link_objs (h : heap) (src dst : nat) : res heap :=
  do s0 <- at_ h src;
  do d0 <- at_ h dst;
  do h3 <- (if client_b s0 && console_b d0 then                             (* 617 *)
              let ws := s_writers d0 in
              let stolen := r_force (s_req s0) && negb (length ws =? 0) in  (* 620 *)
              do h1 <- notify h dst (e_txt E (NArrived src dst stolen));    (* 635 *)
              do h2 <- foldr_res (fun h w =>                                (* 639 *)
                         do x <- at_ h w;
                         if client_b x then put_data h src (e_txt E (NWith w dst stolen)) true
                         else UB NullDeref) h1 ws;
              if stolen then                                                (* 657 *)
                foldr_res (fun h w =>
                  do d <- at_ h dst;
                  if mem w (s_writers d) then unlink_obj h w else Ok h) h2 ws
              else Ok h2
            else Ok h);
  do s1 <- at_ h3 src;
  do _ <- assert_if dbg (negb (mem dst (s_readers s1)));                    (* 671 *)
  do h4 <- modify h3 src (fun o => set_readers o (s_readers o ++ [dst]));
  do d1 <- at_ h4 dst;
  do _ <- assert_if dbg (negb (mem src (s_writers d1)));                    (* 673 *)
  do h5 <- modify h4 dst (fun o => set_writers o (s_writers o ++ [src]));
  do _ <- validate h5 src;                                                  (* 677 *)
  do _ <- validate h5 dst;
  Ok h5.

(** One attempt of open_*_obj for a console: whether an old descriptor is closed
    first, whether a new one is obtained, the new state, the notifications sent
    and the bytes put into the console's own buffer (telnet options).
    server-process.c:215-386, server-serial.c:375-456, server-telnet.c:154-294,
    server-unixsock.c:162-317, server-ipmi.c:786-1034, server-test.c:228-274. *)
Record reopen := mkReopen {
  ro_close : bool;
  ro_open : bool;
  ro_state : cstate;
  ro_msgs : list (list Z);
  ro_own : list (list Z) }.

Definition open_console (h : heap) (k : nat) (ro : reopen) : res heap :=
  do o <- at_ h k;
  do _ <- assert_ (console_b o);
  let r1 := if ro_close ro then close_fd (s_ring o) else s_ring o in
  let r2 := if ro_open ro then open_fd r1 else r1 in
  let h1 := upd h k (Some (set_state (set_ring o r2) (ro_state ro))) in
  do h2 <- foldr_res (fun h m => notify h k m) h1 (ro_msgs ro);
  foldr_res (fun h d => put_data h k d false) h2 (ro_own ro).

(** server-obj.c:798-869, shutdown_obj; [true] is the result -1 *)
Definition shutdown_obj (h : heap) (i : nat) (ro : reopen) : res (heap * bool) :=
  do o <- at_ h i;
  if negb (o_open (s_ring o)) then Ok (h, false)                            (* 812 *)
  else
    let h1 := upd h i (Some (set_ring o (shutdown_buf (s_ring o)))) in
    if client_b o then do h2 <- unlink_obj h1 i; Ok (h2, true)              (* 849 *)
    else if log_b o then Ok (h1, false)                                     (* 856 *)
    else do h2 <- open_console h1 i ro; Ok (h2, false).                     (* 862 *)

(** ** Escape commands *)

(** server-esc.c:224-259, perform_console_writer_linkage.  list_peek of an empty
    list is NULL, which unlink_objs or link_objs dereferences. *)
Definition writer_linkage (h : heap) (c : nat) : res heap :=
  do o <- at_ h c;
  if r_bcast (s_req o) then Ok h                                            (* 235 *)
  else
    do _ <- assert_if dbg (length (s_readers o) <=? 1);                     (* 237 *)
    do _ <- assert_if dbg (length (s_writers o) =? 1);                      (* 241 *)
    match s_writers o with
    | [] => UB NullDeref                                                    (* 242 *)
    | k :: _ =>
        if negb (length (s_readers o) =? 0)
        then unlink_objs h c k                                              (* 252 *)
        else link_objs h c k                                                (* 256 *)
    end.

(** server-esc.c:90-91, 95-96, 103-104 *)
Definition set_fj (h : heap) (c : nat) (f j : bool) : res heap :=
  modify h c (fun o => set_req o (mkReq (r_cmd (s_req o)) f j (r_bcast (s_req o)) (r_quiet (s_req o)))).

(** server-logfile.c:314-353, get_console_logfile_obj *)
Definition console_logfile (h : heap) (o : sobj) : res (option nat) :=
  match s_log o with
  | None => Ok None
  | Some l => do lo <- at_ h l; Ok (if o_open (s_ring lo) then Some l else None)
  end.

(** server-esc.c:262-391, perform_log_replay *)
Definition log_replay (h : heap) (c : nat) : res heap :=
  do o <- at_ h c;
  match s_writers o with
  | [] => Ok h                                                              (* 286 *)
  | k :: _ =>
      do _ <- assert_if dbg (length (s_writers o) =? 1);                    (* 291 *)
      do co <- at_ h k;
      do lf <- console_logfile h co;
      match lf with
      | None =>                                                             (* 296 *)
          if SZ - 1 <=? length (e_txt E (NNotLogged k)) then Ok h
          else put_data h c (e_txt E (NNotLogged k)) false
      | Some l =>
          do lo <- at_ h l;
          do m <- replay_message SZ (e_rl E) dbg (s_ring lo) (e_txt E (NBegin k)) (e_txt E (NEnd k));
          match m with None => Ok h | Some d => put_data h c d false end    (* 389 *)
      end
  end.

(** server-esc.c:136-195, the body of perform_serial_break's loop.  tcsendbreak
    and the IPMI break go to the device, not through the buffer. *)
Definition break_one (h : heap) (k : nat) : res heap :=
  do o <- at_ h k;
  match s_type o with
  | TyProcess => put_data h k [38; 66]%Z false
  | TyTelnet => put_data h k (break_to_telnet (o_open (s_ring o) && state_up o)) false
  | _ => Ok h
  end.

(** server-esc.c:76-128: one escape command of client [c].  [rst k] are the
    notifications perform_reset (424-517) sends about console [k]. *)
Definition exec_cmd (rst : nat -> list (list Z)) (h : heap) (c : nat) (x : scmd) : res heap :=
  match x with
  | SBreak => do o <- at_ h c; foldr_res break_one h (s_readers o)
  | SDel => do o <- at_ h c; foldr_res (fun h k => put_data h k [127]%Z false) h (s_readers o)
  | SForce => do h1 <- set_fj h c true false; writer_linkage h1 c
  | SJoin => do h1 <- set_fj h c false true; writer_linkage h1 c
  | SMonitor => do h1 <- set_fj h c false false; writer_linkage h1 c
  | SReplay => log_replay h c
  | SQuiet =>
      do o <- at_ h c;
      do r <- toggle_quiet (s_ring o);
      put_data (upd h c (Some (set_ring o r))) c (e_txt E (NQuiet (is_quiet r))) false
  | SReset =>
      do o <- at_ h c;
      foldr_res (fun h k => foldr_res (fun h m => notify h k m) h (rst k)) h (s_readers o)
  | SSuspend =>
      do o <- at_ h c;
      do r <- toggle_suspend (s_ring o);
      Ok (upd h c (Some (set_ring o r)))
  end.

(** ** The main loop *)

(** Result of read(2) after EINTR retries: nothing yet, an error, end of file,
    or data. *)
Inductive rdev := RdAgain | RdErr | RdEof | RdData (d : list Z).

(** server-obj.c:944-954: data goes to every reader *)
Definition deliver (h : heap) (i : nat) (d : list Z) : res heap :=
  match d with
  | [] => Ok h                                                              (* 943 *)
  | _ =>
      do o <- at_ h i;
      foldr_res (fun h r =>
        do x <- at_ h r;
        if log_b x then put_log h r d else put_data h r d false) h (s_readers o)
  end.

(** server-obj.c:872-958, read_from_obj; [true] is the result -1 *)
Definition read_from_obj (rst : nat -> list (list Z)) (h : heap) (i : nat) (ev : rdev) (ro : reopen)
  : res (heap * bool) :=
  do o <- at_ h i;
  if negb (o_open (s_ring o)) then Ok (h, false)                            (* 893 *)
  else if telnet_b o && negb (state_up o) then Ok (h, false)                (* 901 *)
  else match ev with
  | RdAgain => Ok (h, false)
  | RdErr => shutdown_obj h i ro                                            (* 914 *)
  | RdEof =>                                                                (* 921 *)
      let h1 := upd h i (Some (set_ring o (mark_eof (s_ring o)))) in
      if o_in (s_ring o) =? o_out (s_ring o) then shutdown_obj h1 i ro else Ok (h1, false)
  | RdData d =>
      if client_b o then                                                    (* 935 *)
        do r <- process_client_escapes (s_esc o) d;
        let '(d', g, cs) := r in
        do h1 <- modify h i (fun o => set_esc o g);
        do h2 <- foldr_res (fun h x => exec_cmd rst h i x) h1 cs;
        do h3 <- deliver h2 i d';
        Ok (h3, false)
      else if telnet_b o then                                               (* 938 *)
        do r <- process_telnet_escapes (s_iac o) d;
        let '(d', iac, replies) := r in
        do h1 <- modify h i (fun o => set_iac o iac);
        do h2 <- foldr_res (fun h m => put_data h i m false) h1 replies;
        do h3 <- deliver h2 i d';
        Ok (h3, false)
      else do h1 <- deliver h i d; Ok (h1, false)
  end.

(** server-obj.c:1078-1182, write_to_obj: heap, bytes sent, result -1.  A
    readable or writable telnet descriptor in state PENDING completes the connect
    (1096-1100). *)
Definition flush_obj (h : heap) (i : nat) (rs : list wres) (ro : reopen) : res (heap * list Z * bool) :=
  do o <- at_ h i;
  if negb (o_open (s_ring o)) then Ok (h, [], false)                        (* 1090 *)
  else if telnet_b o && match s_state o with StPending => true | _ => false end
  then do h1 <- open_console h i ro; Ok (h1, [], false)
  else
    do r <- write_to_obj SZ (s_ring o) rs;
    let '(sent, dead, ring') := r in
    let h1 := upd h i (Some (set_ring o ring')) in
    if dead then do x <- shutdown_obj h1 i ro; Ok (fst x, sent, snd x)
    else Ok (h1, sent, false).

(** ** Connection set-up *)

(** What the client thread does for the client object [c] it has created. *)
Inductive tstep :=
| ToConsole (k : nat)      (* link_objs(client, console) *)
| FromConsole (k : nat)    (* link_objs(console, client) *)
| CheckState (k : nat).    (* check_console_state(console, client) *)

(** server-sock.c:844-845, 880-882, 891-896 *)
Definition program (cmd : rcmd) (sel : list nat) : list tstep :=
  match cmd, sel with
  | CmdMonitor, k :: _ => [FromConsole k; CheckState k]
  | CmdConnect, [k] => [ToConsole k; FromConsole k; CheckState k]
  | CmdConnect, ks => flat_map (fun k => [ToConsole k; CheckState k]) ks
  | _, _ => []
  end.

(** A client thread: about to look at its request ([m i]: console [i] matches
    one of its patterns); its request was found valid for consoles [sel]; setting
    up client [c]; finished, with an error code of common.h:163-172. *)
Inductive thr :=
| TStart (q : req) (m : nat -> bool)
| TGranted (q : req) (sel : list nat)
| TRun (c : nat) (todo : list tstep)
| TEnd (code : nat).

Definition ERR_NONE := 0.
Definition ERR_LOCAL := 1.
Definition ERR_NO_CONSOLES := 5.
Definition ERR_TOO_MANY := 6.
Definition ERR_BUSY := 7.

Record world := mkW {
  w_heap : heap;
  w_next : nat;              (* first unused number *)
  w_objs : list nat;         (* conf->objs *)
  w_thr : list thr }.

(** server-sock.c:418-559, query_consoles: the consoles among conf->objs that
    match.  (The sorting by name is left out.) *)
Fixpoint query (h : heap) (m : nat -> bool) (l : list nat) : res (list nat) :=
  match l with
  | [] => Ok []
  | i :: l' =>
      do o <- at_ h i;
      do r <- query h m l';
      Ok (if console_b o && m i then i :: r else r)
  end.

(** server-sock.c:648-653: is one of the consoles busy?  For each writer of a
    busy console the reply names its user (675-690). *)
Fixpoint check_writers (h : heap) (l : list nat) : res unit :=
  match l with
  | [] => Ok tt
  | w :: l' => do o <- at_ h w; if client_b o then check_writers h l' else UB NullDeref
  end.
Fixpoint any_busy (h : heap) (l : list nat) : res bool :=
  match l with
  | [] => Ok false
  | k :: l' =>
      do o <- at_ h k;
      do _ <- check_writers h (s_writers o);
      do b <- any_busy h l';
      Ok (negb (length (s_writers o) =? 0) || b)
  end.

(** server-sock.c:121-124, 133-150, 453-454, 562-705: selection and validation of a
    request: an error code, or the request and its consoles.  A query is answered
    at once and ends the thread. *)
Definition admit (h : heap) (objs : list nat) (q0 : req) (m : nat -> bool)
  : res (nat + req * list nat) :=
  do sel <- query h m objs;
  let q := if length sel =? 1                                               (* 453 *)
           then mkReq (r_cmd q0) (r_force q0) (r_join q0) false (r_quiet q0) else q0 in
  if length sel =? 0 then Ok (inl ERR_NO_CONSOLES)                          (* 567 *)
  else match r_cmd q with
  | CmdQuery => Ok (inl ERR_NONE)
  | CmdMonitor =>
      if length sel =? 1 then Ok (inr (q, sel)) else Ok (inl ERR_TOO_MANY)  (* 596 *)
  | CmdConnect =>
      if (length sel =? 1) || r_bcast q then                                (* 598 *)
        if r_force q || r_join q then Ok (inr (q, sel))                     (* 643 *)
        else do b <- any_busy h sel;
             Ok (if b then inl ERR_BUSY else inr (q, sel))                  (* 667 *)
      else Ok (inl ERR_TOO_MANY)
  end.

(** server-obj.c:102-138, create_client_obj *)
Definition new_client (q : req) : sobj :=
  mkS (create (KClient (r_quiet q) false) (e_obuf E)) [] [] false q TyTest StDown (-1)%Z None
      (mkLopts false false) 0.

(** server-sock.c:907-979, check_console_state *)
Definition check_console_state (h : heap) (k c : nat) (ro : reopen) : res heap :=
  do o <- at_ h k;
  let down := negb (o_open (s_ring o)) in
  let tell (h : heap) := put_data h c (e_txt E (NDown k)) true in
  match s_type o with
  | TyProcess | TySerial | TyUnixsock =>
      if down then do h1 <- tell h; open_console h1 k ro else Ok h
  | TyTelnet | TyIpmi =>
      match s_state o with
      | StUp => Ok h
      | StDown => do h1 <- tell h; open_console h1 k ro
      | StPending => tell h
      end
  | TyTest => Ok h
  end.

Definition do_tstep (h : heap) (c : nat) (x : tstep) (ro : reopen) : res heap :=
  match x with
  | ToConsole k => link_objs h c k
  | FromConsole k => link_objs h k c
  | CheckState k => check_console_state h k c ro
  end.

Definition set_thr (w : world) (t : nat) (x : thr) : world :=
  mkW (w_heap w) (w_next w) (w_objs w) (firstn t (w_thr w) ++ x :: skipn (S t) (w_thr w)).
Definition set_heap (w : world) (h : heap) : world :=
  mkW h (w_next w) (w_objs w) (w_thr w).

(** What happens next in the daemon. *)
Inductive event :=
| EvAccept (q : req) (m : nat -> bool)          (* a connection: a new thread *)
| EvThread (t : nat) (sent : bool) (ro : reopen)(* thread [t] takes its next step;
                                                   [sent]: send_rsp succeeded *)
| EvMux (i : nat) (rd : option rdev) (wr : option (list wres)) (ro : reopen)
        (rst : nat -> list (list Z))            (* the main loop reaches object [i] *)
| EvConsole (k : nat) (ro : reopen)             (* reconnect timer, file event ... *)
| EvLogMsg (l : nat) (m : list Z)               (* periodic timestamp *)
| EvLogOpen (l : nat) (ok : bool) (m : list Z). (* log file (re)opened *)

(** server.c:813-820: list_delete removes the object and destroys it *)
Definition destroy (w : world) (i : nat) : world :=
  mkW (upd (w_heap w) i None) (w_next w) (del i (w_objs w)) (w_thr w).

(** One event: new world and, for the main loop, the bytes sent to object [i].
    Events naming objects that the daemon would not reach do nothing. *)
Definition step (w : world) (e : event) : res (world * list Z) :=
  let h := w_heap w in
  match e with
  | EvAccept q m => Ok (mkW h (w_next w) (w_objs w) (w_thr w ++ [TStart q m]), [])
  | EvThread t sent ro =>
      match nth_error (w_thr w) t with
      | None | Some (TEnd _) => Ok (w, [])
      | Some (TStart q m) =>
          do r <- admit h (w_objs w) q m;
          Ok (set_thr w t (match r with inl e => TEnd e | inr (q', sel) => TGranted q' sel end), [])
      | Some (TGranted q sel) =>
          if negb sent then Ok (set_thr w t (TEnd ERR_LOCAL), [])           (* 838, 869 *)
          else
            let c := w_next w in
            let w1 := mkW (upd h c (Some (new_client q))) (S c) (w_objs w ++ [c]) (w_thr w) in
            Ok (set_thr w1 t (TRun c (program (r_cmd q) sel)), [])
      | Some (TRun c []) => Ok (set_thr w t (TEnd ERR_NONE), [])
      | Some (TRun c (x :: todo)) =>
          do h1 <- do_tstep h c x ro;
          Ok (set_thr (set_heap w h1) t (TRun c todo), [])
      end
  | EvMux i rd wr ro rst =>
      if negb (mem i (w_objs w)) then Ok (w, [])
      else
        do r1 <- (match rd with
                  | None => Ok (h, false)
                  | Some ev => read_from_obj rst h i ev ro
                  end);
        if snd r1 then Ok (destroy (set_heap w (fst r1)) i, [])
        else match wr with
             | None => Ok (set_heap w (fst r1), [])
             | Some rs =>
                 do r2 <- flush_obj (fst r1) i rs ro;
                 let '(h2, sent, dead) := r2 in
                 Ok (if dead then destroy (set_heap w h2) i else set_heap w h2, sent)
             end
  | EvConsole k ro =>
      if negb (mem k (w_objs w)) then Ok (w, [])
      else
        do o <- at_ h k;
        if console_b o
        then do h1 <- open_console h k ro; Ok (set_heap w h1, []) else Ok (w, [])
  | EvLogMsg l m =>
      if negb (mem l (w_objs w)) then Ok (w, [])
      else
        do o <- at_ h l;
        if log_b o
        then do h1 <- put_data h l m true; Ok (set_heap w h1, []) else Ok (w, [])
  | EvLogOpen l ok m =>
      if negb (mem l (w_objs w)) then Ok (w, [])
      else
      do o <- at_ h l;
      if log_b o
      then
        let r := close_fd (s_ring o) in
        if ok then
          do h1 <- put_data (upd h l (Some (set_ring o (open_fd r)))) l m false;
          do h2 <- modify h1 l (fun o => set_ring o (set_line LineInit (s_ring o)));
          Ok (set_heap w h2, [])
        else Ok (set_heap w (upd h l (Some (set_ring o r))), [])
      else Ok (w, [])
  end.

Fixpoint run (w : world) (es : list event) : res world :=
  match es with
  | [] => Ok w
  | e :: es' => do r <- step w e; run (fst r) es'
  end.

(** ** Start-up *)

(** A configured console: its type and its log options, if logged. *)
Definition console_conf := (ctype * option logopts)%type.

(** create_*_obj with fd = -1 (server-obj.c:65-99): all consoles and log files
    start closed. *)
Definition new_console (t : ctype) (log : option nat) : sobj :=
  mkS (close_fd (create KConsole (e_obuf E))) [] [] false (mkReq CmdQuery false false false false)
      t StDown (-1)%Z log (mkLopts false false) 0.
Definition new_log (p : logopts) : sobj :=
  mkS (close_fd (create (KLogfile LineInit) (e_obuf E))) [] [] false (mkReq CmdQuery false false false false)
      TyTest StDown (-1)%Z None p 0.

(** server-conf.c:766-956, process_console: create the console and its log file,
    and link them (945). *)
Definition add_console (w : world) (c : console_conf) : res world :=
  let '(t, lg) := c in
  let k := w_next w in
  match lg with
  | None => Ok (mkW (upd (w_heap w) k (Some (new_console t None))) (S k) (w_objs w ++ [k]) (w_thr w))
  | Some p =>
      let l := S k in
      do h1 <- link_objs (upd (upd (w_heap w) k (Some (new_console t (Some l)))) l (Some (new_log p))) k l;
      Ok (mkW h1 (S l) (w_objs w ++ [k; l]) (w_thr w))
  end.

Fixpoint boot_from (w : world) (cs : list console_conf) : res world :=
  match cs with
  | [] => Ok w
  | c :: cs' => do w1 <- add_console w c; boot_from w1 cs'
  end.
Definition boot (cs : list console_conf) : res world :=
  boot_from (mkW (fun _ => None) 0 [] []) cs.
End Sess.
