(** Model of an object's circular output buffer (src/server-obj.c) and of the
    log replay that reads it (src/server-esc.c).

    Pointers into [buf] are offsets.  OBJ_BUF_SIZE (server.h: 16384) is the
    parameter [SZ]; LOG_REPLAY_LEN (server.h: 4096) is [RL]. *)
From Verif Require Import Base.
Set Implicit Arguments.

(** server.h:112-117, log_line_state_t *)
Inductive linestate := LineInit | LineData | LineCR | LineLF.

(** server.h:96-128 and 260-285: the part of [aux] the buffer code looks at.
    For a client: req->enableQuiet and gotSuspend.  For a log file: lineState.
    All console types behave alike here. *)
Inductive kind :=
| KClient (quiet suspend : bool)
| KLogfile (ls : linestate)
| KConsole.

(** server.h:260-275, struct base_obj: buf, bufInPtr, bufOutPtr, gotBufWrap,
    gotEOF, and whether fd >= 0; plus, for that fd, whether tpoll is asked for
    POLLIN and POLLOUT. *)
Record obj := mkObj {
  o_buf : list Z;
  o_in : nat;
  o_out : nat;
  o_wrap : bool;
  o_eof : bool;
  o_open : bool;
  o_pollin : bool;
  o_pollout : bool;
  o_kind : kind }.

Definition is_client (o : obj) : bool :=
  match o_kind o with KClient _ _ => true | _ => false end.
Definition is_suspended (o : obj) : bool :=
  match o_kind o with KClient _ s => s | _ => false end.
Definition is_quiet (o : obj) : bool :=
  match o_kind o with KClient q _ => q | _ => false end.

Section Ring.
Variable SZ : nat.   (* OBJ_BUF_SIZE *)
Variable RL : nat.   (* LOG_REPLAY_LEN *)

(** server-obj.c:65-99, create_obj: bufInPtr = bufOutPtr = buf, flags cleared.
    The initial contents of buf are whatever malloc returned: [junk]. *)
Definition create (k : kind) (junk : list Z) : obj :=
  mkObj junk 0 0 false false true true false k.

(** server-obj.c:1004-1007, 1061-1064, 1105-1108, 1174-1177: the four asserts *)
Definition ptrs_valid (o : obj) : bool := (o_in o <? SZ) && (o_out o <? SZ).

(** server-obj.c:1185-1203, num_bytes_buffered *)
Definition num_bytes_buffered (o : obj) : nat :=
  if o_out o <=? o_in o then o_in o - o_out o
  else (SZ - o_out o) + o_in o.

(** tpoll_set(tp, obj->fd, POLLOUT): fails with EINVAL for fd < 0
    (tpoll.c:390-393), result ignored by the caller. *)
Definition set_pollout (o : obj) : obj :=
  mkObj (o_buf o) (o_in o) (o_out o) (o_wrap o) (o_eof o) (o_open o)
        (o_pollin o) (if o_open o then true else o_pollout o) (o_kind o).

(** server-obj.c:961-1075, write_obj_data.  A NULL [src] or [len <= 0] is the
    empty [src].  Returns the number of bytes written and the new object. *)
Definition write_obj_data (o : obj) (src0 : list Z) (isInfo : bool)
  : res (nat * obj) :=
  match src0 with
  | [] => Ok (0, o)                                            (* 976 *)
  | _ =>
  if o_eof o then Ok (0, o)                                    (* 982 *)
  else
    let len := if SZ <=? length src0 then SZ - 1 else length src0 in (* 990 *)
    if isInfo && is_client o && is_quiet o then Ok (0, o)      (* 998 *)
    else
      do _ <- assert_ (ptrs_valid o);
      let avail := SZ - 1 - num_bytes_buffered o in            (* 1017 *)
      let m := Nat.min len (SZ - o_in o) in                    (* 1021 *)
      (* 1022-1034: first chunk *)
      do chunk1 <- slice src0 0 m;
      do buf1 <- blit (o_buf o) (o_in o) chunk1;
      let in1 := o_in o + m in
      let wraps := (0 <? m) && (in1 =? SZ) in
      let in1' := if wraps then 0 else in1 in
      (* 1037-1040: second chunk *)
      let n := len - m in
      do r <- (if 0 <? n then
                 do chunk2 <- slice src0 m n;
                 do buf2 <- blit buf1 in1' chunk2;
                 Ok (buf2, in1' + n)
               else Ok (buf1, in1'));
      let '(buf2, in2) := r in
      (* 1043-1052: data was overwritten *)
      let out' := if avail <? len then
                    (if in2 + 1 =? SZ then 0 else in2 + 1)
                  else o_out o in
      let o1 := mkObj buf2 in2 out' (o_wrap o || wraps) (o_eof o) (o_open o)
                      (o_pollin o) (o_pollout o) (o_kind o) in
      (* 1056-1058 *)
      let o2 := if negb (is_suspended o) then set_pollout o1 else o1 in
      do _ <- assert_ (ptrs_valid o2);
      (* 1071-1073 *)
      let k := match o_kind o2 with
               | KLogfile _ => if isInfo then KLogfile LineInit else o_kind o2
               | _ => o_kind o2
               end in
      Ok (len, mkObj (o_buf o2) (o_in o2) (o_out o2) (o_wrap o2) (o_eof o2)
                     (o_open o2) (o_pollin o2) (o_pollout o2) k)
  end.

(** Result of one writev(2) call: EINTR, EAGAIN/EWOULDBLOCK, another error, or
    the kernel accepting up to [k] of the offered bytes. *)
Inductive wres := WIntr | WAgain | WErr | WAccept (k : nat).

(** server-obj.c:1134-1149: the "goto again" loop, fed by a finite list of
    kernel results.  An exhausted list means the call is still blocked in the
    retry loop and is treated as "would block". *)
Fixpoint after_intr (rs : list wres) : wres :=
  match rs with
  | [] => WAgain
  | WIntr :: rs' => after_intr rs'
  | r :: _ => r
  end.

(** Bytes offered to writev, server-obj.c:1112-1131, read from memory. *)
Definition iov (o : obj) : res (list Z) :=
  if o_in o <? o_out o then
    do a <- slice (o_buf o) (o_out o) (SZ - o_out o);
    do b <- slice (o_buf o) 0 (o_in o);
    Ok (a ++ b)
  else slice (o_buf o) (o_out o) (o_in o - o_out o).

(** server-obj.c:1078-1182, write_to_obj, without the telnet connect case
    (lines 1096-1100) and without shutdown_obj.  Returns the bytes handed to
    the kernel, whether the object must be shut down, and the object. *)
Definition write_to_obj (o : obj) (rs : list wres) : res (list Z * bool * obj) :=
  if negb (o_open o) then Ok ([], false, o)                    (* 1090 *)
  else
    do _ <- assert_ (ptrs_valid o);
    do data <- iov o;
    let '(sent, out', dead1) :=
      if o_in o =? o_out o then ([], o_out o, false)           (* iovcnt = 0 *)
      else match after_intr rs with
           | WErr => ([], o_out o, true)
           | WAccept k =>
               let n := Nat.min k (length data) in
               let p := o_out o + n in
               (firstn n data, (if SZ <=? p then p - SZ else p), false)
           | _ => ([], o_out o, false)
           end in
    let drained := o_in o =? out' in                           (* 1160 *)
    let o1 := mkObj (o_buf o) (o_in o) out' (o_wrap o) (o_eof o) (o_open o)
                    (o_pollin o) (if drained then false else o_pollout o)
                    (o_kind o) in
    do _ <- assert_ (ptrs_valid o1);
    Ok (sent, dead1 || (drained && o_eof o), o1).

(** server-obj.c:817-844, the part of shutdown_obj that concerns the buffer:
    tpoll_clear, close, fd = -1, pointers reset, gotEOF cleared.
    gotBufWrap is NOT cleared, and buf keeps its contents. *)
Definition shutdown_buf (o : obj) : obj :=
  if negb (o_open o) then o
  else mkObj (o_buf o) 0 0 (o_wrap o) false false false false (o_kind o).

(** server-esc.c:334-376: the bytes the replay copies out of the log file's
    buffer when [len] bytes are left in its work buffer.  [dbg]: compiled with
    asserts. *)
Definition replay_bytes (dbg : bool) (o : obj) (len : nat) : res (list Z) :=
  let n0 := if negb (o_wrap o) then o_in o else SZ - 1 in      (* 342-347 *)
  let n := Nat.min (Nat.min n0 RL) len in                      (* 351-356 *)
  if n <=? o_in o then                                         (* 358-363 *)
    do _ <- assert_if dbg (0 <? n);
    slice (o_buf o) (o_in o - n) n
  else                                                         (* 364-374 *)
    let m := n - o_in o in
    do _ <- assert_if dbg ((0 <? m) && (m <=? n));
    do a <- slice (o_buf o) (SZ - m) m;
    do b <- slice (o_buf o) 0 (n - m);
    Ok (a ++ b).

(** server-esc.c:310-389: the whole message built for the client when the
    console is logged.  [beginmsg] and [endmsg] are the formatted texts of lines
    313 and 382; the work buffer holds SZ - 1 bytes.  [None]: nothing is sent
    because the name leaves no room (lines 315-333).  Without asserts, an end
    message that does not fit is cut by snprintf and [ptr - buf] then exceeds
    the buffer: an out-of-bounds read in write_obj_data (line 389). *)
Definition replay_message (dbg : bool) (o : obj) (beginmsg endmsg : list Z)
  : res (option (list Z)) :=
  let total := SZ - 1 in
  let nb := length beginmsg in
  if total <=? nb then Ok None                                 (* 315 *)
  else if total - nb <=? nb - 2 then Ok None                   (* 327-333 *)
  else
    let len := total - nb - (nb - 2) in
    do body <- replay_bytes dbg o len;
    let left := total - nb - length body in                    (* 380 *)
    do _ <- assert_if dbg (0 <? left);
    do _ <- assert_if dbg (length endmsg <? left);             (* 384 *)
    if length endmsg <? left
    then Ok (Some (beginmsg ++ body ++ endmsg))
    else UB OutOfBounds.

(** server-obj.c:921-922, read_from_obj on end of file *)
Definition mark_eof (o : obj) : obj :=
  mkObj (o_buf o) (o_in o) (o_out o) (o_wrap o) true (o_open o)
        false (o_pollout o) (o_kind o).

(** server-esc.c:394-421, perform_quiet_toggle: the flag (the message it sends
    is a separate [OWrite]).  Never called for other objects (assert, 401). *)
Definition toggle_quiet (o : obj) : res obj :=
  match o_kind o with
  | KClient q s =>
      Ok (mkObj (o_buf o) (o_in o) (o_out o) (o_wrap o) (o_eof o) (o_open o)
                (o_pollin o) (o_pollout o) (KClient (negb q) s))
  | _ => UB AssertFail
  end.

(** server-esc.c:553-577, perform_suspend *)
Definition toggle_suspend (o : obj) : res obj :=
  match o_kind o with
  | KClient q s =>
      let o1 := mkObj (o_buf o) (o_in o) (o_out o) (o_wrap o) (o_eof o)
                      (o_open o) (o_pollin o)
                      (if o_open o then false else o_pollout o)
                      (KClient q (negb s)) in
      Ok (if negb s then o1 else set_pollout o1)
  | _ => UB AssertFail
  end.

(** Closing the fd and leaving the buffer alone: server-logfile.c:241-247,
    server-telnet.c:309-316, server-process.c:272-278, server-unixsock.c:337-343,
    server-serial.c:393-398, server-ipmi.c:829-835. *)
Definition close_fd (o : obj) : obj :=
  mkObj (o_buf o) (o_in o) (o_out o) (o_wrap o) (o_eof o) false false false
        (o_kind o).

(** Storing a freshly opened fd: fd set, gotEOF = 0, POLLIN requested for
    consoles only, POLLOUT not requested.  server-logfile.c:276-290,
    server-telnet.c:259-269, server-process.c:357-360, server-unixsock.c:298-301,
    server-serial.c:438-440, server-ipmi.c:1013-1016.  The callers have closed
    the previous fd. *)
Definition open_fd (o : obj) : obj :=
  if o_open o then o
  else mkObj (o_buf o) (o_in o) (o_out o) (o_wrap o) false true
             (match o_kind o with KConsole => true | _ => false end)
             false (o_kind o).

(** What can happen to an object's output buffer. *)
Inductive op :=
| OWrite (data : list Z) (isInfo : bool)   (* somebody queues a message *)
| OFlush (rs : list wres)                  (* the main loop flushes to the fd *)
| OEof                                     (* end of file seen on the object *)
| OQuiet                                   (* client toggles quiet mode *)
| OSuspend                                 (* client suspends / resumes *)
| OShutdown                                (* shutdown_obj *)
| OClose                                   (* fd closed without a flush *)
| OOpen.                                   (* fd (re)opened *)

(** The calls above as one machine: new object and bytes handed to the
    kernel. *)
Definition step (o : obj) (x : op) : res (obj * list Z) :=
  match x with
  | OWrite d i => do r <- write_obj_data o d i; Ok (snd r, [])
  | OFlush rs =>
      do r <- write_to_obj o rs;
      let '(sent, _, o') := r in Ok (o', sent)
  | OEof => Ok (mark_eof o, [])
  | OQuiet => do o' <- toggle_quiet o; Ok (o', [])
  | OSuspend => do o' <- toggle_suspend o; Ok (o', [])
  | OShutdown => Ok (shutdown_buf o, [])
  | OClose => Ok (close_fd o, [])
  | OOpen => Ok (open_fd o, [])
  end.

Fixpoint run (o : obj) (xs : list op) : res (obj * list Z) :=
  match xs with
  | [] => Ok (o, [])
  | x :: xs' =>
      do r1 <- step o x;
      do r2 <- run (fst r1) xs';
      Ok (fst r2, snd r1 ++ snd r2)
  end.

End Ring.
