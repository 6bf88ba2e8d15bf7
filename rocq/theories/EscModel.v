(** Model of the escape sequences between client and server:
    src/server-esc.c:process_client_escapes (unstuffing at the server) and
    src/client-tty.c:read_from_stdin with its perform_*_esc helpers (the keyboard
    side of the client). *)
From Verif Require Import Base.
Local Open Scope Z_scope.

(** common.h:91-104 *)
Definition ESC_CHAR := 255.
Definition ESC_BREAK := 66.    (* 'B' *)
Definition ESC_CLOSE := 46.    (* '.' *)
Definition ESC_DEL := 68.      (* 'D' *)
Definition ESC_ECHO := 69.     (* 'E' *)
Definition ESC_FORCE := 70.    (* 'F' *)
Definition ESC_HELP := 63.     (* '?' *)
Definition ESC_INFO := 73.     (* 'I' *)
Definition ESC_JOIN := 74.     (* 'J' *)
Definition ESC_REPLAY := 76.   (* 'L' *)
Definition ESC_MONITOR := 77.  (* 'M' *)
Definition ESC_QUIET := 81.    (* 'Q' *)
Definition ESC_RESET := 82.    (* 'R' *)
Definition ESC_SUSPEND := 90.  (* 'Z' *)

(** ** Server side *)

(** What process_client_escapes does besides filling the buffer: a command is
    performed at once. *)
Inductive scmd :=
| SBreak | SDel | SForce | SJoin | SReplay | SMonitor | SQuiet | SReset | SSuspend.

(** server-esc.c:79-120, the switch (after "case ESC_CHAR"): [None] is the
    default case, which only logs a warning. *)
Definition server_cmd (c : Z) : option scmd :=
  if c =? ESC_BREAK then Some SBreak
  else if c =? ESC_DEL then Some SDel
  else if c =? ESC_FORCE then Some SForce
  else if c =? ESC_JOIN then Some SJoin
  else if c =? ESC_REPLAY then Some SReplay
  else if c =? ESC_MONITOR then Some SMonitor
  else if c =? ESC_QUIET then Some SQuiet
  else if c =? ESC_RESET then Some SReset
  else if c =? ESC_SUSPEND then Some SSuspend
  else None.

(** server-esc.c:76-128: the loop.  [n] iterations are left, [p] is the read
    position and [q] the write position in the same buffer.  Returns the buffer,
    the final [q], gotEscape and the commands performed, in order. *)
Fixpoint unstuff_loop (n : nat) (buf : list Z) (p q : nat) (got : bool)
  : res (list Z * nat * bool * list scmd) :=
  match n with
  | O => Ok (buf, q, got, [])
  | S n' =>
      do c <- get buf p;
      if got then
        if c =? ESC_CHAR then
          do buf1 <- put buf q c;
          unstuff_loop n' buf1 (S p) (S q) false
        else
          do r <- unstuff_loop n' buf (S p) q false;
          let '(b, q', g, cs) := r in
          Ok (b, q', g, match server_cmd c with Some x => x :: cs | None => cs end)
      else if c =? ESC_CHAR then
        unstuff_loop n' buf (S p) q true
      else
        do buf1 <- put buf q c;
        unstuff_loop n' buf1 (S p) (S q) false
  end.

(** server-esc.c:59-133, process_client_escapes.  [src] holds the [len] bytes
    read.  Returns the bytes left in the buffer (buf[0..len-1]), the new
    gotEscape, and the commands performed during the call. *)
Definition process_client_escapes (got : bool) (src : list Z)
  : res (list Z * bool * list scmd) :=
  do r <- unstuff_loop (length src) src 0 0 got;
  let '(b, q, g, cs) := r in
  do d <- slice b 0 q;
  Ok (d, g, cs).

(** What a console written to by the client sees from one read_from_obj on the
    client (server-obj.c:928-954): the effects of commands come first, the data of
    the whole read afterwards.  [SDel] writes 0x7F (server-esc.c:198-221). *)
Inductive effect := ECmd (c : scmd) | EData (d : list Z).

Definition read_effects (got : bool) (src : list Z) : res (bool * list effect) :=
  do r <- process_client_escapes got src;
  let '(d, g, cs) := r in
  Ok (g, map ECmd cs ++ (match d with [] => [] | _ => [EData d] end)).

(** Successive reads. *)
Fixpoint read_all (got : bool) (chunks : list (list Z)) : res (bool * list effect) :=
  match chunks with
  | [] => Ok (got, [])
  | c :: cs =>
      do r1 <- read_effects got c;
      do r2 <- read_all (fst r1) cs;
      Ok (fst r2, snd r1 ++ snd r2)
  end.

(** ** Client side *)

(** client-tty.c:238-243: doubling every 0xFF of the first [p] bytes of the
    4-byte buffer in place, from the end.  [q] counts down; the inner loop shifts
    buf[q..p-1] up by one.  (The final "q >= buf" test forms buf - 1, which is not
    modelled.) *)
Fixpoint stuff_loop (q1 : nat) (buf : list Z) (p : nat) : res (list Z * nat) :=
  match q1 with
  | O => Ok (buf, p)
  | S q =>
      do c <- get buf q;
      if c =? ESC_CHAR then
        do tail <- slice buf q (p - q);
        do buf1 <- blit buf (S q) tail;
        stuff_loop q buf1 (S p)
      else stuff_loop q buf p
  end.

(** client-tty.c:162: static enum { CHR, EOL, ESC } mode *)
Inductive tmode := MChr | MEol | MEsc.

(** client.h / common.h req_t: the session state the keyboard code uses.
    [t_connect]: command == CONMAN_CMD_CONNECT (otherwise MONITOR). *)
Record tty := mkTty {
  t_mode : tmode;
  t_connect : bool;
  t_bcast : bool;
  t_echo : bool;
  t_quiet : bool;
  t_reset : bool;
  t_closed : bool }.

(** Things done locally, without sending to the server. *)
Inductive local := LClose | LHelp | LInfo | LSuspended | LEcho.

(** Result of one keystroke: bytes written to the socket, local actions. *)
Definition kout := (tty * list Z * list local)%type.

Definition with_mode (t : tty) (m : tmode) : tty :=
  mkTty m (t_connect t) (t_bcast t) (t_echo t) (t_quiet t) (t_reset t) (t_closed t).

(** client-tty.c:285-302, send_esc_seq (a successful write) *)
Definition esc_seq (c : Z) : list Z := [ESC_CHAR; c].

(** client-tty.c:305-636, the perform_*_esc functions; [None] when [c] is no
    command (lines 183-210).  Writes are assumed to succeed. *)
Definition perform_esc (t : tty) (c : Z) : option kout :=
  if c =? ESC_BREAK then                                           (* 305 *)
    Some (t, if t_connect t then esc_seq c else [], [])
  else if c =? ESC_CLOSE then                                      (* 317 *)
    Some (mkTty (t_mode t) (t_connect t) (t_bcast t) (t_echo t) (t_quiet t)
                (t_reset t) true, [], [LClose])
  else if c =? ESC_DEL then                                        (* 335 *)
    Some (t, if t_connect t then esc_seq c else [], [])
  else if c =? ESC_ECHO then                                       (* 351 *)
    Some (if t_connect t
          then (mkTty (t_mode t) (t_connect t) (t_bcast t) (negb (t_echo t))
                      (t_quiet t) (t_reset t) (t_closed t), [], [LEcho])
          else (t, [], []))
  else if c =? ESC_FORCE then                                      (* 368 *)
    Some (if t_connect t then (t, [], [])
          else (mkTty (t_mode t) true (t_bcast t) (t_echo t) (t_quiet t)
                      (t_reset t) (t_closed t), esc_seq c, []))
  else if c =? ESC_HELP then Some (t, [], [LHelp])                 (* 385 *)
  else if c =? ESC_INFO then Some (t, [], [LInfo])                 (* 511 *)
  else if c =? ESC_JOIN then                                       (* 538 *)
    Some (if t_connect t then (t, [], [])
          else (mkTty (t_mode t) true (t_bcast t) (t_echo t) (t_quiet t)
                      (t_reset t) (t_closed t), esc_seq c, []))
  else if c =? ESC_REPLAY then                                     (* 555 *)
    Some (t, if t_bcast t then [] else esc_seq c, [])
  else if c =? ESC_MONITOR then                                    (* 568 *)
    Some (if negb (t_connect t) || t_bcast t then (t, [], [])
          else (mkTty (t_mode t) false (t_bcast t) (t_echo t) (t_quiet t)
                      (t_reset t) (t_closed t), esc_seq c, []))
  else if c =? ESC_QUIET then                                      (* 586 *)
    Some (mkTty (t_mode t) (t_connect t) (t_bcast t) (t_echo t)
                (negb (t_quiet t)) (t_reset t) (t_closed t), esc_seq c, [])
  else if c =? ESC_RESET then                                      (* 597 *)
    Some (t, if t_connect t && t_reset t then esc_seq c else [], [])
  else if c =? ESC_SUSPEND then                                    (* 610 *)
    Some (t, esc_seq c ++ esc_seq c, [LSuspended])
  else None.

(** client-tty.c:177, 211: [c] is an unsigned char and [esc] a (signed) char, so
    both are compared as ints: [c] in 0..255 against [esc] in -128..127.
    Storing [esc] into the unsigned buffer (218) takes it modulo 256. *)
Definition uchar (z : Z) : Z := z mod 256.

(** client-tty.c:221-250: the character (with the escape character before it if
    [pre]) is stuffed and sent when in CONNECT mode.  [junk] is the
    uninitialised 4-byte buffer. *)
Definition send_char (t : tty) (pre : list Z) (c : Z) (junk : list Z)
  : res (tty * list Z * list local) :=
  let m := if (c =? 13) || (c =? 10) then MEol else MChr in
  let t1 := with_mode t m in
  do b1 <- blit junk 0 (pre ++ [c]);
  if t_connect t then
    do r <- stuff_loop (length pre + 1) b1 (length pre + 1);
    do out <- slice (fst r) 0 (snd r);
    Ok (t1, out, [])
  else Ok (t1, [], []).

(** client-tty.c:155-252, read_from_stdin for one byte [c] read successfully *)
Definition keystroke (esc : Z) (junk : list Z) (t : tty) (c : Z) : res kout :=
  match t_mode t with
  | MEsc =>
      let t1 := with_mode t MEol in                                (* 182 *)
      match perform_esc t1 c with
      | Some r => Ok r
      | None => send_char t1 (if c =? esc then [] else [uchar esc]) c junk
      end
  | _ =>
      if c =? esc then Ok (with_mode t MEsc, [], [])               (* 177 *)
      else send_char t [] c junk
  end.

(** client-conf.c:183 (escapeChar = optarg[0]) and client-tty.c:165: the escape
    byte given by the user becomes a signed char (x86 and other ABIs where plain
    char is signed). *)
Definition signed_char (b : Z) : Z := if b <? 128 then b else b - 256.

(** client-tty.c:112-131 with 155-252: the keys are read one at a time.  After
    perform_close_esc has shut down the sending side of the socket (326), a write
    fails with EPIPE and the session ends (244-246, 295-297); the failing
    keystroke's local action does not happen (e.g. 610-636 return before raising
    SIGTSTP).  Other write errors are fatal and not modelled. *)
Fixpoint type_keys (esc : Z) (junk : list Z) (t : tty) (keys : list Z) : res kout :=
  match keys with
  | [] => Ok (t, [], [])
  | c :: ks =>
      do r1 <- keystroke esc junk t c;
      let '(t1, s1, l1) := r1 in
      if t_closed t && (0 <? length s1)%nat then Ok (t1, [], [])
      else
      do r2 <- type_keys esc junk t1 ks;
      let '(t2, s2, l2) := r2 in
      Ok (t2, s1 ++ s2, l1 ++ l2)
  end.

(** client-tty.c:657-683, write_esc_char: stores the printable form of [c] at
    [dst] in a buffer, a terminating NUL after it, and returns the position of the
    NUL.  [c & 0x7F] is [c mod 128]. *)
Definition write_esc_char (buf : list Z) (dst : nat) (c0 : Z) : res (list Z * nat) :=
  let c := c0 mod 128 in
  if c <? 32 then
    do b1 <- put buf dst 94;
    do b2 <- put b1 (S dst) (c + 64);
    do b3 <- put b2 (S (S dst)) 0;
    Ok (b3, S (S dst))
  else if c =? 127 then
    do b1 <- put buf dst 94;
    do b2 <- put b1 (S dst) 63;
    do b3 <- put b2 (S (S dst)) 0;
    Ok (b3, S (S dst))
  else
    do b1 <- put buf dst c;
    do b2 <- put b1 (S dst) 0;
    Ok (b2, S dst).

(** client-tty.c:639-654, locally_echo_esc with its 4-byte buffer; returns the
    bytes written to stdout *)
Definition locally_echo_esc (junk : list Z) (e c : Z) : res (list Z) :=
  do r1 <- write_esc_char junk 0 e;
  do r2 <- write_esc_char (fst r1) (snd r1) c;
  do _ <- assert_ ((0 <? snd r2)%nat && (snd r2 <=? 4)%nat);
  slice (fst r2) 0 (snd r2).
