(** A session of the client: src/client-tty.c:70-143, 255-282, 351-365, 385-535, 610-636,
    686-712; src/common.c:140-217; src/client-sock.c:436-456; src/client-conf.c:349-394.
    What a key does to the session and to the server is [EscModel.keystroke]. *)
From Coq Require Import String.
From Verif Require Import Base Chars Fmt StrModel MsgModel EscModel.
Local Open Scope Z_scope.
Local Open Scope list_scope.

(** ** Terminals *)
(** struct termios: the four words of flags, c_cc[VMIN], c_cc[VTIME], and all the rest *)
Record termios := mkTerm { iflag : Z; oflag : Z; cflag : Z; lflag : Z; vmin : Z; vtime : Z; rest : list Z }.
(** Linux's values *)
Definition BRKINT := 2.  Definition ICRNL := 256.  Definition INPCK := 16.  Definition ISTRIP := 32.  Definition IXON := 1024.
Definition OPOST := 1.
Definition CSIZE := 48.  Definition CS8 := 48.  Definition PARENB := 256.  Definition CLOCAL := 2048.
Definition ECHO := 8.  Definition ECHOCTL := 512.  Definition ICANON := 2.  Definition IEXTEN := 32768.  Definition ISIG := 1.
Definition ors (l : list Z) : Z := fold_right Z.lor 0 l.
(** common.c:175-217, get_tty_raw; [t]: what tcgetattr() gives *)
Definition get_tty_raw (t : termios) : termios :=
  mkTerm (Z.land (iflag t) (Z.lnot (ors [BRKINT; ICRNL; INPCK; ISTRIP; IXON])))
         (Z.land (oflag t) (Z.lnot OPOST))
         (Z.lor (Z.land (Z.lor (Z.land (cflag t) (Z.lnot CSIZE)) CS8) (Z.lnot PARENB)) CLOCAL)
         (Z.land (lflag t) (Z.lnot (ors [ECHO; ECHOCTL; ICANON; IEXTEN; ISIG])))
         1 0 (rest t).
(** client-tty.c:361 *)
Definition toggle_echo (t : termios) : termios :=
  mkTerm (iflag t) (oflag t) (cflag t) (Z.lxor (lflag t) ECHO) (vmin t) (vtime t) (rest t).

(** ** Messages *)
(** what does not change in a session: the consoles, the server, the escape character (a
    signed char), and the buffers (their contents do not matter) *)
Record cfg := mkCfg { names : list (list Z); host : list Z; port : Z; escape : Z; key_buf : list Z; line_buf : list Z; help_buf : list Z }.
Definition first_name (c : cfg) : res (list Z) := match names c with n :: _ => Ok n | [] => UB NullDeref end.
Definition single (c : cfg) : bool := (length (names c) =? 1)%nat.
Definition put_name (n : list Z) : list Z := zs "[" ++ n ++ zs "]".
(** what the bytes up to the first NUL are *)
Definition c_string (buf : list Z) : res (list Z) := do n <- strlen buf; slice buf 0 n.
(** client-tty.c:686-712, locally_display_status: what is written to stdout *)
Definition status (c : cfg) (msg : list Z) : res (list Z) :=
  let L := length (line_buf c) in
  do t <- (if single c then do n <- first_name c; Ok (MSG_PREFIX ++ zs "Connection to console " ++ put_name n ++ SPACE :: msg ++ MSG_SUFFIX)
           else Ok (MSG_PREFIX ++ zs "Broadcast to " ++ fmt_d (Z.of_nat (length (names c))) ++ zs " consoles " ++ msg ++ MSG_SUFFIX));
  do r <- vsnprintf (line_buf c) 0 L t;
  do b <- (if (L <=? snd r)%nat then blit (fst r) (L - 3) [CR; LF; NUL] else Ok (fst r));    (* 707 *)
  c_string b.
(** client-tty.c:511-535, perform_info_esc *)
Definition info (c : cfg) (t : tty) : res (list Z) :=
  if single c then
    do n <- first_name c;
    Ok (MSG_PREFIX ++ zs "Connected " ++ (if t_connect t then zs "R/W" else zs "R/O") ++ zs " to console " ++ put_name n ++
        zs " on <" ++ host c ++ COLON :: fmt_d (port c) ++ zs ">" ++ MSG_SUFFIX)
  else Ok (MSG_PREFIX ++ zs "Broadcasting to " ++ fmt_d (Z.of_nat (length (names c))) ++ zs " consoles on <" ++
           host c ++ COLON :: fmt_d (port c) ++ zs ">" ++ MSG_SUFFIX).
(** the text that write_esc_char stores in char esc[3] *)
Definition esc_text (c : Z) : res (list Z) := do r <- write_esc_char [NUL; NUL; NUL] 0 c; slice (fst r) 0 (snd r).
(** %2s and %-2s *)
Definition left2 (s : list Z) : list Z := repeat SPACE (2 - length s) ++ s.
Definition right2 (s : list Z) : list Z := s ++ repeat SPACE (2 - length s).
(** client-tty.c:399-489: the lines; which are there depends on the session *)
Definition help_items (c : cfg) (t : tty) : list (bool * Z * list Z) :=
  [ (true, ESC_HELP, zs "Display this help message.");
    (true, ESC_CLOSE, zs "Terminate the connection.");
    (true, escape c, zs "Send the escape character.");
    (t_connect t, ESC_BREAK, zs "Transmit a serial-break.");
    (t_connect t, ESC_DEL, zs "Transmit a DEL character.");
    (t_connect t, ESC_ECHO, (if t_echo t then zs "Disable" else zs "Enable") ++ zs " echoing of client input.");
    (negb (t_connect t), ESC_FORCE, zs "Force write-privileges (console-stealing).");
    (true, ESC_INFO, zs "Display connection information.");
    (negb (t_connect t), ESC_JOIN, zs "Join write-privileges (console-sharing).");
    (negb (t_bcast t), ESC_REPLAY, zs "Replay up to the last 4096 bytes of the log.");
    (t_connect t && negb (t_bcast t), ESC_MONITOR, zs "Monitor without write-privileges (read-only).");
    (true, ESC_QUIET, if t_quiet t then zs "Disable quiet-mode (display info msgs)." else zs "Enable quiet-mode (suppress info msgs).");
    (t_connect t && t_reset t, ESC_RESET, zs "Reset node" ++ (if single c then [] else zs "s") ++ zs " associated with this console.");
    (true, ESC_SUSPEND, zs "Suspend the client.") ].
Fixpoint help_lines (esc : list Z) (l : list (bool * Z * list Z)) : res (list (list Z)) :=
  match l with
  | [] => Ok []
  | (false, _, _) :: l => help_lines esc l
  | (true, k, s) :: l =>
      do tmp <- esc_text k;
      do ls <- help_lines esc l;
      Ok ((zs "  " ++ left2 esc ++ right2 tmp ++ zs " -  " ++ s ++ [CR; LF]) :: ls)
  end.
Fixpoint append_all (buf : list Z) (n : Z) (l : list (list Z)) : res (list Z * Z) :=
  match l with
  | [] => Ok (buf, n)
  | t :: l => do r <- append_format_string buf (length buf) t; append_all (fst r) (snd r) l
  end.
(** client-tty.c:385-508, perform_help_esc: what is written to stdout *)
Definition help (dbg : bool) (c : cfg) (t : tty) : res (list Z) :=
  let size := length (help_buf c) in
  do esc <- esc_text (escape c);
  do ls <- help_lines esc (help_items c t);
  do r <- append_all (repeat NUL size) 0 ((CR :: LF :: zs "Supported ConMan Escape Sequences:" ++ [CR; LF]) :: ls);
  do x <- (if snd r =? -1 then                                                      (* 496 *)
             do _ <- assert_ (4 <=? size)%nat;
             do b <- blit (fst r) (size - 4) [PLUS; CR; LF; NUL];
             Ok (b, (size - 1)%nat)
           else Ok (fst r, Z.to_nat (snd r)));
  do n <- strlen (fst x);
  do _ <- assert_if dbg (snd x =? n)%nat;                                           (* 503 *)
  slice (fst x) 0 (snd x).

(** ** What the client does *)
(** A system call.  [AOut true]: what came from the server; [AOut false]: the client's own
    messages.  ARaw is get_tty_raw with set_tty_mode, AToggle client-tty.c:360-362. *)
Inductive act := AOut (srv : bool) (b : list Z) | ALog (b : list Z) | ASend (b : list Z) | AShut | AClose | ARaw | AToggle | ARestore | AStop.
(** how it ends; [Resumed t]: for AStop, the settings of the terminal when the client goes on *)
Inductive result := Good | Epipe | Bad | Resumed (t : termios).
(** the terminal; the settings of client-tty.c:102; the session; stdout; the log, if any; the
    data sent; done; the settings at each stop *)
Record st := mkSt { now : termios; saved : termios; ses : tty; out : list (bool * list Z); log_ : option (list Z);
                    sent : list Z; done : bool; stops : list termios }.
Definition set_now (s : st) (t : termios) : st := mkSt t (saved s) (ses s) (out s) (log_ s) (sent s) (done s) (stops s).
Definition set_ses (s : st) (t : tty) : st := mkSt (now s) (saved s) t (out s) (log_ s) (sent s) (done s) (stops s).
Definition set_done (s : st) : st := mkSt (now s) (saved s) (ses s) (out s) (log_ s) (sent s) true (stops s).
Definition do_act (s : st) (a : act) : st :=
  match a with
  | AOut srv b => mkSt (now s) (saved s) (ses s) (out s ++ [(srv, b)]) (log_ s) (sent s) (done s) (stops s)
  | ALog b => mkSt (now s) (saved s) (ses s) (out s) (match log_ s with Some l => Some (l ++ b) | None => None end) (sent s) (done s) (stops s)
  | ASend b => mkSt (now s) (saved s) (ses s) (out s) (log_ s) (sent s ++ b) (done s) (stops s)
  | AShut | AClose => s
  | ARaw => set_now s (get_tty_raw (now s))
  | AToggle => set_now s (toggle_echo (now s))
  | ARestore => set_now s (saved s)
  | AStop => mkSt (now s) (saved s) (ses s) (out s) (log_ s) (sent s) (done s) (stops s ++ [now s])
  end.
(** how a sequence of calls ends: all done; EPIPE on the socket; another error, which
    log_err() makes fatal.  What a failing write has passed on is not modelled. *)
Inductive ended := All | Pipe | Fatal_.
Fixpoint exec (s : st) (rs : list result) (l : list act) : st * ended :=
  match l with
  | [] => (s, All)
  | a :: l =>
      match hd Good rs, a with
      | Epipe, ASend _ => (s, Pipe)
      | Epipe, _ | Bad, _ => (s, Fatal_)
      | Resumed t, AStop => exec (set_now (do_act s a) t) (tl rs) l
      | _, _ => exec (do_act s a) (tl rs) l
      end
  end.

(** client-tty.c:155-252: what a key makes the client do (for [keystroke]'s results) *)
Definition key_acts (dbg : bool) (c : cfg) (t : tty) (k : Z) (snd_ : list Z) (ls : list local) : res (list act) :=
  match ls with
  | LSuspended :: _ =>                                                       (* 610-636 *)
      do e <- locally_echo_esc (key_buf c) (escape c) k;
      do s1 <- status c (zs "suspended");
      do s2 <- status c (zs "resumed");
      Ok [AOut false e; ASend (firstn 2 snd_); AOut false s1; ARestore; AStop; ARaw; AOut false s2; ASend (skipn 2 snd_)]
  | LClose :: _ =>                                                           (* 317-332 *)
      do e <- locally_echo_esc (key_buf c) (escape c) k;
      do s1 <- status c (zs "closed");
      Ok [AOut false e; AOut false s1; AShut]
  | LHelp :: _ => do h <- help dbg c t; Ok [AOut false h]
  | LInfo :: _ => do h <- info c t; Ok [AOut false h]
  | LEcho :: _ => Ok [AToggle]                                               (* 351-365 *)
  | [] => Ok (match snd_ with [] => [] | _ => [ASend snd_] end)
  end.
Inductive key := Byte (k : Z) | InEof | InErr.
Inductive sock := Bytes (d : list Z) | SEof | SErr.
(** client-tty.c:155-252, read_from_stdin; 123-126 *)
Definition read_from_stdin (dbg : bool) (c : cfg) (s : st) (k : key) (rs : list result) : res (st * bool) :=
  match k with
  | InEof => Ok (set_done s, true)
  | InErr => Ok (s, false)
  | Byte b =>
      do r <- keystroke (escape c) (key_buf c) (ses s) b;
      let '(t, sn, ls) := r in
      do l <- key_acts dbg c t b sn ls;
      let '(s1, e) := exec (set_ses s t) rs l in
      Ok (match e with All => (s1, true) | Pipe => (set_done s1, true) | Fatal_ => (s1, false) end)
  end.
(** client-tty.c:255-282, write_to_stdout; 127-130.  [SEof]: read() gives 0 or EPIPE *)
Definition write_to_stdout (s : st) (d : sock) (rs : list result) : st * bool :=
  match d with
  | SEof => (set_done s, true)
  | SErr => (s, false)
  | Bytes b =>
      let '(s1, e) := exec s rs (AOut true b :: match log_ s with Some _ => [ALog b] | None => [] end) in
      match e with All => (s1, true) | _ => (s1, false) end
  end.
(** What happens while the client waits: something can be read; select() is interrupted, by
    SIGTERM or by another signal; SIGTERM arrives between the test of 112 and select();
    select() fails.  [late]: SIGTERM arrives while what was read is dealt with. *)
Inductive event :=
  | Ready (k : option (key * list result)) (d : option (sock * list result)) (late : bool)
  | Interrupted (term : bool) | Early | Failed.
(** the client waits; it has left the loop (with the events that are left); it has ended by a fatal error *)
Inductive phase := Waiting | Over (rem : list event) | Dead.
(** client-tty.c:112-131; the test of 112 has been made *)
Fixpoint loop (dbg : bool) (c : cfg) (s : st) (l : list event) : res (st * phase) :=
  match l with
  | [] => Ok (s, Waiting)
  | Early :: l => loop dbg c (set_done s) l
  | Failed :: _ => Ok (s, Dead)
  | Interrupted term :: l =>
      let s := if term then set_done s else s in
      if done s then Ok (s, Over l) else loop dbg c s l
  | Ready k d late :: l =>
      do r <- (match k with Some (k, rs) => read_from_stdin dbg c s k rs | None => Ok (s, true) end);
      if snd r then
        let '(s, ok) := match d with Some (d, rs) => write_to_stdout (fst r) d rs | None => (fst r, true) end in
        if ok then
          let s := if late then set_done s else s in
          if done s then Ok (s, Over l) else loop dbg c s l
        else Ok (s, Dead)
      else Ok (fst r, Dead)
  end.
(** client-tty.c:70-143, connect_console.  [isin], [isout]: isatty(); [rs1], [rs2]: how the
    calls before and after the loop end. *)
Definition connect_console (dbg isin isout : bool) (c : cfg) (s : st) (rs1 : list result) (l : list event) (rs2 : list result) : res (st * phase) :=
  if negb isin || negb isout then Ok (s, Dead)                                (* 90-93 *)
  else
    let t := ses s in
    let t := if single c then mkTty (t_mode t) (t_connect t) false (t_echo t) (t_quiet t) (t_reset t) (t_closed t) else t in   (* 87 *)
    let s := mkSt (now s) (now s) t (out s) (log_ s) (sent s) (done s) (stops s) in       (* 102 *)
    do m <- status c (zs "opened");
    match exec s rs1 [ARaw; AOut false m] with
    | (s, All) =>
        do r <- loop dbg c s l;
        match r with
        | (s, Over rem) =>
            do m <- (if t_closed (ses s) then Ok [] else do m <- status c (zs "terminated by server"); Ok [AOut false m]);
            match exec s rs2 (AClose :: m ++ [ARestore]) with
            | (s, All) => Ok (s, Over rem)
            | (s, _) => Ok (s, Dead)
            end
        | r => Ok r
        end
    | (s, _) => Ok (s, Dead)
    end.

(** client-conf.c:349-394 with client.c:48, 69: the lines at both ends of the log; [t]: the time *)
Definition log_started (t : list Z) : list Z := MSG_PREFIX ++ zs "Log started at " ++ t ++ MSG_SUFFIX.
Definition log_finished (t : list Z) : list Z := MSG_PREFIX ++ zs "Log finished at " ++ t ++ MSG_SUFFIX.

(** client.c:43-75 for a session: the log before it, the session, the log after it.  A run
    that ends by an error ends in log_err(), which does not come back. *)
Definition add_log (s : st) (b : list Z) : st := do_act s (ALog b).
Definition whole_session (dbg isin isout : bool) (c : cfg) (s : st) (t1 : list Z) (rs1 : list result) (l : list event) (rs2 : list result) (t2 : list Z) : res (st * phase) :=
  do r <- connect_console dbg isin isout c (add_log s (log_started t1)) rs1 l rs2;
  match r with
  | (s, Over rem) => Ok (add_log s (log_finished t2), Over rem)
  | r => Ok r
  end.

(** ** Queries *)
(** client-sock.c:436-456, display_consoles: what is written to the descriptor; [buf]: the
    local buffer.  Writes do not fail. *)
Fixpoint display_consoles (buf : list Z) (l : list (list Z)) : res (list Z) :=
  match l with
  | [] => Ok []
  | n :: l =>
      do r <- vsnprintf buf 0 (length buf) (n ++ [LF]);
      if (length buf <=? snd r)%nat then UB Fatal
      else do b <- slice (fst r) 0 (snd r); do o <- display_consoles (fst r) l; Ok (b ++ o)
  end.
