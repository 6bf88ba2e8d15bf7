(** The lines of serial consoles: src/server-serial.c:257-316 (set_serial_opts), 319-372
    (create_serial_obj), 375-456 (open_serial_obj), src/common.c:140-217 (the settings of a
    terminal), src/server-obj.c:183-205 and 247-254 (destroy_obj), 798-869 (shutdown_obj),
    src/server-sock.c:930-934 (a client comes) and src/server.c:720-746, 163 (start and end).

    The kernel.  A device has settings (struct termios).  What a device makes of settings that
    tcsetattr() is given is [drv]; it may ignore some (common.c:159-162).  tcsetattr() with
    TCSAFLUSH first waits until the output has left.  A device may disappear at any time: then
    isatty(), tcgetattr() and tcsetattr() fail on the descriptors that are open on it.  Locks are
    those of InstModel.

    Simplifications.  Messages, buffers and readiness flags are left out.  close() and
    set_fd_nonblocking() do not fail. *)
From Coq Require Import String.
From Verif Require Import Base Chars OptModel InstModel TermModel.
Local Open Scope Z_scope.

(** struct termios with its two speeds, in bits per second *)
Record port := mkPort { tio : termios; ispeed : Z; ospeed : Z }.
(** Linux's values; CSIZE, CS8 and PARENB are in TermModel *)
Definition CS5 := 0.  Definition CS6 := 16.  Definition CS7 := 32.  Definition CSTOPB := 64.  Definition PARODD := 512.

(** server-serial.c:257-316; cfsetispeed() and cfsetospeed() do not fail for a speed of the table *)
Definition set_serial_opts (p : port) (o : seropt) : res port :=
  do _ <- assert_ (0 <? s_bps o);                                                    (* 267-270 *)
  do _ <- assert_ ((5 <=? s_databits o) && (s_databits o <=? 8));
  do _ <- assert_ ((0 <=? s_parity o) && (s_parity o <=? 2));
  do _ <- assert_ ((1 <=? s_stopbits o) && (s_stopbits o <=? 2));
  let t := tio p in
  let c := Z.land (cflag t) (Z.lnot CSIZE) in                                        (* 283 *)
  let c := Z.lor c (if s_databits o =? 5 then CS5 else if s_databits o =? 6 then CS6
                    else if s_databits o =? 7 then CS7 else CS8) in
  let c := if s_parity o =? 1 then Z.lor c (Z.lor PARENB PARODD)                     (* 297-306 *)
           else if s_parity o =? 2 then Z.land (Z.lor c PARENB) (Z.lnot PARODD)
           else Z.land c (Z.lnot (Z.lor PARENB PARODD)) in
  let c := if s_stopbits o =? 2 then Z.lor c CSTOPB else Z.land c (Z.lnot CSTOPB) in (* 308-313 *)
  Ok (mkPort (mkTerm (iflag t) (oflag t) c (lflag t) (vmin t) (vtime t) (rest t)) (s_bps o) (s_bps o)).

(** common.c:175-217 *)
Definition raw_port (p : port) : port := mkPort (get_tty_raw (tio p)) (ispeed p) (ospeed p).

(** A serial console (server.h:151-157).  [o_dev]: the device that its name leads to; [o_open]:
    fd >= 0; [o_lost]: the descriptor's device has disappeared; [o_saved]: aux.serial.tty, which
    holds anything before it is first stored. *)
Record obj := mkObj { o_dev : nat; o_opts : seropt; o_open : bool; o_lost : bool; o_saved : port }.
(** how the daemon is: it runs; it has ended; log_err() has ended it, or a signal that cannot be
    handled; its main thread waits for a device *)
Inductive life := Alive | Ended | Died | Hung.
Record world := mkWorld { ports : nat -> port; stuck : nat -> bool; locks : list lock; objs : list obj; life_ : life }.

Definition set_ports (w : world) (d : nat) (p : port) : world :=
  mkWorld (fun e => if (e =? d)%nat then p else ports w e) (stuck w) (locks w) (objs w) (life_ w).
Definition set_stuck (w : world) (d : nat) (b : bool) : world :=
  mkWorld (ports w) (fun e => if (e =? d)%nat then b else stuck w e) (locks w) (objs w) (life_ w).
Definition set_locks (w : world) (l : list lock) : world := mkWorld (ports w) (stuck w) l (objs w) (life_ w).
Definition set_life (w : world) (x : life) : world := mkWorld (ports w) (stuck w) (locks w) (objs w) x.
Fixpoint set_nth (l : list obj) (c : nat) (x : obj) : list obj :=
  match l, c with
  | [], _ => []
  | _ :: l, O => x :: l
  | y :: l, S c => y :: set_nth l c x
  end.
Definition set_obj (w : world) (c : nat) (x : obj) : world := mkWorld (ports w) (stuck w) (locks w) (set_nth (objs w) c x) (life_ w).

Section Line.
Variables (drv : nat -> port -> port) (me : Z).

(** the process ends: its locks go *)
Definition die (w : world) (x : life) : world := set_life (set_locks w (InstModel.ended me (locks w))) x.
(** close() of a descriptor of [d]: the process loses its lock on it *)
Definition close_dev (w : world) (d : nat) : world := set_locks w (closed me d (locks w)).

(** The calls on a descriptor, in order; [v]: the device disappears just before the call with
    this number, if ever. *)
Definition works (v : option nat) (k : nat) : bool := match v with Some n => (k <? n)%nat | None => true end.

(** common.c:155-172, set_tty_mode; the calls are numbers [k] and [k + 1] *)
Definition set_tty_mode (v : option nat) (k : nat) (w : world) (d : nat) (p : port) : world :=
  if negb (works v k) then w
  else if stuck w d then set_life w Hung
  else if negb (works v (S k)) then die w Died
  else set_ports w d (drv d p).

(** server-serial.c:400-455; the part before, for an open descriptor, is never run: both
    callers have fd < 0 *)
Definition open_dev (c : nat) (o : obj) (can : bool) (v : option nat) (w : world) : res world :=
  let d := o_dev o in
  if negb can then Ok w                                                              (* 401-405 *)
  else if negb (works v 0) then Ok (close_dev w d)
  else
    match get_lock (Proc me) d true (locks w) with                                   (* 406-410 *)
    | None => Ok (close_dev w d)
    | Some ls =>
        let w := set_locks w ls in
        if negb (works v 1) then Ok (close_dev w d)                                  (* 411-415 *)
        else if works v 2 && negb (works v 3) then Ok (die w Died)              (* 434 *)
        else
          let saved := if works v 2 then ports w d else o_saved o in
          if works v 4 && negb (works v 5) then Ok (die w Died)                 (* 435 *)
          else
            do w <- (if works v 4 then
                       do p <- set_serial_opts (raw_port (ports w d)) (o_opts o);    (* 436 *)
                       Ok (set_tty_mode v 6 w d p)                                   (* 437 *)
                     else Ok w);
            Ok (match life_ w with
                | Alive => set_obj w c (mkObj d (o_opts o) true (match v with Some _ => true | None => false end) saved)
                | _ => w
                end)
    end.

(** server-obj.c:183-205, 247-254; [v]: isatty() and tcsetattr() are numbers 0 and 1 *)
Definition destroy_dev (c : nat) (o : obj) (v : option nat) (w : world) : world :=
  if o_open o then
    let d := o_dev o in
    let w := set_tty_mode (if o_lost o then Some 0%nat else v) 0 w d (o_saved o) in  (* 195 *)
    match life_ w with
    | Alive =>
        let w := set_stuck w d false in                                              (* 196, tcflush() *)
        set_obj (close_dev w d) c (mkObj d (o_opts o) false false (o_saved o))
    | _ => w
    end
  else w.
(** server-conf.c:302-304, server.c:163-176: the objects in order *)
Fixpoint destroy_all (c : nat) (l : list obj) (vs : list (option nat)) (w : world) : world :=
  match life_ w, l with
  | Alive, o :: l => destroy_all (S c) l (tl vs) (destroy_dev c o (hd None vs) w)
  | Alive, [] => die w Ended
  | _, _ => w
  end.

(** What happens.  [Open]: at the start, and when a client comes and the device is not open.
    [Hangup]: end of file, or an error; the descriptor is closed, and the device opened again.
    [Finish]: the daemon ends by a signal.  [Crash]: by any other fatal error.  [Stty]: another
    program sets the device; [Plug]: the device is taken away, and put back with these settings;
    [Stall]: output is waiting and cannot leave, or can again.  [Foreign], [Release]: locks of
    other programs. *)
Inductive op := Open (c : nat) (can : bool) (v : option nat) | Hangup (c : nat) (can : bool) (v : option nat)
  | Finish (vs : list (option nat)) | Crash | Stty (d : nat) (p : port) | Plug (d : nat) (p : port) | Stall (d : nat) (b : bool)
  | Foreign (id : nat) (told : Z) (d : nat) (wr : bool) | Release (id : nat) (told : Z) (d : nat).

Definition lose (d : nat) (o : obj) : obj := if (o_dev o =? d)%nat && o_open o then mkObj d (o_opts o) true true (o_saved o) else o.

Definition step (w : world) (e : op) : res world :=
  match life_ w with
  | Alive =>
      match e with
      | Open c can v =>
          match nth_error (objs w) c with
          | Some o => if o_open o then Ok w else open_dev c o can v w
          | None => Ok w
          end
      | Hangup c can v =>
          match nth_error (objs w) c with
          | Some o =>
              if o_open o then
                let o := mkObj (o_dev o) (o_opts o) false false (o_saved o) in       (* server-obj.c:819-824 *)
                open_dev c o can v (set_obj (close_dev (set_stuck w (o_dev o) false) (o_dev o)) c o)
              else Ok w
          | None => Ok w
          end
      | Finish vs => Ok (destroy_all 0 (objs w) vs w)
      | Crash => Ok (die w Died)
      | Stty d p => Ok (set_ports w d (drv d p))
      | Plug d p =>
          let w := set_ports w d p in
          Ok (mkWorld (ports w) (stuck w) (locks w) (map (lose d) (objs w)) (life_ w))
      | Stall d b => Ok (set_stuck w d b)
      | Foreign i x d wr => Ok (match get_lock (Other i x) d wr (locks w) with Some ls => set_locks w ls | None => w end)
      | Release i x d => Ok (set_locks w (unlocked (Other i x) d (locks w)))
      end
  | _ => Ok w
  end.
Fixpoint history (w : world) (l : list op) : res world :=
  match l with
  | [] => Ok w
  | e :: l => do w <- step w e; history w l
  end.
End Line.

(** server-serial.c:340-371: the consoles so far, with the names of their devices; None: refused *)
Definition create_serial_obj (l : list (list Z * list Z)) (name dev : list Z) : option (list (list Z * list Z)) :=
  if existsb (fun o => list_eqb (fst o) name || list_eqb (snd o) dev) l then None else Some (l ++ [(name, dev)]).
Fixpoint create_all (l : list (list Z * list Z)) (defs : list (list Z * list Z)) : option (list (list Z * list Z)) :=
  match defs with
  | [] => Some l
  | (n, d) :: defs => match create_serial_obj l n d with Some l => create_all l defs | None => None end
  end.
(** the consoles before they are opened; [file]: the devices that names lead to; [junk]: the
    contents of memory *)
Definition new_obj (file : list Z -> nat) (opts : seropt) (junk : port) (x : list Z * list Z) : obj := mkObj (file (snd x)) opts false false junk.
