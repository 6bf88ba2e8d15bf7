(** Model of the console log formatting: src/server-logfile.c:write_log_data and
    src/util-str.c:write_time_string, on top of the circular buffer of
    RingModel. *)
From Verif Require Import Base RingModel.
Set Implicit Arguments.

(** server.h:103-107, logfile_opt: the options that concern the formatting.
    gotProcessing (server-logfile.c:164-170) is set when one of them is. *)
Record logopts := mkLopts { lo_sanitize : bool; lo_timestamp : bool }.

Definition got_processing (p : logopts) : bool := lo_sanitize p || lo_timestamp p.

(** util-str.c:347-362, write_time_string.  [text] is what strftime produces
    for "%Y-%m-%d %H:%M:%S " at the current local time, [room] is dstlen.
    strftime stores the text and a NUL, or returns 0 when they do not fit; what
    it then leaves in the buffer is unspecified, modelled as "unchanged".
    The assert of line 360 fails only from the year 10000 on. *)
Definition write_time_string (dbg : bool) (text : list Z) (buf : list Z) (q room : nat)
  : res (list Z * nat) :=
  if room <=? 20 then Ok (buf, 0)                              (* 352 *)
  else if length text <? room then
    do b <- blit buf q (text ++ [0%Z]);
    do _ <- (match text with
             | [] => Ok tt                                     (* 357: returns 0 *)
             | _ => assert_if dbg (length text =? 20)          (* 360 *)
             end);
    Ok (b, length text)
  else Ok (buf, 0).

Definition MINBUF := 25.       (* server-logfile.c:369, minbuf *)
Definition NUL := 0%Z.
Definition CR := 13%Z.
Definition LF := 10%Z.

Section Log.
Variable SZ : nat.             (* OBJ_BUF_SIZE; the work buffer has SZ - 1 bytes *)
Variable dbg : bool.
(** The text of the [i]-th timestamp written to this log. *)
Variable clock : nat -> list Z.

(** The variables of the loop: lineState, work buffer, q - buf, the number of
    timestamps taken so far, and the messages given to write_obj_data so far. *)
Record lst := mkLst {
  l_ls : linestate;
  l_buf : list Z;
  l_q : nat;
  l_k : nat;
  l_out : list (list Z) }.

(** "if (enableTimestamp) q += write_time_string(0, q, qLast - q)",
    server-logfile.c:401-402, 412-413, 430-431 *)
Definition stamp (p : logopts) (t : lst) : res lst :=
  if lo_timestamp p then
    do r <- write_time_string dbg (clock (l_k t)) (l_buf t) (l_q t) (SZ - 1 - l_q t);
    Ok (mkLst (l_ls t) (fst r) (l_q t + snd r) (S (l_k t)) (l_out t))
  else Ok t.

(** "*q++ = c" *)
Definition emit (c : Z) (t : lst) : res lst :=
  do b <- put (l_buf t) (l_q t) c;
  Ok (mkLst (l_ls t) b (S (l_q t)) (l_k t) (l_out t)).

Definition set_ls (s : linestate) (t : lst) : lst :=
  mkLst s (l_buf t) (l_q t) (l_k t) (l_out t).

(** server-logfile.c:435-455: one data byte.  [c mod 128] is "*p & 0x7F" and
    [128 <=? c] is "*p & 0x80". *)
Definition emit_data (p : logopts) (c : Z) (t : lst) : res lst :=
  if lo_sanitize p then
    let c7 := (c mod 128)%Z in
    let meta := (128 <=? c)%Z in
    if (c7 <? 32)%Z then
      do t1 <- emit (if meta then 126 else 94)%Z t;            (* ~ ^ *)
      emit (c7 + 64)%Z t1
    else if (c7 =? 127)%Z then
      do t1 <- emit (if meta then 126 else 94)%Z t;
      emit 63%Z t1                                             (* ? *)
    else
      do t1 <- (if meta then emit 96%Z t else Ok t);           (* ` *)
      emit c7 t1
  else emit c t.

(** server-logfile.c:396-456: the newline state machine for one byte *)
Definition log_byte (p : logopts) (c : Z) (t : lst) : res lst :=
  if (c =? CR)%Z then                                          (* 396 *)
    match l_ls t with
    | LineData => Ok (set_ls LineCR t)
    | LineInit => do t1 <- stamp p t; Ok (set_ls LineCR t1)
    | _ => Ok t
    end
  else if (c =? LF)%Z then                                     (* 409 *)
    do t1 <- (match l_ls t with
              | LineInit | LineLF => stamp p t
              | _ => Ok t
              end);
    do t2 <- emit CR t1;
    do t3 <- emit LF t2;
    Ok (set_ls LineLF t3)
  else if (c =? NUL)%Z &&
          (match l_ls t with LineCR | LineLF => true | _ => false end)
  then Ok t                                                    (* 419 *)
  else                                                         (* 424 *)
    do t1 <- (match l_ls t with
              | LineCR => do a <- emit CR t; emit LF a
              | _ => Ok t
              end);
    do t2 <- (match l_ls t1 with
              | LineData => Ok t1
              | _ => stamp p t1
              end);
    emit_data p c (set_ls LineData t2).

(** write_obj_data(log, buf, q - buf, 0); q = buf *)
Definition flush (t : lst) : res lst :=
  do m <- slice (l_buf t) 0 (l_q t);
  Ok (mkLst (l_ls t) (l_buf t) 0 (l_k t) (l_out t ++ [m])).

(** server-logfile.c:388-464: the loop *)
Fixpoint log_loop (p : logopts) (src : list Z) (t : lst) : res lst :=
  match src with
  | [] => Ok t
  | c :: src' =>
      do t1 <- log_byte p c t;
      do t2 <- (if SZ - 1 - l_q t1 <? MINBUF then
                  do _ <- assert_ (l_q t1 <=? SZ - 1);         (* 460 *)
                  flush t1
                else Ok t1);
      log_loop p src' t2
  end.

(** server-logfile.c:376-467: the formatting, i.e. the messages handed to
    write_obj_data in order, the final lineState and timestamp count.  [junk] is
    the uninitialised work buffer.  (write_obj_data does not touch lineState when
    isInfo is 0, so the calls can be made afterwards.) *)
Definition log_format (p : logopts) (junk src : list Z) (ls : linestate) (k : nat)
  : res (list (list Z) * linestate * nat) :=
  do _ <- assert_ (MINBUF <=? SZ - 1);                         (* 377 *)
  if negb (got_processing p) then Ok ([src], ls, k)            (* 382 *)
  else
    do t <- log_loop p src (mkLst ls junk 0 k []);
    do _ <- assert_ (l_q t <=? SZ - 1);                        (* 465 *)
    do t' <- flush t;
    Ok (l_out t', l_ls t', l_k t').

Definition line_state (o : obj) : res linestate :=
  match o_kind o with KLogfile s => Ok s | _ => UB AssertFail end. (* 376 *)

Definition set_line (s : linestate) (o : obj) : obj :=
  mkObj (o_buf o) (o_in o) (o_out o) (o_wrap o) (o_eof o) (o_open o)
        (o_pollin o) (o_pollout o) (KLogfile s).

(** the calls of write_obj_data, adding up their results *)
Fixpoint write_msgs (o : obj) (ms : list (list Z)) : res (nat * obj) :=
  match ms with
  | [] => Ok (0, o)
  | m :: ms' =>
      do r <- write_obj_data SZ o m false;
      do r2 <- write_msgs (snd r) ms';
      Ok (fst r + fst r2, snd r2)
  end.

(** server-logfile.c:356-468, write_log_data.  The second component of the
    state is the number of timestamps taken. *)
Definition write_log_data (p : logopts) (junk : list Z) (o : obj) (k : nat) (src : list Z)
  : res (nat * obj * nat) :=
  do ls <- line_state o;
  do r <- log_format p junk src ls k;
  let '(ms, ls', k') := r in
  do w <- write_msgs o ms;
  Ok (fst w, set_line ls' (snd w), k').

(** What happens to a console's log: output of the console is logged (one
    read of the console), or an informational message is written into it, which
    re-initialises the line state (server-obj.c:1071-1073). *)
Inductive lop := LData (d : list Z) | LInfo (m : list Z).

(** The messages and the state after a sequence of these.  Each call may find a
    different uninitialised buffer. *)
Fixpoint log_run (p : logopts) (junk : nat -> list Z) (ls : linestate) (k : nat) (xs : list lop)
  : res (list (list Z) * linestate * nat) :=
  match xs with
  | [] => Ok ([], ls, k)
  | LData d :: xs' =>
      do r <- log_format p (junk (length xs)) d ls k;
      let '(ms, ls1, k1) := r in
      do r2 <- log_run p junk ls1 k1 xs';
      let '(ms2, ls2, k2) := r2 in
      Ok (ms ++ ms2, ls2, k2)
  | LInfo m :: xs' =>
      do r2 <- log_run p junk LineInit k xs';
      let '(ms2, ls2, k2) := r2 in
      Ok (m :: ms2, ls2, k2)
  end.

(** What happens to the log file's object: the above, or a flush of its buffer
    that meets the given results of write(). *)
Inductive lev := VOp (x : lop) | VFlush (rs : list wres).
Definition lops (es : list lev) : list lop :=
  flat_map (fun e => match e with VOp x => [x] | VFlush _ => [] end) es.

(** The object, the number of timestamps taken and the bytes written to the
    file, after a sequence of these. *)
Fixpoint log_hist (p : logopts) (junk : nat -> list Z) (o : obj) (k : nat) (es : list lev)
  : res (obj * nat * list Z) :=
  match es with
  | [] => Ok (o, k, [])
  | VOp (LData d) :: es' =>
      do r <- write_log_data p (junk (length (lops es))) o k d;
      let '(_, o1, k1) := r in
      log_hist p junk o1 k1 es'
  | VOp (LInfo m) :: es' =>
      do r <- write_obj_data SZ o m true;
      log_hist p junk (snd r) k es'
  | VFlush rs :: es' =>
      do r <- write_to_obj SZ o rs;
      let '(sent, _, o1) := r in
      do r2 <- log_hist p junk o1 k es';
      let '(o2, k2, sent2) := r2 in
      Ok (o2, k2, sent ++ sent2)
  end.

End Log.
