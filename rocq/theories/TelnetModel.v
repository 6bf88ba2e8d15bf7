(** Model of the telnet protocol engine, src/server-telnet.c. *)
From Verif Require Import Base.
Local Open Scope Z_scope.

(** arpa/telnet.h (system header) *)
Definition IAC := 255.
Definition DONT := 254.
Definition DO := 253.
Definition WONT := 252.
Definition WILL := 251.
Definition SB := 250.
Definition BREAK := 243.
Definition SE := 240.
Definition TELCMD_FIRST := 236.
Definition TELOPT_BINARY := 0.
Definition TELOPT_ECHO := 1.
Definition TELOPT_SGA := 3.

Definition telcmd_ok (c : Z) : bool := (TELCMD_FIRST <=? c) && (c <=? IAC).

(** server-telnet.c:447-499, send_telnet_cmd: the bytes given to write_obj_data,
    [None] when nothing is sent.  [up]: fd open and state UP.  The 3-byte buffer
    always suffices. *)
Definition send_telnet_cmd (up : bool) (cmd opt : Z) : option (list Z) :=
  if negb up then None
  else if negb (telcmd_ok cmd) then None
  else if (cmd =? DONT) || (cmd =? DO) || (cmd =? WONT) || (cmd =? WILL)
       then Some [IAC; cmd; opt]
       else Some [IAC; cmd].

Definition opt_list {A} (o : option A) : list A := match o with Some x => [x] | None => [] end.

(** server-telnet.c:502-580, process_telnet_cmd: replies queued.  Logging is not
    modelled.  Called only in state UP (assert 511). *)
Definition process_telnet_cmd (cmd opt : Z) : list (list Z) :=
  if negb (telcmd_ok cmd) then []
  else if cmd =? DONT then []
  else if cmd =? DO then
    if negb (opt =? TELOPT_BINARY) && negb (opt =? TELOPT_SGA)
    then opt_list (send_telnet_cmd true WONT opt) else []
  else if cmd =? WONT then []
  else if cmd =? WILL then
    if negb (opt =? TELOPT_BINARY) && negb (opt =? TELOPT_ECHO) && negb (opt =? TELOPT_SGA)
    then opt_list (send_telnet_cmd true DONT opt) else []
  else [].

(** server-telnet.c:380-438: the loop.  [n] bytes left, [p]/[q] read and write
    position in the same buffer, [iac] is aux.telnet.iac (-1, IAC, DONT, DO, WONT,
    WILL or SB).  Returns the buffer, the final [q], iac and the replies. *)
Fixpoint tel_loop (n : nat) (buf : list Z) (p q : nat) (iac : Z)
  : res (list Z * nat * Z * list (list Z)) :=
  match n with
  | O => Ok (buf, q, iac, [])
  | S n' =>
      do c <- get buf p;
      if iac =? -1 then                                            (* 382 *)
        if c =? IAC then tel_loop n' buf (S p) q c
        else do b1 <- put buf q c; tel_loop n' b1 (S p) (S q) iac
      else if iac =? IAC then                                      (* 388 *)
        if c =? IAC then
          do b1 <- put buf q c; tel_loop n' b1 (S p) (S q) (-1)
        else if (c =? DONT) || (c =? DO) || (c =? WONT) || (c =? WILL) || (c =? SB) then
          tel_loop n' buf (S p) q c
        else if c =? SE then tel_loop n' buf (S p) q (-1)
        else
          do r <- tel_loop n' buf (S p) q (-1);
          let '(b, q', i, rs) := r in Ok (b, q', i, process_telnet_cmd c (-1) ++ rs)
      else if (iac =? DONT) || (iac =? DO) || (iac =? WONT) || (iac =? WILL) then  (* 414 *)
        do r <- tel_loop n' buf (S p) q (-1);
        let '(b, q', i, rs) := r in Ok (b, q', i, process_telnet_cmd iac c ++ rs)
      else if iac =? SB then                                       (* 424 *)
        tel_loop n' buf (S p) q (if c =? IAC then c else iac)
      else UB Fatal                                                (* 433 *)
  end.

(** server-telnet.c:362-444, process_telnet_escapes *)
Definition process_telnet_escapes (iac : Z) (src : list Z)
  : res (list Z * Z * list (list Z)) :=
  do r <- tel_loop (length src) src 0 0 iac;
  let '(b, q, i, rs) := r in
  do d <- slice b 0 q;
  Ok (d, i, rs).

(** Successive reads from the console (server-obj.c:926-955): data passed to the
    readers and replies, both in order. *)
Fixpoint tel_read_all (iac : Z) (chunks : list (list Z))
  : res (Z * list Z * list (list Z)) :=
  match chunks with
  | [] => Ok (iac, [], [])
  | c :: cs =>
      do r <- process_telnet_escapes iac c;
      let '(d, i, rs) := r in
      do r2 <- tel_read_all i cs;
      let '(i2, d2, rs2) := r2 in
      Ok (i2, d ++ d2, rs ++ rs2)
  end.

(** server-telnet.c:138: the state of a new telnet object *)
Definition iac_init := -1.

(** server-telnet.c:177-340: neither connect_telnet_obj nor disconnect_telnet_obj
    assigns aux.telnet.iac. *)
Definition iac_reconnect (iac : Z) : Z := iac.

(** server-telnet.c:287-291: announcements on connection *)
Definition connect_cmds : list (list Z) :=
  opt_list (send_telnet_cmd true DO TELOPT_BINARY) ++
  opt_list (send_telnet_cmd true DO TELOPT_ECHO) ++
  opt_list (send_telnet_cmd true DO TELOPT_SGA) ++
  opt_list (send_telnet_cmd true WILL TELOPT_BINARY) ++
  opt_list (send_telnet_cmd true WILL TELOPT_SGA).

(** server-obj.c:943-953: what a telnet console is sent for [d] bytes of client
    data: write_obj_data copies them as they are. *)
Definition data_to_telnet (d : list Z) : list Z := d.
(** server-esc.c:173-174: a serial break *)
Definition break_to_telnet (up : bool) : list Z :=
  concat (opt_list (send_telnet_cmd up BREAK (-1))).
