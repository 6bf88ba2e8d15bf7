(** Model of what a serial break does to the devices (src/server-esc.c,
    src/server-ipmi.c), beside what it puts into the buffers (SessModel).

    Simplifications.  Whether tcsendbreak(3) and ipmiconsole_ctx_generate_break
    succeed, and whether an IPMI console has a context, are supplied by the
    environment.  How long a call takes is not modelled. *)
From Verif Require Import Base RingModel LogModel TelnetModel EscModel SessModel.
Set Implicit Arguments.

(** What happens outside the buffers, in order. *)
Inductive brk_event :=
| BLine (k : nat) (done : bool)      (* tcsendbreak on the line of console k *)
| BBmc (k : nat) (done : bool)       (* ipmiconsole_ctx_generate_break *)
| BNoCtx (k : nat)                   (* LOG_ERR, server-ipmi.c:1110 *)
| BWarn (k : nat).                   (* LOG_WARNING, server-esc.c:168, 175, 183 *)

(** Which device calls succeed, and which IPMI consoles have a context. *)
Record brk_dev := mkBrkDev { bd_ok : nat -> bool; bd_ctx : nat -> bool }.

Section Brk.
Variable E : env.
Variable dev : brk_dev.

(** server-ipmi.c:1099-1120, send_ipmi_break: the calls made, and whether the
    result is 0 *)
Definition send_ipmi_break (k : nat) : list brk_event * bool :=
  if bd_ctx dev k then ([BBmc k (bd_ok dev k)], bd_ok dev k) else ([BNoCtx k], false).

Definition warn_unless (ok : bool) (k : nat) : list brk_event := if ok then [] else [BWarn k].

(** server-esc.c:147-191, the body of perform_serial_break's loop.  A closed line
    has fd -1, on which tcsendbreak fails.  send_telnet_cmd writes nothing when the
    connection is not up: the buffer is given no bytes, which changes nothing. *)
Definition break_dev (h : heap) (k : nat) : res (heap * list brk_event) :=
  do o <- at_ h k;
  match s_type o with
  | TyProcess => do h1 <- put_data E h k [38; 66]%Z false; Ok (h1, [])      (* 159-163 *)
  | TySerial =>                                                             (* 165 *)
      let ok := o_open (s_ring o) && bd_ok dev k in
      Ok (h, BLine k ok :: warn_unless ok k)
  | TyTelnet =>                                                             (* 171 *)
      let up := o_open (s_ring o) && state_up o in
      do h1 <- put_data E h k (break_to_telnet up) false;
      Ok (h1, match send_telnet_cmd up BREAK (-1) with Some _ => [] | None => [BWarn k] end)
  | TyIpmi =>                                                               (* 179 *)
      let (ev, ok) := send_ipmi_break k in Ok (h, ev ++ warn_unless ok k)
  | TyUnixsock | TyTest => Ok (h, [])                                       (* 189 *)
  end.

Fixpoint break_all (h : heap) (l : list nat) : res (heap * list brk_event) :=
  match l with
  | [] => Ok (h, [])
  | k :: l' =>
      do r <- break_dev h k;
      do s <- break_all (fst r) l';
      Ok (fst s, snd r ++ snd s)
  end.

(** server-esc.c:136-195, perform_serial_break *)
Definition perform_serial_break (h : heap) (c : nat) : res (heap * list brk_event) :=
  do o <- at_ h c; break_all h (s_readers o).
End Brk.
