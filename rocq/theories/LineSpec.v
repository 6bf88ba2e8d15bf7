(** What the settings of a serial line mean. *)
From Verif Require Import Base Chars OptModel InstModel TermModel LineModel.
Local Open Scope Z_scope.

(** ** The frame (termios(3), c_cflag) *)
Inductive par := NoParity | Odd | Even | Mark | Space.
Definition cbit (p : port) (n : Z) : bool := Z.testbit (cflag (tio p)) n.
Definition ibit (p : port) (n : Z) : bool := Z.testbit (iflag (tio p)) n.
(** CSIZE is bits 4 and 5; CSTOPB bit 6; PARENB, PARODD and CMSPAR bits 8, 9 and 30 *)
Definition data_bits (p : port) : Z := 5 + Z.b2z (cbit p 4) + 2 * Z.b2z (cbit p 5).
Definition stop_bits (p : port) : Z := if cbit p 6 then 2 else 1.
Definition parity (p : port) : par :=
  if cbit p 8 then if cbit p 30 then (if cbit p 9 then Mark else Space) else (if cbit p 9 then Odd else Even) else NoParity.
Definition par_of (n : Z) : par := if n =? 1 then Odd else if n =? 2 then Even else NoParity.
Definition as_configured (o : seropt) (p : port) : Prop :=
  ispeed p = s_bps o /\ ospeed p = s_bps o /\ data_bits p = s_databits o /\ parity p = par_of (s_parity o) /\ stop_bits p = s_stopbits o.
(** options as parse_serial_opts() gives them (C53) *)
Definition opts_ok (o : seropt) : Prop := 0 < s_bps o /\ 5 <= s_databits o <= 8 /\ 0 <= s_parity o <= 2 /\ 1 <= s_stopbits o <= 2.

(** ** What becomes of a byte (termios(3), c_iflag and c_oflag) *)
(** that comes in: IXON is bit 10 (start and stop are [xon], [xoff]), ISTRIP 5, IUCLC 9 (with
    IEXTEN, bit 15 of c_lflag), IGNCR 7, ICRNL 8, INLCR 6, PARMRK 3 *)
Definition tty_in (xon xoff : Z) (p : port) (b : Z) : list Z :=
  if ibit p 10 && ((b =? xon) || (b =? xoff)) then []
  else
    let b := if ibit p 5 then b mod 128 else b in
    let b := if ibit p 9 && Z.testbit (lflag (tio p)) 15 then tolower b else b in
    if b =? CR then (if ibit p 7 then [] else if ibit p 8 then [LF] else [CR])
    else if b =? LF then (if ibit p 6 then [CR] else [LF])
    else if (b =? 255) && ibit p 3 then [255; 255]
    else [b].
(** that goes out: nothing but with OPOST, bit 0 *)
Definition tty_out (p : port) (b : Z) : option Z := if Z.testbit (oflag (tio p)) 0 then None else Some b.

(** ** What else may happen to the device [d] meanwhile *)
Definition not_set (d : nat) (e : op) : Prop := match e with Stty x _ => x <> d | _ => True end.
Definition puts (d : nat) (ok : port -> Prop) (e : op) : Prop := match e with Plug x p => x = d -> ok p | _ => True end.
(** no CMSPAR; none of IGNCR, INLCR and PARMRK *)
Definition plain (p : port) : Prop := cbit p 30 = false.
Definition bare (p : port) : Prop := ibit p 7 = false /\ ibit p 6 = false /\ ibit p 3 = false.
(** the device [d] of the console [c] stays, and the console is not shut down *)
Definition stays (c d : nat) (e : op) : Prop :=
  match e with
  | Open x _ v => x = c -> v = None
  | Hangup x _ _ => x <> c
  | Finish vs => nth c vs None = None
  | Stty x _ | Plug x _ => x <> d
  | _ => True
  end.

Definition opened (w : world) (c : nat) : bool := match nth_error (objs w) c with Some o => o_open o && negb (o_lost o) | None => false end.
Definition is_open (w : world) (c : nat) : bool := match nth_error (objs w) c with Some o => o_open o | None => false end.
Definition on (w : world) (c d : nat) (opts : seropt) : Prop := exists o, nth_error (objs w) c = Some o /\ o_dev o = d /\ o_opts o = opts.
(** another program can lock the device *)
Definition lockable (w : world) (d : nat) : Prop := exists id x wr, get_lock (Other id x) d wr (locks w) <> None.
