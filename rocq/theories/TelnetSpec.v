(** The telnet protocol (RFC 854/855), written independently of the daemon. *)
From Verif Require Import Base.
Local Open Scope Z_scope.

Inductive tev := TData (b : Z) | TNeg (c o : Z) | TCmd (c : Z).

(** Receiver: data, after IAC, after IAC DO/DONT/WILL/WONT, inside a
    subnegotiation, after IAC inside a subnegotiation. *)
Inductive tst := RData | RIac | ROpt (c : Z) | RSub | RSubIac.

Definition rfc_step (s : tst) (b : Z) : tst * list tev :=
  match s with
  | RData => if b =? 255 then (RIac, []) else (RData, [TData b])
  | RIac =>
      if b =? 255 then (RData, [TData 255])
      else if (251 <=? b) && (b <=? 254) then (ROpt b, [])
      else if b =? 250 then (RSub, [])
      else (RData, [TCmd b])
  | ROpt c => (RData, [TNeg c b])
  | RSub => if b =? 255 then (RSubIac, []) else (RSub, [])
  | RSubIac => if b =? 240 then (RData, []) else (RSub, [])
  end.

Fixpoint rfc_run (s : tst) (l : list Z) : tst * list tev :=
  match l with
  | [] => (s, [])
  | b :: t =>
      let '(s1, e1) := rfc_step s b in
      let '(s2, e2) := rfc_run s1 t in (s2, e1 ++ e2)
  end.

Definition ev_data (e : tev) : list Z := match e with TData b => [b] | _ => [] end.
Definition rfc_data (l : list Z) : list Z := flat_map ev_data (snd (rfc_run RData l)).
Definition rfc_events (l : list Z) : list tev := snd (rfc_run RData l).

(** A sender: what a telnet peer may want to say, and how it is put on the wire. *)
Inductive seg :=
| GData (d : list Z)
| GNeg (c o : Z)            (* 251 WILL, 252 WONT, 253 DO, 254 DONT *)
| GCmd (c : Z)
| GSub (payload : list Z).

Definition dbl (b : Z) : list Z := if b =? 255 then [255; 255] else [b].

Definition wire (g : seg) : list Z :=
  match g with
  | GData d => flat_map dbl d
  | GNeg c o => [255; c; o]
  | GCmd c => [255; c]
  | GSub p => [255; 250] ++ flat_map dbl p ++ [255; 240]
  end.

Definition seg_ok (g : seg) : Prop :=
  match g with
  | GNeg c _ => 251 <= c <= 254
  | GCmd c => 0 <= c < 250 /\ c <> 240
  | _ => True
  end.

Definition seg_data (g : seg) : list Z := match g with GData d => d | _ => [] end.

(** Options the daemon accepts: it may use BINARY (0) and SGA (3) itself, and the
    peer may use BINARY (0), ECHO (1) and SGA (3). *)
Definition we_support (o : Z) : bool := (o =? 0) || (o =? 3).
Definition peer_may (o : Z) : bool := (o =? 0) || (o =? 1) || (o =? 3).

(** The refusal due for a request, if any. *)
Definition refusal (c o : Z) : list (list Z) :=
  match c with
  | 253 => if we_support o then [] else [[255; 252; o]]      (* DO -> WONT *)
  | 251 => if peer_may o then [] else [[255; 254; o]]        (* WILL -> DONT *)
  | _ => []
  end.
Definition ev_reply (e : tev) : list (list Z) :=
  match e with TNeg c o => refusal c o | _ => [] end.
Definition seg_reply (g : seg) : list (list Z) :=
  match g with GNeg c o => refusal c o | _ => [] end.

(** In every subnegotiation, the only IAC is the one of the final IAC SE. *)
Fixpoint plain_subs (s : tst) (l : list Z) : Prop :=
  match l with
  | [] => True
  | b :: t => (s = RSubIac -> b = 240) /\ plain_subs (fst (rfc_step s b)) t
  end.
Definition plain_sub_seg (g : seg) : Prop :=
  match g with GSub p => ~ In 255 p | _ => True end.

(** Values the daemon's protocol state can take: none, or the last byte seen of an
    unfinished sequence (250 SB .. 255 IAC). *)
Definition iac_ok (iac : Z) : Prop := iac = -1 \/ 250 <= iac <= 255.
