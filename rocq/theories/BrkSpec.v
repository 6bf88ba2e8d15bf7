(** What a serial break should do to a console, by the console's type. *)
From Verif Require Import Base RingModel SessModel BrkModel.
Set Implicit Arguments.

(** The bytes a console is sent: "&B" for a program; IAC BREAK (255 243) for a
    connected terminal server; nothing for the other types. *)
Definition break_bytes (p : sobj) : list Z :=
  match s_type p with
  | TyProcess => [38; 66]%Z
  | TyTelnet =>
      match s_state p with
      | StUp => if o_open (s_ring p) then [255; 243]%Z else []
      | _ => []
      end
  | _ => []
  end.

Inductive brk_call := LineBreak | BmcBreak.
(** The device calls about console [k], in order. *)
Fixpoint calls_on (k : nat) (tr : list brk_event) : list brk_call :=
  match tr with
  | [] => []
  | BLine j _ :: tr' => if j =? k then LineBreak :: calls_on k tr' else calls_on k tr'
  | BBmc j _ :: tr' => if j =? k then BmcBreak :: calls_on k tr' else calls_on k tr'
  | _ :: tr' => calls_on k tr'
  end.
(** The device calls a console should get: one for a serial line, one for a BMC
    the daemon holds a context for. *)
Definition calls_due (dev : brk_dev) (k : nat) (p : sobj) : list brk_call :=
  match s_type p with
  | TySerial => [LineBreak]
  | TyIpmi => if bd_ctx dev k then [BmcBreak] else []
  | _ => []
  end.
(** The daemon's log says how often that the break did not reach console [k]. *)
Definition warnings_on (k : nat) (tr : list brk_event) : nat :=
  length (filter (fun e => match e with BWarn j => j =? k | _ => false end) tr).
(** The break cannot reach console [k]: its line is closed or the call fails, its
    terminal server is not connected, or its BMC has no context or refuses. *)
Definition lost (dev : brk_dev) (k : nat) (p : sobj) : Prop :=
  match s_type p with
  | TySerial => o_open (s_ring p) = false \/ bd_ok dev k = false
  | TyTelnet => o_open (s_ring p) = false \/ s_state p <> StUp
  | TyIpmi => bd_ctx dev k = false \/ bd_ok dev k = false
  | _ => False
  end.
