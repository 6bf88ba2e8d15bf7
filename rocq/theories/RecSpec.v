(** What a console's log should hold at the end of any history of the daemon:
    clients come and go, steal, join and monitor consoles, send commands; consoles
    fail and are reopened; other logs are reopened. *)
From Verif Require Import Base RingModel RingSpec TelnetModel LogModel LogSpec SessModel SessSpec FlowSpec.
Set Implicit Arguments.

(** The file of log [x] stays what it is: it is not reopened, and nothing but
    writing is done to it, without a failure. *)
Definition undisturbed (x : nat) (e : event) : Prop :=
  match e with
  | EvMux i rd wr _ _ => i = x -> rd = None /\ (forall rs, wr = Some rs -> ~ In WErr rs)
  | EvLogOpen l _ _ => l <> x
  | _ => True
  end.

(** What console [k] says in event [e]: what is read from it while it is open (and,
    if it is a telnet console, connected), without the telnet protocol. *)
Definition says (w : world) (k : nat) (e : event) : list Z :=
  match e with
  | EvMux i (Some (RdData d)) _ _ _ =>
      if i =? k then
        match w_heap w k with
        | Some o => if o_open (s_ring o) && (negb (telnet_b o) || state_up o) then meant o d else []
        | None => []
        end
      else []
  | _ => []
  end.
(** ... and in a history. *)
Fixpoint said (E : env) (k : nat) (w : world) (es : list event) : list Z :=
  match es with
  | [] => []
  | e :: es' => says w k e ++ match step E w e with Ok r => said E k (fst r) es' | UB _ => [] end
  end.

(** A message that the history [es] can put into the log [x] of console [k]:
    somebody came to the console or left it; the console was reopened or its
    connection lost; it was reset; or the log's own periodic timestamp. *)
Definition remark (E : env) (k x : nat) (es : list event) (m : list Z) : Prop :=
  (exists c stolen, m = e_txt E (NArrived c k stolen)) \/
  (exists c, m = e_txt E (NDeparted c k)) \/
  exists e, In e es /\
    match e with
    | EvThread _ _ ro => In m (ro_msgs ro)
    | EvConsole i ro => i = k /\ In m (ro_msgs ro)
    | EvMux i _ _ ro rst => (i = k /\ In m (ro_msgs ro)) \/ In m (rst k)
    | EvLogMsg l m' => l = x /\ m = m'
    | _ => False
    end.

(** The writes of a log's history. *)
Definition flushes (es : list lev) : list (list wres) :=
  flat_map (fun e => match e with VFlush rs => [rs] | _ => [] end) es.
(** The log's text, with neither sanitizing nor timestamps. *)
Definition plain (xs : list lop) : list Z :=
  flat_map (fun x => match x with LData d => d | LInfo m => m end) xs.

(** The text of a log with options [p], starting at a new line, for the console
    output and the messages [xs]; [n] timestamps were taken before. *)
Definition log_text (p : logopts) (clock : nat -> list Z) (n : nat) (xs : list lop) (text : list Z) : Prop :=
  if lo_sanitize p || lo_timestamp p then log_of (show_of p) (stamp_of p clock) n xs text else text = plain xs.
