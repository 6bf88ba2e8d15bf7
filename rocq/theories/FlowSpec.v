(** What is relayed during a stretch of ordinary traffic: the main loop reads from
    and writes to clients, consoles and log files; nobody connects, disconnects or
    sends a command. *)
From Verif Require Import Base RingModel RingSpec EscModel EscSpec TelnetModel TelnetSpec TelnetProof LogModel LogSpec SessModel SessSpec.
Set Implicit Arguments.

(** A history together with the bytes handed to each object's descriptor. *)
Fixpoint outputs (E : env) (w : world) (es : list event) : res (world * list (nat * list Z)) :=
  match es with
  | [] => Ok (w, [])
  | e :: es' =>
      do r <- step E w e;
      do q <- outputs E (fst r) es';
      Ok (fst q, (match e with EvMux i _ _ _ _ => [(i, snd r)] | _ => [] end) ++ snd q)
  end.
(** All that was sent to object [x], in order. *)
Definition sent_to (x : nat) (l : list (nat * list Z)) : list Z :=
  flat_map (fun p => if fst p =? x then snd p else []) l.
(** All that was read from object [i], in order. *)
Definition heard (i : nat) (es : list event) : list Z :=
  flat_map (fun e => match e with
                     | EvMux j (Some (RdData d)) _ _ _ => if j =? i then d else []
                     | _ => []
                     end) es.

(** Ordinary traffic: an open connection that has not reached its end is read from
    or written to, without a failure; telnet consoles are connected. *)
Definition traffic (w : world) (e : event) : Prop :=
  match e with
  | EvMux i rd wr _ _ =>
      exists o, w_heap w i = Some o /\ o_open (s_ring o) = true /\ o_eof (s_ring o) = false /\
        (telnet_b o = true -> s_state o = StUp) /\
        (rd = None \/ rd = Some RdAgain \/ exists d, rd = Some (RdData d) /\ bytes_ok d) /\
        (forall rs, wr = Some rs -> ~ In WErr rs)
  | _ => False
  end.
(** No client sends a command. *)
Definition no_commands (w : world) (es : list event) : Prop :=
  forall i o, w_heap w i = Some o -> client_b o = true -> stream_cmds (pre (s_esc o) (heard i es)) = [].

(** How a source's bytes are decoded: the state of the decoder (an 0xFF without its
    successor, for clients; the telnet state, for telnet consoles), what is passed
    on, and what the daemon answers to the source itself. *)
Definition dstate := (bool * Z)%type.
Definition decode (o : sobj) (s : dstate) (d : list Z) : dstate * list Z * list (list Z) :=
  if client_b o then (dangling (pre (fst s) d), snd s, stream_data (pre (fst s) d), [])
  else if telnet_b o then
    let '(iac, dd, rs) := trun (snd s) d in (fst s, iac, dd, rs)
  else (s, d, []).
Definition dstate_of (o : sobj) : dstate := (s_esc o, s_iac o).

(** The operations on the queue of object [x] that the traffic amounts to: a
    message for each piece of decoded input of an object that feeds it, the
    daemon's own answers, and a flush for each write. *)
Fixpoint queue_ops (h : heap) (x : nat) (st : nat -> dstate) (es : list event) : list op :=
  match es with
  | [] => []
  | EvMux i rd wr _ _ :: es' =>
      match h i with
      | None => queue_ops h x st es'
      | Some o =>
          let '(s, d, own) := match rd with
                              | Some (RdData d) => decode o (st i) d
                              | _ => (st i, [], [])
                              end in
          (if x =? i then map (fun m => OWrite m false) own else []) ++
          (if mem x (s_readers o) then match d with [] => [] | _ => [OWrite d false] end else []) ++
          (if x =? i then match wr with Some rs => [OFlush rs] | None => [] end else []) ++
          queue_ops h x (fun j => if j =? i then s else st j) es'
      end
  | _ :: es' => queue_ops h x st es'
  end.
Definition ops_of (w : world) (x : nat) (es : list event) : list op :=
  queue_ops (w_heap w) x (fun i => match w_heap w i with Some o => dstate_of o | None => (false, (-1)%Z) end) es.

(** The queue of an object with [p] waiting to be sent. *)
Definition queue_of (o : sobj) (p : list Z) : queue :=
  mkQ p (o_eof (s_ring o)) (is_client (s_ring o)) (is_quiet (s_ring o)) (o_open (s_ring o)).
(** The messages among the operations. *)
Definition messages (xs : list op) : list Z :=
  flat_map (fun x => match x with OWrite d _ => d | _ => [] end) xs.

(** What a source's stream stands for. *)
Definition meant (o : sobj) (d : list Z) : list Z := snd (fst (decode o (dstate_of o) d)).
(** ... and what the daemon answers to it. *)
Definition answers (o : sobj) (d : list Z) : list (list Z) := snd (decode o (dstate_of o) d).
(** [x] is fed by [k] and nobody else. *)
Definition fed_only_by (h : heap) (x k : nat) : Prop := forall i, feeds h i x <-> i = k.

(** The same operations, on the queue of a log file: each message is console output
    to be logged. *)
Definition log_evs (xs : list op) : list lev :=
  flat_map (fun x => match x with
                     | OWrite d _ => [VOp (LData d)]
                     | OFlush rs => [VFlush rs]
                     | _ => []
                     end) xs.

(** The attempts to write to [x], with the results of write() each one meets. *)
Definition writes_to (x : nat) (es : list event) : list (list wres) :=
  flat_map (fun e => match e with
                     | EvMux i _ (Some rs) _ _ => if i =? x then [rs] else []
                     | _ => []
                     end) es.
(** At least one byte is taken, if need be after some interruptions. *)
Definition takes_some (rs : list wres) : Prop :=
  exists j n rest, rs = repeat WIntr j ++ WAccept n :: rest /\ 0 < n.
