(** Specification vocabulary for the sessions: who reads from whom, who writes to
    whom, independent of how the links are stored and updated. *)
From Verif Require Import Base RingModel RingSpec LogModel LogSpec EscModel EscSpec SessModel.
Set Implicit Arguments.

(** Data read from [a] is passed on to [b]: [a]'s list of readers says so. *)
Definition feeds (h : heap) (a b : nat) : Prop :=
  exists o, h a = Some o /\ In b (s_readers o).
(** ... and [b]'s list of writers says so. *)
Definition fed_by (h : heap) (b a : nat) : Prop :=
  exists o, h b = Some o /\ In a (s_writers o).

Definition live (h : heap) (i : nat) : Prop := h i <> None.
Definition is_client_id (h : heap) (i : nat) : Prop := exists o, h i = Some o /\ client_b o = true.
Definition is_console_id (h : heap) (i : nat) : Prop := exists o, h i = Some o /\ console_b o = true.
Definition is_log_id (h : heap) (i : nat) : Prop := exists o, h i = Some o /\ log_b o = true.

(** The two lists agree, and no link is recorded twice. *)
Definition links_symmetric (h : heap) : Prop := forall a b, feeds h a b <-> fed_by h b a.
Definition links_once (h : heap) : Prop :=
  forall a o, h a = Some o -> NoDup (s_readers o) /\ NoDup (s_writers o).
(** Links join a client or a log file with a console, and log files never write. *)
Definition links_typed (h : heap) : Prop :=
  forall a b, feeds h a b ->
    (is_client_id h a /\ is_console_id h b) \/
    (is_console_id h a /\ (is_client_id h b \/ is_log_id h b)).

(** The environment: buffers of the declared sizes, timestamps that fit (as in
    C38), and the texts around a log replay, of which the closing one is two
    bytes shorter (server-esc.c:313, 382) and leave room for the replay. *)
Definition env_ok (E : env) : Prop :=
  1 < e_sz E /\ MINBUF <= e_sz E - 1 /\ 0 < e_rl E /\
  length (e_wbuf E) = e_sz E - 1 /\ length (e_obuf E) = e_sz E /\
  (forall i, clock_fits (e_dbg E) (e_clock E i)) /\
  (forall k, length (e_txt E (NEnd k)) + 2 = length (e_txt E (NBegin k))) /\
  (forall k, e_rl E + 2 * length (e_txt E (NBegin k)) < e_sz E).

(** What is read are bytes. *)
Definition event_ok (e : event) : Prop :=
  match e with
  | EvMux _ (Some (RdData d)) _ _ _ => bytes_ok d
  | _ => True
  end.

(** The escape commands that change between reading and writing. *)
Definition switches (x : scmd) : bool :=
  match x with SForce | SJoin | SMonitor => true | _ => false end.

(** Client [c] asks for a link in this event: its thread is setting up the
    session, or it sends one of those commands. *)
Definition asks (w : world) (e : event) (c : nat) : Prop :=
  match e with
  | EvThread t _ _ => exists x todo, nth_error (w_thr w) t = Some (TRun c (x :: todo))
  | EvMux i (Some (RdData d)) _ _ _ => i = c /\ exists o x, w_heap w i = Some o /\
      In x (stream_cmds (pre (s_esc o) d)) /\ switches x = true
  | _ => False
  end.

(** States the daemon can be in. *)
Definition reachable (E : env) (w : world) : Prop :=
  exists cs w0 es, boot E cs = Ok w0 /\ Forall event_ok es /\ run E w0 es = Ok w.

(** The consoles a request is about, and the busy ones among them. *)
Definition matching (w : world) (m : nat -> bool) (k : nat) : Prop :=
  In k (w_objs w) /\ m k = true /\ is_console_id (w_heap w) k.
Definition busy (h : heap) (k : nat) : Prop := exists o, h k = Some o /\ s_writers o <> [].

(** Object [o'] is object [o] after message [d] was queued for it: discarded if
    the object is at end of file, or if the message is informational and the
    client is in quiet mode. *)
Definition gets (E : env) (d : list Z) (info : bool) (o o' : sobj) : Prop :=
  o' = set_ring o (s_ring o') /\
  exists p, iov (e_sz E) (s_ring o) = Ok p /\
    iov (e_sz E) (s_ring o') =
      Ok (if o_eof (s_ring o) || (info && is_quiet (s_ring o)) then p else enqueue (e_sz E - 1) p d).
(** ... or after console output [d] was logged by log file [i]. *)
Definition logs (E : env) (i : nat) (d : list Z) (o o' : sobj) : Prop :=
  exists n r k, write_log_data (e_sz E) (e_dbg E) (e_clock E i) (s_lopt o) (e_wbuf E)
                  (s_ring o) (s_stamps o) d = Ok (n, r, k) /\
    o' = set_stamps (set_ring o r) k.
(** Every object of [h] is in [h'], changed as [R] says. *)
Definition all_objs (R : nat -> sobj -> sobj -> Prop) (h h' : heap) : Prop :=
  (forall i o, h i = Some o -> exists o', h' i = Some o' /\ R i o o') /\
  (forall i, h i = None -> h' i = None).

(** Thread [t] runs, and nobody else, until it has taken as many steps as there
    are entries in [ros]. *)
Definition alone (t : nat) (ros : list reopen) : list event := map (fun ro => EvThread t true ro) ros.

(** A client that is detached from every console and marked for disconnection
    once its output has been sent. *)
Definition detached (h : heap) (v : nat) : Prop :=
  exists o, h v = Some o /\ client_b o = true /\ s_readers o = [] /\ s_writers o = [] /\
    o_eof (s_ring o) = true.

(** Object [v] has been removed from the daemon, and nobody refers to it. *)
Definition removed (w : world) (v : nat) : Prop :=
  w_heap w v = None /\ ~ In v (w_objs w) /\
  forall i o, w_heap w i = Some o -> ~ In v (s_readers o) /\ ~ In v (s_writers o).

(** Client [c] sends input that switches between reading and writing. *)
Definition sends_switch (w : world) (e : event) (c : nat) : Prop :=
  match e with
  | EvMux i (Some (RdData d)) _ _ _ => i = c /\ exists o x, w_heap w i = Some o /\
      In x (stream_cmds (pre (s_esc o) d)) /\ switches x = true
  | _ => False
  end.
(** ... at some point of the history [es] that starts in [w]. *)
Fixpoint ever_switches (E : env) (c : nat) (w : world) (es : list event) : Prop :=
  match es with
  | [] => False
  | e :: es' => sends_switch w e c \/
      match step E w e with Ok r => ever_switches E c (fst r) es' | UB _ => False end
  end.

(** The situations in which an event can bring the daemon down: a client that
    has no console any more (and is not a broadcast client) asks to switch; in a
    debug build, a client asks for a log replay; a client thread goes on setting
    up a client that the main loop has already removed. *)
Definition fragile (E : env) (w : world) (e : event) : Prop :=
  match e with
  | EvMux i (Some (RdData d)) _ _ _ =>
      exists o x, w_heap w i = Some o /\ client_b o = true /\ In x (stream_cmds (pre (s_esc o) d)) /\
        ((switches x = true /\ r_bcast (s_req o) = false /\ s_writers o = []) \/
         (e_dbg E = true /\ x = SReplay))
  | EvThread t _ _ => exists c x todo, nth_error (w_thr w) t = Some (TRun c (x :: todo)) /\ w_heap w c = None
  | _ => False
  end.

(** What becomes of a request, given the consoles [sel] that match it. *)
Definition verdict (w : world) (q : req) (sel : list nat) (x : thr) : Prop :=
  let free := forall k, In k sel -> ~ busy (w_heap w) k in
  let several := 1 < length sel in
  let allowed := TGranted (mkReq (r_cmd q) (r_force q) (r_join q)
                             (r_bcast q && (1 <? length sel)) (r_quiet q)) sel in
  (sel = [] -> x = TEnd ERR_NO_CONSOLES) /\
  (sel <> [] -> r_cmd q = CmdQuery -> x = TEnd ERR_NONE) /\
  (several -> r_cmd q = CmdMonitor -> x = TEnd ERR_TOO_MANY) /\
  (several -> r_cmd q = CmdConnect -> r_bcast q = false -> x = TEnd ERR_TOO_MANY) /\
  (length sel = 1 -> r_cmd q = CmdMonitor -> x = allowed) /\
  (length sel = 1 \/ (several /\ r_bcast q = true) -> r_cmd q = CmdConnect ->
     ((r_force q = true \/ r_join q = true \/ free) -> x = allowed) /\
     (r_force q = false -> r_join q = false -> ~ free -> x = TEnd ERR_BUSY)).

(** Setting up client [c] is not finished: its thread has a link left to make. *)
Definition being_set_up (w : world) (c : nat) : Prop :=
  exists t todo k, nth_error (w_thr w) t = Some (TRun c todo) /\
    (In (ToConsole k) todo \/ In (FromConsole k) todo).

(** A history in which nobody asks for force or join, and nobody sends anything. *)
Definition unforced (e : event) : Prop :=
  match e with
  | EvAccept q _ => r_force q = false /\ r_join q = false
  | EvThread _ _ _ => True
  | _ => False
  end.

(** A suspended client whose connection is gone, with output left: the main loop
    asks for neither input nor output of its descriptor. *)
Definition lingering (w : world) (v : nat) : Prop :=
  In v (w_objs w) /\ exists o, w_heap w v = Some o /\ client_b o = true /\
    o_eof (s_ring o) = true /\ is_suspended (s_ring o) = true /\ o_open (s_ring o) = true /\
    o_in (s_ring o) <> o_out (s_ring o) /\ o_pollin (s_ring o) = false /\ o_pollout (s_ring o) = false.
