(** What may be sent to whom: for each object of the daemon (a client or a console),
    the operations on its queue that an event of the daemon may cause. *)
From Verif Require Import Base RingModel RingSpec EscModel EscSpec TelnetModel LogModel LogSpec SessModel SessSpec FlowSpec RecSpec.
Set Implicit Arguments.

(** The commands that client [c] sends in event [e]. *)
Definition sends_cmd (w : world) (e : event) (c : nat) (y : scmd) : Prop :=
  exists d wr ro rst o, e = EvMux c (Some (RdData d)) wr ro rst /\ w_heap w c = Some o /\ client_b o = true /\
    In y (stream_cmds (pre (s_esc o) d)).
(** In event [e], what [a] says goes to [b]: [a] is linked to [b] when the event
    begins; or [a] sees the output of [b] and gets write access in this event. *)
Definition feeds_in (w : world) (e : event) (a b : nat) : Prop :=
  feeds (w_heap w) a b \/ ((exists y, sends_cmd w e a y /\ switches y = true) /\ feeds (w_heap w) b a).
(** The console a client's thread sets up the session of client [c] with. *)
Definition setting_up (w : world) (e : event) (c k : nat) : Prop :=
  exists t sent ro y todo, e = EvThread t sent ro /\ nth_error (w_thr w) t = Some (TRun c (y :: todo)) /\
    k = match y with ToConsole j | FromConsole j | CheckState j => j end.
(** Console [k] can be reopened in event [e], with these effects. *)
Definition reopens (w : world) (e : event) (k : nat) (ro : reopen) : Prop :=
  e = EvConsole k ro \/ (exists rd wr rst, e = EvMux k rd wr ro rst) \/
  (exists t sent c todo, e = EvThread t sent ro /\ nth_error (w_thr w) t = Some (TRun c (CheckState k :: todo))).

(** A message about console [k]: somebody came or left, the console was reopened or
    lost, or a client that can write to it has reset it. *)
Definition notice (E : env) (w : world) (e : event) (k : nat) (m : list Z) : Prop :=
  (exists c stolen, m = e_txt E (NArrived c k stolen)) \/
  (exists c, m = e_txt E (NDeparted c k)) \/
  (exists ro, reopens w e k ro /\ In m (ro_msgs ro)) \/
  (exists c d wr ro rst, e = EvMux c (Some (RdData d)) wr ro rst /\ sends_cmd w e c SReset /\ feeds_in w e c k /\ In m (rst k)).

(** What a command of a client puts into the stream to its consoles. *)
Definition keystroke (y : scmd) (m : list Z) : Prop :=
  match y with
  | SDel => m = [127%Z]
  | SBreak => m = [] \/ m = [38; 66]%Z \/ m = [255; 243]%Z
  | _ => False
  end.

(** The replay of the log of console [k], as the log's buffer is in [w], with
    messages about the console that the event itself logs. *)
Definition replay_of (E : env) (w : world) (e : event) (k : nat) (m : list Z) : Prop :=
  exists co l lo evs r n, w_heap w k = Some co /\ s_log co = Some l /\ w_heap w l = Some lo /\ fed_only_by (w_heap w) l k /\
    flat_map lop_bytes (lops evs) = [] /\ flushes evs = [] /\ (forall t, In (VOp (LogModel.LInfo t)) evs -> t <> [] /\ remark E k l [e] t) /\
    log_hist (e_sz E) (e_dbg E) (e_clock E l) (s_lopt lo) (fun _ => e_wbuf E) (s_ring lo) (s_stamps lo) evs = Ok (r, n, []) /\
    replay_message (e_sz E) (e_rl E) (e_dbg E) r (e_txt E (NBegin k)) (e_txt E (NEnd k)) = Ok (Some m).

Inductive due (E : env) (w : world) (e : event) (x : nat) : op -> Prop :=
| due_data i d wr ro rst o :          (* what a source says goes to whom it feeds *)
    e = EvMux i (Some (RdData d)) wr ro rst -> w_heap w i = Some o -> feeds_in w e i x ->
    due E w e x (OWrite (meant o d) false)
| due_key c y m :                     (* ... and the keys that commands stand for *)
    sends_cmd w e c y -> keystroke y m -> feeds_in w e c x -> due E w e x (OWrite m false)
| due_notice k m :                    (* messages about a console, to those linked with it *)
    notice E w e k m -> feeds_in w e k x \/ feeds_in w e x k -> due E w e x (OWrite m true)
| due_setup k m :                     (* to a new client: who else is there, and that the console is down *)
    setting_up w e x k -> (exists c stolen, m = e_txt E (NWith c k stolen)) \/ m = e_txt E (NDown k) ->
    due E w e x (OWrite m true)
| due_switch y k c stolen :           (* to a client that takes write access: who else is there *)
    sends_cmd w e x y -> switches y = true -> feeds (w_heap w) k x -> due E w e x (OWrite (e_txt E (NWith c k stolen)) true)
| due_quiet b :                       (* answers to a client's own commands *)
    sends_cmd w e x SQuiet -> due E w e x (OWrite (e_txt E (NQuiet b)) false)
| due_unlogged k :
    sends_cmd w e x SReplay -> feeds (w_heap w) k x -> due E w e x (OWrite (e_txt E (NNotLogged k)) false)
| due_replay k m :
    sends_cmd w e x SReplay -> feeds (w_heap w) k x -> replay_of E w e k m -> due E w e x (OWrite m false)
| due_answer d wr ro rst o m :        (* the daemon's answers in the telnet protocol *)
    e = EvMux x (Some (RdData d)) wr ro rst -> w_heap w x = Some o -> In m (answers o d) ->
    due E w e x (OWrite m false)
| due_greeting ro m :                 (* what a reopened console is sent first *)
    reopens w e x ro -> In m (ro_own ro) -> due E w e x (OWrite m false)
| due_flush rd rs ro rst :            (* only when the main loop comes to [x] is something sent *)
    e = EvMux x rd (Some rs) ro rst -> due E w e x (OFlush rs)
| due_eof o : w_heap w x = Some o -> client_b o = true -> due E w e x OEof
| due_end wr ro rst : e = EvMux x (Some RdEof) wr ro rst -> due E w e x OEof
| due_lost rd wr ro rst : e = EvMux x rd wr ro rst -> due E w e x OShutdown
| due_close ro : reopens w e x ro -> ro_close ro = true -> due E w e x OClose
| due_open ro : reopens w e x ro -> ro_open ro = true -> due E w e x OOpen
| due_mute : sends_cmd w e x SQuiet -> due E w e x OQuiet
| due_pause : sends_cmd w e x SSuspend -> due E w e x OSuspend.

(** The bytes that event [e] hands to [x]. *)
Definition given_to (x : nat) (e : event) (out : list Z) : list Z :=
  match e with EvMux i _ _ _ _ => if i =? x then out else [] | _ => [] end.
(** An operation that is due in some event of the history [es] from [w]. *)
Definition due_in (E : env) (w : world) (es : list event) (x : nat) (y : op) : Prop :=
  exists a e b w1, es = a ++ e :: b /\ run E w a = Ok w1 /\ due E w1 e x y.
(** An object that has just been created: nothing waits to be sent to it. *)
Definition unused (q : queue) : Prop := q_pending q = [].
