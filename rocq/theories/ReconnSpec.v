(** Specification of reconnecting: what the log of observable effects of a daemon
    must look like.  Logs are newest first; times are in milliseconds. *)
From Verif Require Import Base ReconnModel.
Set Implicit Arguments.
Open Scope Z_scope.

(** How long a connection must last before the back-off starts afresh, and the
    smallest and largest delay between attempts, in seconds. *)
Definition need (k : kind) : Z :=
  match k with Telnet => 15 | Process => 60 | Unixsock => 60 | Ipmi => 60 | Serial => 0 end.
Definition dmin (k : kind) : Z :=
  match k with Telnet => 15 | Process => 60 | Unixsock => 1 | Ipmi => 60 | Serial => 0 end.
Definition dmax (k : kind) : Z :=
  match k with Telnet => 1800 | Process => 1800 | Unixsock => 60 | Ipmi => 1800 | Serial => 0 end.

(** Why the back-off of a console last started afresh. *)
Inductive fresh := AtStart | AfterStable | OnDemand.

(** The delay before the retry after [n] earlier failures in a row. *)
Definition doubled (k : kind) (n : nat) : Z := 1000 * Z.min (dmin k * 2 ^ Z.of_nat n) (dmax k).
Definition delay_after (k : kind) (f : fresh) (n : nat) : Z :=
  match k, f, n with
  | Telnet, AfterStable, O => 0
  | Telnet, AfterStable, S m => doubled k m
  | Process, AfterStable, O => 0
  | Process, AfterStable, S m => doubled k m
  | _, _, _ => doubled k n
  end.

(** The last fresh start of console [c]'s back-off and the number of failures
    since. *)
Fixpoint since (c : nat) (l : list (Z * effect)) : fresh * nat :=
  match l with
  | [] => (AtStart, 0%nat)
  | (_, Retry c' _) :: l =>
      if (c' =? c)%nat then let (f, n) := since c l in (f, S n) else since c l
  | (_, Stable c') :: l => if (c' =? c)%nat then (AfterStable, 0%nat) else since c l
  | (_, Asked c') :: l => if (c' =? c)%nat then (OnDemand, 0%nat) else since c l
  | _ :: l => since c l
  end.

(** The last message about console [c]: when, and whether it was "connected". *)
Fixpoint last_notice (c : nat) (l : list (Z * effect)) : option (Z * bool) :=
  match l with
  | [] => None
  | (t, Came_up c') :: l => if (c' =? c)%nat then Some (t, true) else last_notice c l
  | (t, Went_down c') :: l => if (c' =? c)%nat then Some (t, false) else last_notice c l
  | _ :: l => last_notice c l
  end.

(** The connection of [c] that was last announced has been declared to last. *)
Fixpoint steady (c : nat) (l : list (Z * effect)) : bool :=
  match l with
  | [] => false
  | (_, Stable c') :: l => if (c' =? c)%nat then true else steady c l
  | (_, Came_up c') :: l | (_, Went_down c') :: l => if (c' =? c)%nat then false else steady c l
  | _ :: l => steady c l
  end.

(** When the next attempt for [c] was last scheduled, and how far ahead. *)
Fixpoint scheduled (c : nat) (l : list (Z * effect)) : option (Z * Z) :=
  match l with
  | [] => None
  | (t, Retry c' ms) :: l => if (c' =? c)%nat then Some (t, ms) else scheduled c l
  | (t, Unresolved c') :: l => if (c' =? c)%nat then Some (t, 1800 * 1000) else scheduled c l
  | (t, Waiting c') :: l => if (c' =? c)%nat then Some (t, 300 * 1000) else scheduled c l
  | _ :: l => scheduled c l
  end.

(** The child started for [c] and not yet killed. *)
Fixpoint child (c : nat) (l : list (Z * effect)) : option Z :=
  match l with
  | [] => None
  | (_, Forked c' p) :: l => if (c' =? c)%nat then Some p else child c l
  | (_, Killed c' _) :: l => if (c' =? c)%nat then None else child c l
  | _ :: l => child c l
  end.

(** the console an effect is about *)
Definition about (e : effect) : nat :=
  match e with
  | Try c | Came_up c | Went_down c | Retry c _ | Unresolved c | Waiting c
  | Stable c | Asked c | Forked c _ | Killed c _ => c
  end.

(** Each effect is justified by what went before. *)
Definition justified (ks : list kind) (t : Z) (e : effect) (older : list (Z * effect)) : Prop :=
  forall k, nth_error ks (about e) = Some k ->
  match e with
  | Retry c ms => ms = let (f, n) := since c older in delay_after k f n
  | Stable c => exists t0, last_notice c older = Some (t0, true) /\ t0 + need k * 1000 <= t
  | Came_up c => k <> Serial ->
      match last_notice c older with Some (_, true) => False | _ => True end
  | Went_down c => k <> Serial -> exists t0, last_notice c older = Some (t0, true)
  | Forked c p => 0 < p /\ child c older = None
  | Killed c p => child c older = Some p
  | _ => True
  end.

(** results of system calls that the kernel can give: new descriptors and
    process numbers are not negative *)
Definition orc_ok (o : orc) : Prop := 0 <= o_fd o /\ 0 < o_pid o.

(** events about consoles that exist *)
Definition event_ok (n : nat) (e : event) : Prop :=
  match e with
  | Tick _ => True
  | Fire _ o => orc_ok o
  | Hangup c o mid => (c < n)%nat /\ orc_ok o /\ Forall orc_ok mid
  | Writable c o | Client c o | Created c o | Engine c o => (c < n)%nat /\ orc_ok o
  end.

(** socket() does not fail *)
Definition sockets_left (e : event) : Prop :=
  match e with
  | Tick _ => True
  | Fire _ o | Hangup _ o _ | Writable _ o | Client _ o | Created _ o | Engine _ o =>
      o_sock o = true
  end.

(** a daemon with consoles [map fst ks] that was started and ran through [es] *)
Definition reached (start : Z) (ks : list (kind * orc)) (es : list event) (w : world) : Prop :=
  Forall (fun k => orc_ok (snd k)) ks /\ Forall (event_ok (length ks)) es
  /\ exists w0, boot start ks = Ok w0 /\ run es w0 = Ok w.

(** a pending timer that will try to connect console [c] *)
Definition retry_pending (w : world) (c : nat) (t : timer) : Prop :=
  In t (w_timers w) /\ t_con t = c /\ t_cb t = Reconnect.

(** events that may begin an attempt to connect console [c] of kind [k] at once:
    a client connecting, the creation of its socket file, the IPMI library, or,
    for serial and IPMI consoles, the loss of the connection *)
Definition prompts (k : kind) (c : nat) (e : event) : Prop :=
  match e with
  | Client c' _ => c' = c
  | Created c' _ => c' = c /\ k = Unixsock
  | Engine c' _ => c' = c /\ k = Ipmi
  | Hangup c' _ _ => c' = c /\ (k = Ipmi \/ k = Serial)
  | _ => False
  end.

(** any event addressed to console [c] *)
Definition addressed (c : nat) (e : event) : Prop :=
  match e with
  | Tick _ | Fire _ _ => False
  | Hangup c' _ _ | Writable c' _ | Client c' _ | Created c' _ | Engine c' _ => c' = c
  end.

(** a client connecting to console [c] *)
Definition client_of (c : nat) (e : event) : Prop :=
  match e with Client c' _ => c' = c | _ => False end.

(** how often console [c] was tried, and how often its back-off was used *)
Fixpoint tries (c : nat) (l : list (Z * effect)) : nat :=
  match l with
  | [] => 0
  | (_, Try c') :: l => if (c' =? c)%nat then S (tries c l) else tries c l
  | _ :: l => tries c l
  end.
Fixpoint retries (c : nat) (l : list (Z * effect)) : nat :=
  match l with
  | [] => 0
  | (_, Retry c' _) :: l => if (c' =? c)%nat then S (retries c l) else retries c l
  | _ :: l => retries c l
  end.
(** ... and how often it was announced to be connected *)
Fixpoint ups (c : nat) (l : list (Z * effect)) : nat :=
  match l with
  | [] => 0
  | (_, Came_up c') :: l => if (c' =? c)%nat then S (ups c l) else ups c l
  | _ :: l => ups c l
  end.

(** the results of system calls that come with an event *)
Definition results (e : event) : list orc :=
  match e with
  | Tick _ => []
  | Fire _ o | Writable _ o | Client _ o | Created _ o | Engine _ o => [o]
  | Hangup _ o mid => o :: mid
  end.
(** These results make a connection for a console in the state [d]: its host is known, and
    connect() is done at once, or ends well later; its program is there and started; its socket
    is there and connected; the IPMI session is established; the device is opened and locked. *)
Definition made (d : dev) (o : orc) : Prop :=
  match d_kind d with
  | Telnet => (d_st d = Pending /\ o_sockerr o = false) \/ (d_st d = Down /\ o_name o = true /\ o_sock o = true /\ o_conn o = CDone)
  | Process => o_dev o = true /\ o_sock o = true /\ o_fork o = true
  | Unixsock => o_dev o = true /\ o_sock o = true /\ o_conn o = CDone
  | Ipmi => o_sockerr o = false
  | Serial => o_dev o = true
  end.

(** how often console [c]'s back-off was started afresh on demand, and how often this was asked
    for: by a client of a telnet console, or by the creation of a socket file *)
Fixpoint asked (c : nat) (l : list (Z * effect)) : nat :=
  match l with
  | [] => 0
  | (_, Asked c') :: l => if (c' =? c)%nat then S (asked c l) else asked c l
  | _ :: l => asked c l
  end.
Fixpoint asks (c : nat) (es : list event) : nat :=
  match es with
  | [] => 0
  | Client c' _ :: es | Created c' _ :: es => if (c' =? c)%nat then S (asks c es) else asks c es
  | _ :: es => asks c es
  end.
