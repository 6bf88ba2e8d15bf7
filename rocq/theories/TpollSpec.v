(** What a user of tpoll relies on, in terms of the calls made, their results and
    what tpoll() was seen to do.  Times are counted in microseconds. *)
From Verif Require Import Base TpollModel.
Open Scope Z_scope.

Definition us (tv : timeval) : Z := tv_sec tv * 1000000 + tv_usec tv.

(** a normalised time *)
Definition tv_ok (tv : timeval) : Prop := 0 <= tv_usec tv < 1000000.

(** ** Timers *)

Record ptimer := mkP { d_id : Z; d_fnc : Z; d_arg : Z; d_due : Z }.

(** The timers pending after some events, in the order they were set. *)
Definition pend1 (l : list ptimer) (e : event) : list ptimer :=
  match e with
  | ECall (CAbsolute f a tv) rc => if 0 <? rc then l ++ [mkP rc f a (us tv)] else l
  | ECall (CRelative f a ms clk) rc =>
      if 0 <? rc then l ++ [mkP rc f a (us clk + 1000 * Z.max 0 ms)] else l
  | ECall (CCancel id) _ => filter (fun p => negb (d_id p =? id)) l
  | EFire id _ _ => filter (fun p => negb (d_id p =? id)) l
  | ECall (CZero how) rc => if (rc =? 0) && Z.testbit how 1 then [] else l
  | _ => l
  end.
Definition pending (es : list event) : list ptimer := fold_left pend1 es [].

(** the event sets the timer *)
Definition setting (p : ptimer) (e : event) : Prop :=
  match e with
  | ECall (CAbsolute f a tv) rc => p = mkP rc f a (us tv) /\ 0 < rc
  | ECall (CRelative f a ms clk) rc => p = mkP rc f a (us clk + 1000 * Z.max 0 ms) /\ 0 < rc
  | _ => False
  end.
(** the event ends the timer with this id *)
Definition ending (id : Z) (e : event) : Prop :=
  match e with
  | ECall (CCancel i) _ => i = id
  | EFire i _ _ => i = id
  | ECall (CZero how) rc => rc = 0 /\ Z.testbit how 1 = true
  | _ => False
  end.

(** the highest timer id given since tpoll_zero() last reset the timers *)
Definition highest1 (h : Z) (e : event) : Z :=
  match e with
  | ECall (CAbsolute _ _ _) rc | ECall (CRelative _ _ _ _) rc => Z.max h rc
  | ECall (CZero how) rc => if (rc =? 0) && Z.testbit how 1 then 0 else h
  | _ => h
  end.
Definition highest (es : list event) : Z := fold_left highest1 es 0.

(** the last time tpoll() read the clock *)
Definition clock1 (c : option Z) (e : event) : option Z :=
  match e with EClock tv => Some (us tv) | _ => c end.
Definition last_clock (es : list event) : option Z := fold_left clock1 es None.

(** has it read the clock since poll() last returned?  (A result that is dropped
    counts for nothing.) *)
Definition fresh1 (b : bool) (e : event) : bool :=
  match e with
  | EClock _ | ERetry => true
  | EPolled _ | EPollErr => false
  | _ => b
  end.
Definition fresh (es : list event) : bool := fold_left fresh1 es false.

(** the last call of tpoll(): its timeout in ms and the time it ends *)
Definition called1 (c : option (Z * Z)) (e : event) : option (Z * Z) :=
  match e with EEnter ms clk => Some (ms, us clk + 1000 * ms) | _ => c end.
Definition called (es : list event) : option (Z * Z) := fold_left called1 es None.

(** A timer fires only when it is pending and due, before every timer that is
    due later, and among those due at the same time in the order they were set. *)
Definition fire_ok (past : list event) (e : event) : Prop :=
  match e with
  | EFire id f a =>
      exists before after due now,
        pending past = before ++ mkP id f a due :: after /\
        last_clock past = Some now /\ due <= now /\
        Forall (fun p => due < d_due p) before /\
        Forall (fun p => due <= d_due p) after
  | _ => True
  end.

(** Setting a timer gives an id that no pending timer has; cancelling tells
    whether there was such a timer. *)
Definition id_ok (past : list event) (e : event) : Prop :=
  match e with
  | ECall (CAbsolute f _ _) rc | ECall (CRelative f _ _ _) rc =>
      if f =? 0 then rc = -1
      else 0 < rc /\ ~ In rc (map d_id (pending past))
  | ECall (CCancel id) rc =>
      (id <= 0 -> rc = -1) /\
      (0 < id -> (rc = 1 <-> In id (map d_id (pending past))) /\ (rc = 1 \/ rc = 0))
  | _ => True
  end.

(** ids are not used again before tpoll_zero() *)
Definition new_id (past : list event) (e : event) : Prop :=
  match e with
  | ECall (CAbsolute f _ _) rc | ECall (CRelative f _ _ _) rc => f = 0 \/ highest past < rc
  | _ => True
  end.

(** 24.8 days, in microseconds: what a difference in milliseconds can express in
    an int *)
Definition HORIZON : Z := 2147483646 * 1000.

(** ** Descriptors *)

Definition upd (f : Z -> Z) (x v : Z) : Z -> Z := fun y => if y =? x then v else f y.

(** The events wanted for each descriptor after some calls. *)
Definition interest1 (f : Z -> Z) (e : event) : Z -> Z :=
  match e with
  | ECall (CSet fd ev _) rc => if rc =? 0 then upd f fd (Z.lor (f fd) ev) else f
  | ECall (CClear fd ev) rc => if rc =? 0 then upd f fd (Z.land (f fd) (Z.lnot ev)) else f
  | ECall (CZero how) rc => if (rc =? 0) && Z.testbit how 0 then (fun _ => 0) else f
  | _ => f
  end.
Definition interest (es : list event) : Z -> Z := fold_left interest1 es (fun _ => 0).

Fixpoint lookup (fd : Z) (l : list (Z * Z)) : option Z :=
  match l with
  | [] => None
  | (x, r) :: l => if x =? fd then Some r else lookup fd l
  end.

(** The events last returned for each descriptor of the interest set. *)
Definition ready1 (f : (Z -> Z) * (Z -> Z)) (e : event) : (Z -> Z) * (Z -> Z) :=
  let i := interest1 (fst f) e in
  (i, fun fd =>
        if i fd =? 0 then 0
        else match e with
             | EPolled l => match lookup fd l with Some r => r | None => snd f fd end
             | _ => snd f fd
             end).
Definition ready (es : list event) : Z -> Z :=
  snd (fold_left ready1 es (fun _ => 0, fun _ => 0)).

(** poll() is given exactly the interest set, and the pipe used for waking up *)
Definition poll_ok (pipe : nat) (past : list event) (e : event) : Prop :=
  match e with
  | EPoll l =>
      NoDup (map fst l) /\
      forall fd ev, In (fd, ev) l <->
        (fd = Z.of_nat pipe /\ ev = POLLIN) \/
        (fd <> Z.of_nat pipe /\ ev <> 0 /\ interest past fd = ev)
  | _ => True
  end.

(** is poll() in progress? *)
Definition in_poll1 (b : bool) (e : event) : bool :=
  match e with EPoll _ => true | EPolled _ | EPollErr => false | _ => b end.
Definition in_poll (es : list event) : bool := fold_left in_poll1 es false.

(** No other thread has withdrawn descriptors during a poll(). *)
Definition withdraws (e : event) : bool :=
  match e with ECall (CClear _ _) _ => true | ECall (CZero _) _ => true | _ => false end.
Definition calm1 (s : bool * bool) (e : event) : bool * bool :=
  (in_poll1 (fst s) e, snd s && negb (fst s && withdraws e)).
Definition undisturbed (es : list event) : bool := snd (fold_left calm1 es (false, true)).

(** tpoll_is_set() tells the events last returned *)
Definition isset_ok (past : list event) (e : event) : Prop :=
  match e with
  | ECall (CIsSet fd ev) rc =>
      if fd <? 0 then rc = -1
      else undisturbed past = true -> rc = Z.land (ready past fd) ev
  | _ => True
  end.

(** ** Waiting *)

(** Everything the loop could be waiting for lies within the horizon. *)
Definition near (past : list event) (now : Z) : Prop :=
  Forall (fun p => Z.abs (d_due p - now) <= HORIZON) (pending past) /\
  match called past with
  | Some (ms, fin) => 0 < ms -> Z.abs (fin - now) <= HORIZON
  | None => True
  end.

(** [timeout] (in ms, negative: for ever), counted from [now], is not too long
    for any pending timer: at most a millisecond after it is due *)
Definition not_late (past : list event) (now timeout : Z) : Prop :=
  Forall (fun p => 0 <= timeout /\ now + 1000 * timeout <= Z.max now (d_due p) + 1000)
    (pending past).

(** A wait ends within a millisecond of the next timer and of the end of the call,
    and not before both; nothing is waited for when there is nothing to wait for. *)
Definition wait_ok (past : list event) (e : event) : Prop :=
  match e with
  | EWait timeout =>
      exists now ms fin,
        last_clock past = Some now /\ called past = Some (ms, fin) /\
        (near past now ->
           not_late past now timeout /\
           (0 < ms -> 0 <= timeout /\ now + 1000 * timeout <= Z.max now fin + 1000) /\
           (ms = 0 -> timeout = 0) /\
           (ms < 0 -> pending past = [] ->
              timeout = 0 /\ (forall fd, interest past fd = 0) \/
              timeout = -1 /\ (exists fd, interest past fd <> 0)) /\
           (ms <> 0 -> 0 <= timeout ->
              (exists p, In p (pending past) /\ d_due p <= now + 1000 * timeout) \/
              (0 < ms /\ fin <= now + 1000 * timeout) \/
              (ms < 0 /\ pending past = [] /\ timeout = 0)))
  | _ => True
  end.

(** When the loop stops dispatching, every timer due by the last reading of the
    clock has fired, and that reading was made after poll() last returned. *)
Definition dispatched_ok (past : list event) (e : event) : Prop :=
  match e with
  | EDispatched =>
      fresh past = true /\
      exists t, last_clock past = Some t /\ Forall (fun p => t < d_due p) (pending past)
  | _ => True
  end.

(** ** Returning *)

Definition withdrawn1 (s : option (list (Z * Z)) * bool) (e : event)
    : option (list (Z * Z)) * bool :=
  match e with
  | EPoll _ => (None, false)
  | EPolled l => (Some l, snd s)
  | _ => (fst s, snd s || withdraws e)
  end.
(** what poll() last returned, and whether descriptors have been withdrawn since
    it was entered *)
Definition last_poll (es : list event) := fold_left withdrawn1 es (None, false).

Definition count_ready (pipe : nat) (l : list (Z * Z)) : Z :=
  Z.of_nat (length (filter
    (fun x => negb (fst x =? Z.of_nat pipe) && negb (snd x =? 0)) l)).

(** tpoll() returns the number of ready descriptors; 0 only when the time given
    is over, or when there is nothing to wait for *)
Definition return_ok (pipe : nat) (past : list event) (e : event) : Prop :=
  match e with
  | EReturn n =>
      exists ms fin, called past = Some (ms, fin) /\
      (n = 0 ->
         ms = 0 \/
         (0 < ms /\ exists now, last_clock past = Some now /\ fresh past = true /\ fin <= now) \/
         (ms < 0 /\ pending past = [] /\ forall fd, interest past fd = 0)) /\
      (0 < n -> forall l, last_poll past = (Some l, false) -> n = count_ready pipe l)
  | _ => True
  end.

(** every event of a trace is as [ok] demands, given the events before it *)
Definition every (ok : list event -> event -> Prop) (es : list event) : Prop :=
  forall past e rest, es = past ++ e :: rest -> ok past e.

(** All times given to the program are normalised. *)
Definition call_ok (c : call) : Prop :=
  match c with
  | CAbsolute _ _ tv => tv_ok tv
  | CRelative _ _ _ clk => tv_ok clk
  | _ => True
  end.
Definition act_ok (a : action) : Prop :=
  match a with
  | ACall c => call_ok c
  | AEnter _ c1 c2 => tv_ok c1 /\ tv_ok c2
  | AWait c | AAfter c => tv_ok c
  | _ => True
  end.

(** ** Safety *)

(** the number of timers set *)
Definition sets_timer (e : event) : bool :=
  match e with ECall (CAbsolute _ _ _) _ | ECall (CRelative _ _ _ _) _ => true | _ => false end.
Definition timers_set (es : list event) : Z := Z.of_nat (length (filter sets_timer es)).

(** No other thread has added, during a poll(), a descriptor that the table as
    created (for [n0] descriptors) has no room for. *)
Definition grows (n0 : nat) (e : event) : bool :=
  match e with ECall (CSet fd _ _) _ => Z.of_nat n0 <=? fd | _ => false end.
Definition steady1 (n0 : nat) (s : bool * bool) (e : event) : bool * bool :=
  (in_poll1 (fst s) e, snd s && negb (fst s && grows n0 e)).
Definition steady (n0 : nat) (es : list event) : bool :=
  snd (fold_left (steady1 n0) es (false, true)).

(** What the users of the object must keep to, so that nothing undefined happens;
    [dbg] tells a debug build, with assertions. *)
Definition careful (dbg : bool) (n0 : nat) (es : list event) (a : action) : Prop :=
  match a with
  | ACall (CSet fd _ _) => fd < 1073741823 /\ (dbg = true -> undisturbed es = true)
  | ACall (CIsSet fd _) => dbg = true -> fd < Z.of_nat n0
  | ACall (CAbsolute _ _ _) | ACall (CRelative _ _ _ _) => timers_set es < 2147483646
  | AWait c => near es (us c)
  | APolled _ _ => steady n0 es = true
  | AAfter _ => dbg = true -> snd (last_poll es) = false
  | _ => True
  end.

(** the size of the table tpoll_create (n) makes *)
Definition table_size (n : Z) : nat := Z.to_nat (if n <=? 0 then 256 else n).

(** What poll() would return if nothing but the pipe were ready. *)
Definition woken (pipe : nat) (snap : list pollfd) : list Z :=
  map (fun p => if p_fd p =? Z.of_nat pipe then POLLIN else 0) snap.
