(** Model of src/tpoll.c: timers and descriptor events behind one poll() loop.

    Every exported function holds the object's mutex for its whole body, so a
    call by any thread is one atomic step.  tpoll() itself releases the mutex
    around each callback and around poll(); it is cut at those points into the
    steps of the transition system at the end of this file.
    Not modelled: malloc() failing, errors of the mutex functions and of the
    pipe (a one-byte write to an empty pipe succeeds), DPRINTF output. *)
From Verif Require Import Base.
Open Scope Z_scope.

Definition INT_MAX : Z := 2147483647.

(** struct timeval *)
Record timeval := mkTv { tv_sec : Z; tv_usec : Z }.

(** timercmp (a, b, <) and timercmp (a, b, >) of <sys/time.h> *)
Definition tv_lt (a b : timeval) : bool :=
  if tv_sec a =? tv_sec b then tv_usec a <? tv_usec b else tv_sec a <? tv_sec b.
Definition tv_gt (a b : timeval) : bool := tv_lt b a.

(** struct pollfd *)
Record pollfd := mkPfd { p_fd : Z; p_events : Z; p_revents : Z }.

(** tpoll.c:100-106 (the callback function and its argument are opaque numbers;
    0 is NULL); the [next] chain is a Coq list *)
Record timer := mkTimer { t_id : Z; t_fnc : Z; t_arg : Z; t_tv : timeval }.

(** tpoll.c:85-98.  [tp_gen] counts the blocks fd_array has been, [tp_bytes] is
    the number of bytes in the pipe; num_fds_alloc is a separate field as in the
    code; fd_pipe[1] and the mutex have no state here. *)
Record tpoll := mkTp {
  tp_arr : list pollfd;
  tp_gen : nat;
  tp_pipe : nat;
  tp_bytes : nat;
  tp_alloc : nat;
  tp_used : Z;
  tp_max : Z;
  tp_timers : list timer;
  tp_next : Z;
  tp_blocked : bool;
  tp_realloced : bool;
  tp_signaled : bool }.

Definition POLLIN : Z := 1.
Definition TPOLL_ALLOC : nat := 256.

(** an unused entry: zeroed by memset (tpoll.c:721, 859), fd set to -1 (723, 861) *)
Definition free_pfd : pollfd := mkPfd (-1) 0 0.

Definition set_fds (tp : tpoll) (arr : list pollfd) (used max : Z) : tpoll :=
  mkTp arr (tp_gen tp) (tp_pipe tp) (tp_bytes tp) (tp_alloc tp) used max
    (tp_timers tp) (tp_next tp) (tp_blocked tp) (tp_realloced tp) (tp_signaled tp).

Definition set_timers (tp : tpoll) (l : list timer) (next : Z) : tpoll :=
  mkTp (tp_arr tp) (tp_gen tp) (tp_pipe tp) (tp_bytes tp) (tp_alloc tp) (tp_used tp)
    (tp_max tp) l next (tp_blocked tp) (tp_realloced tp) (tp_signaled tp).

Definition set_signal (tp : tpoll) (bytes : nat) (s : bool) : tpoll :=
  mkTp (tp_arr tp) (tp_gen tp) (tp_pipe tp) bytes (tp_alloc tp) (tp_used tp)
    (tp_max tp) (tp_timers tp) (tp_next tp) (tp_blocked tp) (tp_realloced tp) s.

Definition set_blocked (tp : tpoll) (b : bool) : tpoll :=
  mkTp (tp_arr tp) (tp_gen tp) (tp_pipe tp) (tp_bytes tp) (tp_alloc tp) (tp_used tp)
    (tp_max tp) (tp_timers tp) (tp_next tp) b (tp_realloced tp) (tp_signaled tp).

Definition set_realloced (tp : tpoll) (b : bool) : tpoll :=
  mkTp (tp_arr tp) (tp_gen tp) (tp_pipe tp) (tp_bytes tp) (tp_alloc tp) (tp_used tp)
    (tp_max tp) (tp_timers tp) (tp_next tp) (tp_blocked tp) b (tp_signaled tp).

(** tpoll.c:742-777, _tpoll_signal_send() *)
Definition signal_send (tp : tpoll) : tpoll :=
  if tp_signaled tp || negb (tp_blocked tp) then tp
  else set_signal tp (S (tp_bytes tp)) true.

(** tpoll.c:780-819, _tpoll_signal_recv() *)
Definition signal_recv (tp : tpoll) : res tpoll :=
  do e <- get (tp_arr tp) (tp_pipe tp);
  do _ <- assert_ (p_fd e =? Z.of_nat (tp_pipe tp));
  if negb (tp_signaled tp) then Ok tp
  else
    do _ <- assert_ (tp_bytes tp <? 2)%nat;
    Ok (set_signal tp 0 false).

Definition has (how bit : Z) : bool := negb (Z.land how bit =? 0).

(** tpoll.c:706-739, _tpoll_init() *)
Definition tpoll_init (tp : tpoll) (how : Z) : res tpoll :=
  do _ <- assert_ (0 <? tp_alloc tp)%nat;
  do _ <- assert_ (Z.land how (Z.lnot 3) =? 0);
  do tp1 <-
    (if has how 1 then
       do a <- put (repeat free_pfd (tp_alloc tp)) (tp_pipe tp)
                 (mkPfd (Z.of_nat (tp_pipe tp)) POLLIN 0);
       Ok (set_fds tp a 0 (Z.of_nat (tp_pipe tp)))
     else Ok tp);
  Ok (if has how 2 then set_timers tp1 [] 1 else tp1).

(** tpoll.c:130-191, tpoll_create(): [pipe0] is the read end pipe() returned *)
Definition tpoll_create (n : Z) (pipe0 : nat) : res tpoll :=
  let n := if n <=? 0 then Z.of_nat TPOLL_ALLOC else n in
  tpoll_init (mkTp [] 0 pipe0 0 (Z.to_nat n) 0 0 [] 0 false false false) 3.

(** tpoll.c:240-271, tpoll_zero() *)
Definition tpoll_zero (tp : tpoll) (how : Z) : res (tpoll * Z) :=
  if negb (Z.land how (Z.lnot 3) =? 0) then Ok (tp, -1)
  else do tp1 <- tpoll_init tp how; Ok (signal_send tp1, 0).

(** tpoll.c:313-318: the loop looking for the new highest descriptor *)
Fixpoint scan_down (arr : list pollfd) (k : nat) : res Z :=
  match k with
  | O => Ok (-1)
  | S i =>
      do e <- get arr i;
      if -1 <? p_fd e then Ok (Z.of_nat i) else scan_down arr i
  end.

(** tpoll.c:274-330, tpoll_clear() *)
Definition tpoll_clear (tp : tpoll) (fd events : Z) : res (tpoll * Z) :=
  if fd <? 0 then Ok (tp, -1)
  else if events =? 0 then Ok (tp, 0)
  else if fd <=? tp_max tp then
    do e <- get (tp_arr tp) (Z.to_nat fd);
    if -1 <? p_fd e then
      do _ <- assert_ (p_fd e =? fd);
      let new := Z.land (p_events e) (Z.lnot events) in
      if p_events e =? new then Ok (tp, 0)
      else if new =? 0 then
        do a <- put (tp_arr tp) (Z.to_nat fd) (mkPfd (-1) 0 0);
        do m <- (if tp_max tp =? fd then scan_down a (Z.to_nat fd) else Ok (tp_max tp));
        Ok (signal_send (set_fds tp a (tp_used tp - 1) m), 0)
      else
        do a <- put (tp_arr tp) (Z.to_nat fd) (mkPfd (p_fd e) new (p_revents e));
        Ok (signal_send (set_fds tp a (tp_used tp) (tp_max tp)), 0)
    else Ok (tp, 0)
  else Ok (tp, 0).

(** tpoll.c:333-371, tpoll_is_set(); the DPRINTF at 365-366 reads the entry once
    more, in debug builds, whatever the branch taken *)
Definition tpoll_is_set (dbg : bool) (tp : tpoll) (fd events : Z) : res Z :=
  if fd <? 0 then Ok (-1)
  else
    do rc <-
      (if tp_max tp <? fd then Ok 0
       else
         do e <- get (tp_arr tp) (Z.to_nat fd);
         if p_fd e <? 0 then Ok 0
         else
           do _ <- assert_ (p_fd e =? fd);
           Ok (Z.land (p_revents e) events));
    do _ <- (if dbg then (do e <- get (tp_arr tp) (Z.to_nat fd); Ok tt) else Ok tt);
    Ok rc.

(** tpoll.c:841-847: the new size *)
Fixpoint grow_size (fuel : nat) (n req : Z) : res Z :=
  match fuel with
  | O => UB OutOfFuel
  | S f =>
      if (n <? req) && (0 <? n) then
        if INT_MAX <? n * 2 then UB SignedOverflow else grow_size f (n * 2) req
      else Ok (if n <? req then req else n)
  end.

(** tpoll.c:822-867, _tpoll_grow(): [room] says whether realloc() succeeds *)
Definition grow (room : bool) (tp : tpoll) (req : Z) : res (tpoll * Z) :=
  do _ <- assert_ (0 <? req);
  if req <=? Z.of_nat (tp_alloc tp) then Ok (tp, 0)
  else
    do n <- grow_size 32 (Z.of_nat (tp_alloc tp)) req;
    let tp := signal_send tp in
    if negb room then Ok (tp, -1)
    else
      let a := tp_arr tp ++ repeat free_pfd (Z.to_nat n - tp_alloc tp) in
      Ok (mkTp a (S (tp_gen tp)) (tp_pipe tp) (tp_bytes tp) (Z.to_nat n) (tp_used tp)
            (tp_max tp) (tp_timers tp) (tp_next tp) (tp_blocked tp) true (tp_signaled tp), 0).

(** tpoll.c:374-429, tpoll_set() *)
Definition tpoll_set (dbg room : bool) (tp : tpoll) (fd events : Z) : res (tpoll * Z) :=
  if fd <? 0 then Ok (tp, -1)
  else if events =? 0 then Ok (tp, 0)
  else
    do g <- (if Z.of_nat (tp_alloc tp) <=? fd then
               if INT_MAX <? fd + 1 then UB SignedOverflow else grow room tp (fd + 1)
             else Ok (tp, 0));
    let (tp1, r) := g in
    if r <? 0 then Ok (tp1, -1)
    else
      do e <- get (tp_arr tp1) (Z.to_nat fd);
      if p_fd e <? 0 then
        do _ <- assert_ (p_events e =? 0);
        do _ <- assert_if dbg (p_revents e =? 0);
        let max := if tp_max tp1 <? fd then fd else tp_max tp1 in
        do a <- put (tp_arr tp1) (Z.to_nat fd) (mkPfd fd events (p_revents e));
        Ok (signal_send (set_fds tp1 a (tp_used tp1 + 1) max), 0)
      else
        let new := Z.lor (p_events e) events in
        if p_events e =? new then Ok (tp1, 0)
        else
          do a <- put (tp_arr tp1) (Z.to_nat fd) (mkPfd (p_fd e) new (p_revents e));
          Ok (signal_send (set_fds tp1 a (tp_used tp1) (tp_max tp1)), 0).

(** tpoll.c:870-890, _tpoll_get_timeval(): [clk] is what gettimeofday() returns *)
Definition get_timeval (clk : timeval) (ms : Z) : timeval :=
  if 0 <? ms then
    let s := tv_sec clk + ms / 1000 in
    let u := tv_usec clk + (ms mod 1000) * 1000 in
    if 1000000 <=? u then mkTv (s + u / 1000000) (u mod 1000000) else mkTv s u
  else clk.

(** conversion of a long to an int, as gcc defines it *)
Definition to_int (x : Z) : Z := (x + 2147483648) mod 4294967296 - 2147483648.

(** tpoll.c:893-927, _tpoll_diff_timeval() with two non-null arguments.  The
    arithmetic on time_t (64 bits) is taken as exact. *)
Definition diff_timeval (a b : timeval) : res Z :=
  let ms := to_int ((tv_sec a - tv_sec b) * 1000 + Z.quot (tv_usec a - tv_usec b) 1000) in
  if (tv_sec b <=? tv_sec a) && (tv_usec b <? tv_usec a) then
    if ms =? INT_MAX then UB SignedOverflow else Ok (ms + 1)
  else if (tv_sec a <=? tv_sec b) && (tv_usec a <? tv_usec b) then
    if ms =? - INT_MAX - 1 then UB SignedOverflow else Ok (ms - 1)
  else Ok ms.

(** tpoll.c:472-480: the search for the insertion point; the flag says whether
    it is the head of the list *)
Fixpoint insert (t : timer) (l : list timer) : list timer :=
  match l with
  | [] => [t]
  | x :: r => if tv_lt (t_tv t) (t_tv x) then t :: l else x :: insert t r
  end.

Definition at_head (t : timer) (l : list timer) : bool :=
  match l with [] => true | x :: _ => tv_lt (t_tv t) (t_tv x) end.

(** tpoll.c:432-487, tpoll_timeout_absolute() *)
Definition timeout_absolute (tp : tpoll) (fnc arg : Z) (tv : timeval) : res (tpoll * Z) :=
  if fnc =? 0 then Ok (tp, -1)
  else if tp_next tp =? INT_MAX then UB SignedOverflow    (* timers_next_id++ *)
  else
    let id := tp_next tp in
    let next := if id + 1 <=? 0 then 1 else id + 1 in
    let t := mkTimer id fnc arg tv in
    let tp1 := if at_head t (tp_timers tp) then signal_send tp else tp in
    Ok (set_timers tp1 (insert t (tp_timers tp)) next, id).

(** tpoll.c:490-502, tpoll_timeout_relative() *)
Definition timeout_relative (tp : tpoll) (fnc arg ms : Z) (clk : timeval) : res (tpoll * Z) :=
  timeout_absolute tp fnc arg (get_timeval clk ms).

(** tpoll.c:528-543: the search for a timer and its removal *)
Fixpoint remove (id : Z) (l : list timer) : list timer :=
  match l with
  | [] => []
  | x :: r => if id =? t_id x then r else x :: remove id r
  end.

Definition head_id (id : Z) (l : list timer) : bool :=
  match l with [] => false | x :: _ => id =? t_id x end.

(** tpoll.c:505-549, tpoll_timeout_cancel() *)
Definition timeout_cancel (tp : tpoll) (id : Z) : res (tpoll * Z) :=
  if id <=? 0 then Ok (tp, -1)
  else if existsb (fun t => id =? t_id t) (tp_timers tp) then
    let tp1 := if head_id id (tp_timers tp) then signal_send tp else tp in
    Ok (set_timers tp1 (remove id (tp_timers tp)) (tp_next tp), 1)
  else Ok (tp, 0).

(** ** The system: one thread inside (or outside) tpoll(), any number of others *)

(** A call of the interface, by any thread (callbacks included), with the
    environment's answers: the clock, whether realloc() succeeds. *)
Inductive call :=
| CSet (fd events : Z) (room : bool)
| CClear (fd events : Z)
| CIsSet (fd events : Z)
| CAbsolute (fnc arg : Z) (tv : timeval)
| CRelative (fnc arg ms : Z) (clk : timeval)
| CCancel (id : Z)
| CZero (how : Z).

Definition do_call (dbg : bool) (tp : tpoll) (c : call) : res (tpoll * Z) :=
  match c with
  | CSet fd ev room => tpoll_set dbg room tp fd ev
  | CClear fd ev => tpoll_clear tp fd ev
  | CIsSet fd ev => do r <- tpoll_is_set dbg tp fd ev; Ok (tp, r)
  | CAbsolute f a tv => timeout_absolute tp f a tv
  | CRelative f a ms clk => timeout_relative tp f a ms clk
  | CCancel id => timeout_cancel tp id
  | CZero how => tpoll_zero tp how
  end.

(** Where the polling thread is.  [tmo] is tv_timeout, [now] is tv_now. *)
Inductive phase :=
| Idle                                             (* outside tpoll() *)
| Disp (ms : Z) (tmo now : timeval)                (* 594: top of the dispatch loop *)
| Ready (ms : Z) (tmo now : timeval) (timeout : Z) (* 659: unlocked, poll() not yet entered *)
| Polling (ms : Z) (tmo now : timeval) (timeout : Z)
          (snap : list pollfd) (gen : nat)         (* 660: in poll() *)
| Back (ms : Z) (tmo now : timeval) (n : Z).       (* 662: poll() returned, not yet locked *)

(** What can be seen from outside *)
Inductive event :=
| ECall (c : call) (rc : Z)
| EEnter (ms : Z) (clk : timeval)        (* tpoll() called *)
| EClock (clk : timeval)                 (* tpoll() read this time for tv_now *)
| EFire (id fnc arg : Z)                 (* a callback is invoked *)
| EDispatched                            (* no more timers to dispatch for now *)
| EWait (timeout : Z)                    (* about to call poll() *)
| EPoll (fds : list (Z * Z))             (* poll() entered with these (fd, events) *)
| EPolled (fds : list (Z * Z))           (* poll() returned these (fd, revents) *)
| EPollErr                               (* poll() failed *)
| ERetry                                 (* its result is dropped: the table has moved *)
| EReturn (n : Z).                       (* tpoll() returned *)

Inductive action :=
| ACall (c : call)
| AEnter (ms : Z) (clk1 clk2 : timeval)
| AFire
| AWait (clk : timeval)
| APoll
| APolled (n : Z) (revs : list Z)
| AAfter (clk : timeval).

Record sys := mkSys { s_tp : tpoll; s_ph : phase }.

(** tpoll.c:580-588 *)
Definition enter (ms : Z) (clk1 clk2 : timeval) : phase :=
  Disp ms (if 0 <? ms then get_timeval clk1 ms else mkTv 0 0) (get_timeval clk2 0).

(** tpoll.c:616-651: the timeout for poll(); [clk] is read at 628 *)
Definition compute (tp : tpoll) (ms : Z) (tmo now clk : timeval)
    : res (timeval * Z * list event) :=
  if ms =? 0 then Ok (now, 0, [])
  else
    match tp_timers tp with
    | [] =>
        if ms <? 0 then Ok (now, if 0 <? tp_used tp then -1 else 0, [])
        else
          do d <- diff_timeval tmo clk;
          Ok (clk, if 0 <? d then d else 0, [EClock clk])
    | t :: _ =>
        do d <- (if ms <? 0 then diff_timeval (t_tv t) clk
                 else if negb (tv_gt (t_tv t) tmo) then diff_timeval (t_tv t) clk
                 else diff_timeval tmo clk);
        Ok (clk, if 0 <? d then d else 0, [EClock clk])
    end.

(** poll()'s contract for one entry: nothing for a negative descriptor, only
    requested events and POLLERR, POLLHUP, POLLNVAL (8, 16, 32) otherwise; the
    read end of the pipe is readable exactly when the pipe is not empty *)
Definition rev_ok (tp : tpoll) (p : pollfd) (r : Z) : bool :=
  if p_fd p <? 0 then r =? 0
  else if p_fd p =? Z.of_nat (tp_pipe tp) then
    r =? (if (tp_bytes tp =? 0)%nat then 0 else Z.land (p_events p) POLLIN)
  else Z.land r (Z.lnot (Z.lor (p_events p) 56)) =? 0.

Fixpoint all2 {A B} (f : A -> B -> bool) (a : list A) (b : list B) : bool :=
  match a, b with
  | [], [] => true
  | x :: a, y :: b => f x y && all2 f a b
  | _, _ => false
  end.

Definition ready_count (revs : list Z) : Z :=
  Z.of_nat (length (filter (fun r => negb (r =? 0)) revs)).

(** the kernel stores revents into the array it was given *)
Fixpoint store_revents (arr : list pollfd) (revs : list Z) : list pollfd :=
  match arr, revs with
  | p :: a, r :: rs => mkPfd (p_fd p) (p_events p) r :: store_revents a rs
  | _, _ => arr
  end.

Definition interests (l : list pollfd) : list (Z * Z) :=
  map (fun p => (p_fd p, p_events p)) (filter (fun p => -1 <? p_fd p) l).
Definition results (l : list pollfd) : list (Z * Z) :=
  map (fun p => (p_fd p, p_revents p)) (filter (fun p => -1 <? p_fd p) l).

(** tpoll.c:663-693, from re-acquiring the mutex to the end of the loop body:
    the next phase and, when tpoll() returns, its result *)
Definition after (dbg : bool) (tp : tpoll) (ms : Z) (tmo now : timeval) (n : Z)
    (clk : timeval) : res (tpoll * phase * list event) :=
  let tp := set_blocked tp false in
  if n <? 0 then Ok (tp, Idle, [EReturn n])
  else if tp_realloced tp then
    do tp <- signal_recv (set_realloced tp false);
    Ok (tp, Disp ms tmo now, [ERetry])
  else
    do e <- get (tp_arr tp) (tp_pipe tp);
    do r <- (if negb (Z.land (p_revents e) POLLIN =? 0) then
               do tp <- signal_recv tp; Ok (tp, n - 1)
             else Ok (tp, n));
    let (tp, n) := r in
    if 0 <? n then
      do _ <- assert_if dbg (0 <? tp_used tp);
      Ok (tp, Idle, [EReturn n])
    else if (ms =? 0)
         || ((ms <? 0) && (tp_used tp =? 0)
             && match tp_timers tp with [] => true | _ => false end)
    then Ok (tp, Idle, [EReturn n])
    else if (0 <? ms) && negb (tv_gt tmo clk) then Ok (tp, Idle, [EClock clk; EReturn n])
    else Ok (tp, Disp ms tmo clk, [EClock clk]).

(** A call names no descriptor of another owner: not the pipe's. *)
Definition foreign (tp : tpoll) (c : call) : bool :=
  match c with
  | CSet fd _ _ | CClear fd _ | CIsSet fd _ => fd =? Z.of_nat (tp_pipe tp)
  | _ => false
  end.

(** One step; [None] when the action cannot happen in this state. *)
Definition step (dbg : bool) (s : sys) (a : action) : option (res (sys * list event)) :=
  let tp := s_tp s in
  match a, s_ph s with
  | ACall c, _ =>
      if foreign tp c then None
      else Some (do r <- do_call dbg tp c; Ok (mkSys (fst r) (s_ph s), [ECall c (snd r)]))
  | AEnter ms c1 c2, Idle => Some (Ok (mkSys tp (enter ms c1 c2), [EEnter ms c1; EClock c2]))
  | AFire, Disp ms tmo now =>
      (* 594-608: the head of the list has expired *)
      match tp_timers tp with
      | t :: r =>
          if negb (tv_gt (t_tv t) now)
          then Some (Ok (mkSys (set_timers tp r (tp_next tp)) (Disp ms tmo now),
                         [EFire (t_id t) (t_fnc t) (t_arg t)]))
          else None
      | [] => None
      end
  | AWait clk, Disp ms tmo now =>
      (* 616-658: nothing (more) has expired *)
      if match tp_timers tp with [] => true | t :: _ => tv_gt (t_tv t) now end
      then Some (do r <- compute tp ms tmo now clk;
                 let '(now, timeout, es) := r in
                 Ok (mkSys (set_blocked tp true) (Ready ms tmo now timeout),
                     EDispatched :: es ++ [EWait timeout]))
      else None
  | APoll, Ready ms tmo now timeout =>
      let snap := firstn (Z.to_nat (tp_max tp + 1)) (tp_arr tp) in
      Some (Ok (mkSys tp (Polling ms tmo now timeout snap (tp_gen tp)),
                [EPoll (interests snap)]))
  | APolled n revs, Polling ms tmo now timeout snap gen =>
      if n <? 0 then
        Some (Ok (mkSys tp (Back ms tmo now n), [EPollErr]))
      else if all2 (rev_ok tp) snap revs && (n =? ready_count revs)
              && negb ((n =? 0) && (timeout <? 0)) then
        Some (if (gen =? tp_gen tp)%nat then
                let a := store_revents (tp_arr tp) revs in
                Ok (mkSys (set_fds tp a (tp_used tp) (tp_max tp)) (Back ms tmo now n),
                    [EPolled (results (firstn (length snap) a))])
              else UB UseAfterFree)   (* the block given to poll() has been realloc()ed *)
      else None
  | AAfter clk, Back ms tmo now n =>
      Some (do r <- after dbg tp ms tmo now n clk;
            Ok (mkSys (fst (fst r)) (snd (fst r)), snd r))
  | _, _ => None
  end.

(** A run: the actions that happened, and the events seen; [None] if some action
    could not happen. *)
Fixpoint run (dbg : bool) (s : sys) (acts : list action) : option (res (sys * list event)) :=
  match acts with
  | [] => Some (Ok (s, []))
  | a :: rest =>
      match step dbg s a with
      | None => None
      | Some (UB k) => Some (UB k)
      | Some (Ok (s1, e1)) =>
          match run dbg s1 rest with
          | Some (Ok (s2, e2)) => Some (Ok (s2, e1 ++ e2))
          | x => x
          end
      end
  end.

(** The object as tpoll_create() leaves it, nobody in tpoll(). *)
Definition start (n : Z) (pipe0 : nat) : res sys :=
  do tp <- tpoll_create n pipe0; Ok (mkSys tp Idle).
