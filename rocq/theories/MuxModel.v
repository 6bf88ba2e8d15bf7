(** Model of the main loop (src/server.c:749-826 mux_io) and of the retry loops around
    the system calls it makes (src/server-obj.c:904-915, 1133-1149).

    The loop is modelled with everything that other code may do to the descriptors while
    it runs: the handlers it calls for each object, and the client threads.  What they
    can do is a list of actions; which ones they do is left open.  Readiness flags are
    kept per descriptor as tpoll.c does (see TpollModel for its table). *)
From Verif Require Import Base.
Set Implicit Arguments.
Open Scope Z_scope.

(** poll.h *)
Definition POLLIN := 1.
Definition POLLOUT := 4.
Definition POLLERR := 8.
Definition POLLHUP := 16.

(** What a descriptor number stands for: nothing, an open file not (yet) belonging to
    an object, the listening socket or the inotify descriptor (which stay open), or the
    descriptor of an object. *)
Inductive owner := Closed | Loose | Daemon | Of (o : nat).

(** [objs]: conf->objs.  [fd]: obj->fd.  [own]: the descriptors of the process.
    [reg], [rev]: events and revents in tpoll's table. *)
Record st := mkSt {
  objs : list nat;
  fd : nat -> Z;
  own : Z -> owner;
  reg : Z -> Z;
  rev : Z -> Z }.

Definition upd_n {A} (f : nat -> A) (x : nat) (v : A) : nat -> A := fun y => if (y =? x)%nat then v else f y.
Definition upd_z {A} (f : Z -> A) (x : Z) (v : A) : Z -> A := fun y => if y =? x then v else f y.

(** tpoll.c:374-429 tpoll_set, 274-330 tpoll_clear.  A descriptor with no events left
    is dropped from the table, and what poll() reported for it with it. *)
Definition tp_set (s : st) (f ev : Z) : st :=
  if f <? 0 then s else mkSt (objs s) (fd s) (own s) (upd_z (reg s) f (Z.lor (reg s f) ev)) (rev s).
Definition tp_clear (s : st) (f ev : Z) : st :=
  if f <? 0 then s
  else let r := Z.ldiff (reg s f) ev in
       mkSt (objs s) (fd s) (own s) (upd_z (reg s) f r) (if r =? 0 then upd_z (rev s) f 0 else rev s).

(** Steps of the rest of the program.
    [AOpen o f]: an object without a descriptor gets a new one (socket(), open(), ...);
      the kernel returns a number not in use.  server-telnet.c:206, server-serial.c:438,
      server-process.c, server-unixsock.c, server-ipmi.c, server-logfile.c:278, server-test.c:255.
    [ALoose f], [ADrop f]: other descriptors opened and closed.
    [AWatch f ev]: tpoll_set on the descriptor accept() returned (server-obj.c:119);
    [AAdopt o f]: the client object then takes it (server-obj.c:123, 78).
    [ASet o ev], [AClear o ev]: tpoll_set, tpoll_clear on an object's descriptor.
    [AClose o]: tpoll_clear of both events, close(), fd = -1, in this order
      (server-obj.c:248-253, 819-824, server-telnet.c:309-317, server-process.c:273-275,
      server-serial.c:393-398, server-unixsock.c:338-344, server-ipmi.c:830-835,
      server-logfile.c:241-247, server-test.c:247-254: for the last two the descriptor
      is only ever registered for POLLOUT).
    [AAppend o]: a client thread appends the new client to the list (server-obj.c:133). *)
Inductive act :=
| AOpen (o : nat) (f : Z)
| ALoose (f : Z)
| ADrop (f : Z)
| AWatch (f ev : Z)
| AAdopt (o : nat) (f : Z)
| ASet (o : nat) (ev : Z)
| AClear (o : nat) (ev : Z)
| AClose (o : nat)
| AAppend (o : nat).

Definition is_closed (x : owner) : bool := match x with Closed => true | _ => false end.
Definition is_loose (x : owner) : bool := match x with Loose => true | _ => false end.

(** Actions that cannot happen in a state have no effect. *)
Definition do_act (s : st) (a : act) : st :=
  match a with
  | AOpen o f =>
      if (0 <=? f) && is_closed (own s f) && (fd s o =? -1)
      then mkSt (objs s) (upd_n (fd s) o f) (upd_z (own s) f (Of o)) (reg s) (rev s) else s
  | ALoose f =>
      if (0 <=? f) && is_closed (own s f) then mkSt (objs s) (fd s) (upd_z (own s) f Loose) (reg s) (rev s) else s
  | ADrop f =>
      if is_loose (own s f) && (reg s f =? 0) then mkSt (objs s) (fd s) (upd_z (own s) f Closed) (reg s) (rev s) else s
  | AWatch f ev => if is_loose (own s f) then tp_set s f ev else s
  | AAdopt o f =>
      if (0 <=? f) && is_loose (own s f) && (fd s o =? -1)
      then mkSt (objs s) (upd_n (fd s) o f) (upd_z (own s) f (Of o)) (reg s) (rev s) else s
  | ASet o ev => tp_set s (fd s o) ev
  | AClear o ev => tp_clear s (fd s o) ev
  | AClose o =>
      if fd s o <? 0 then s
      else let f := fd s o in
           let s := tp_clear s f (Z.lor POLLIN POLLOUT) in
           mkSt (objs s) (upd_n (fd s) o (-1)) (upd_z (own s) f Closed) (reg s) (rev s)
  | AAppend o => if existsb (Nat.eqb o) (objs s) then s else mkSt (objs s ++ [o]) (fd s) (own s) (reg s) (rev s)
  end.
Definition do_acts (s : st) (l : list act) : st := fold_left do_act l s.

(** tpoll.c:333-371 tpoll_is_set; -1 for a negative descriptor *)
Definition is_set (s : st) (f ev : Z) : bool := if f <? 0 then false else negb (Z.land (rev s f) ev =? 0).

(** What the environment does around one object: [t_pre] before it is looked at;
    [t_read], [t_write]: the actions of read_from_obj() and write_to_obj() (and of other
    threads meanwhile) and whether they return -1. *)
Record turn := mkTurn { t_pre : list act; t_read : list act * bool; t_write : list act * bool }.

(** What happens, in order: [Did a], a step of the rest of the program; the loop looks at
    an object, calls read_from_obj() or write_to_obj() for it, deletes it. *)
Inductive ev := Did (a : act) | Visited (o : nat) | Read (o : nat) | Wrote (o : nat) | Deleted (o : nat).

(** list.c list_delete on the iterator's last element, then destroy_obj
    (server-obj.c:225-262), which closes a descriptor still open *)
Definition del_at (s : st) (o : nat) : st :=
  do_act (mkSt (filter (fun x => negb (x =? o)%nat) (objs s)) (fd s) (own s) (reg s) (rev s)) (AClose o).

(** server.c:805-821, one turn of the loop.  [pos]: how many objects the iterator has
    passed.  Returns the state, what happened, and [n] and [pos] for the next turn, or
    nothing if the loop ends. *)
Definition one (n : Z) (pos : nat) (s : st) (t : turn) : st * list ev * option (Z * nat) :=
  let s := do_acts s (t_pre t) in
  let tr := map Did (t_pre t) in
  if n <=? 0 then (s, tr, None)
  else
    match nth_error (objs s) pos with
    | None => (s, tr, None)
    | Some o =>
        let rvr := is_set s (fd s o) (Z.lor POLLIN (Z.lor POLLHUP POLLERR)) in
        let rvw := is_set s (fd s o) POLLOUT in
        let n := if rvr || rvw then n - 1 else n in
        let tr := tr ++ [Visited o] in
        let '(s, dead, tr) :=
          if rvr then (do_acts s (fst (t_read t)), snd (t_read t), tr ++ Read o :: map Did (fst (t_read t)))
          else (s, false, tr) in
        if dead then (del_at s o, tr ++ [Deleted o], Some (n, pos))
        else
          let '(s, dead, tr) :=
            if rvw then (do_acts s (fst (t_write t)), snd (t_write t), tr ++ Wrote o :: map Did (fst (t_write t)))
            else (s, false, tr) in
          if dead then (del_at s o, tr ++ [Deleted o], Some (n, pos))
          else (s, tr, Some (n, S pos))
    end.

(** The loop; too few turns is not an execution. *)
Fixpoint serve (n : Z) (pos : nat) (s : st) (ts : list turn) : res (st * nat * list ev) :=
  match ts with
  | [] => UB OutOfFuel
  | t :: ts =>
      match one n pos s t with
      | (s, tr, None) => Ok (s, pos, tr)
      | (s, tr, Some (n, pos)) =>
          do r <- serve n pos s ts;
          let '(s, p, l) := r in Ok (s, p, tr ++ l)
      end
  end.

(** server.c:780-821, one pass of the loop after a poll() that set [rev] and made tpoll()
    return [n]: the listening socket [ld], the inotify descriptor [ine] (-1 if there is
    none), then the objects. [acc], [inx]: the actions of accept_client() and
    inevent_process(). *)
Definition mux_pass (ld ine : Z) (n : Z) (acc inx : list act) (s : st) (ts : list turn) : res (st * nat * list ev) :=
  let '(n, s, t1) := if (0 <? n) && is_set s ld POLLIN then (n - 1, do_acts s acc, map Did acc) else (n, s, []) in
  let '(n, s, t2) :=
    if (0 <=? ine) && (0 <? n) && is_set s ine POLLIN then (n - 1, do_acts s inx, map Did inx) else (n, s, []) in
  do r <- serve n 0 s ts;
  let '(s, p, l) := r in Ok (s, p, t1 ++ t2 ++ l).

(** ** The retry loops and signals *)

(** errno.h *)
Definition EINTR := 4.
Definition ECHILD := 10.
Definition EAGAIN := 11.

(** What a system call returned, with errno if it failed. *)
Inductive sysret := Done (n : Z) | Fail (e : Z).

(** A signal delivered after the system call has returned and before the caller looks at
    errno.  server.c:373-379 sig_chld_handler calls waitpid() until it returns 0 (children
    still running, errno unchanged) or -1 with ECHILD (none left). *)
Inductive late := NoSignal | ChildrenLeft | NoChildren.
Definition errno_after (e : Z) (l : late) : Z := match l with NoChildren => ECHILD | _ => e end.

(** What the caller does in the end: goes on with n bytes, waits for the next event, gives
    the connection up. *)
Inductive outcome := GoOn (n : Z) | Later | GiveUp (e : Z).

(** server-obj.c:904-915 (read) and 1134-1149 (writev) *)
Fixpoint attempt (l : list (sysret * late)) : option outcome :=
  match l with
  | [] => None
  | (Done n, _) :: _ => Some (GoOn n)
  | (Fail e, sg) :: l =>
      let e := errno_after e sg in
      if e =? EINTR then attempt l
      else if e =? EAGAIN then Some Later
      else Some (GiveUp e)
  end.

(** server.c:780-787 around tpoll(); [asked]: done or reconfig has been set by then.
    None: more calls follow; GiveUp: log_err() ends the daemon; Later: go round. *)
Fixpoint wait (l : list (sysret * late * bool)) : option outcome :=
  match l with
  | [] => None
  | (Done n, _, _) :: _ => Some (GoOn n)
  | (Fail e, sg, asked) :: l =>
      let e := errno_after e sg in
      if e =? EINTR then (if asked then Some Later else wait l) else Some (GiveUp e)
  end.

(** ** When a signal is noticed *)

(** Where the main thread is, server.c:769-787: about to test [done]; past the test and
    on the way into poll(); asleep in poll(); serving the objects; left the loop. *)
Inductive place := Testing | Entering | Asleep | Serving | Exited.
Record loop := mkLoop { at_ : place; quit : bool }.

(** The next thing the main thread does by itself; nothing while it sleeps. *)
Definition go (d : loop) : option loop :=
  match at_ d with
  | Testing => Some (mkLoop (if quit d then Exited else Entering) (quit d))
  | Entering => Some (mkLoop Asleep (quit d))
  | Serving => Some (mkLoop Testing (quit d))
  | Asleep | Exited => None
  end.
(** A descriptor becomes ready (it stays ready until served, so it is only noted while
    the thread sleeps), server.c:780. *)
Definition wake (d : loop) : loop := match at_ d with Asleep => mkLoop Serving (quit d) | _ => d end.
(** SIGTERM or SIGINT: server.c:389-393 exit_handler sets [done]; poll() fails with EINTR
    if the thread was asleep in it, and lines 784-786 leave the inner loop. *)
Definition term (d : loop) : loop :=
  match at_ d with
  | Asleep => mkLoop Testing true
  | p => mkLoop p true
  end.
Inductive happens := Go | Wake | Term.
Definition happen (d : loop) (h : happens) : loop :=
  match h with Go => match go d with Some d => d | None => d end | Wake => wake d | Term => term d end.
Definition history_of (l : list happens) : loop := fold_left happen l (mkLoop Testing false).
