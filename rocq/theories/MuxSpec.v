(** What the main loop must do with the descriptors poll() reported. *)
From Verif Require Import Base MuxModel.
Open Scope Z_scope.

(** The descriptors and objects fit together: an object's descriptor is open and its own,
    and nothing is reported for a descriptor that is not open. *)
Record coherent (s : st) : Prop := mkCoh {
  co_nodup : NoDup (objs s);
  co_range : forall o, -1 <= fd s o;
  co_own : forall o, 0 <= fd s o -> own s (fd s o) = Of o;
  co_fd : forall f o, own s f = Of o -> fd s o = f;
  co_pos : forall f, own s f <> Closed -> 0 <= f;
  co_reg : forall f, reg s f <> 0 -> own s f <> Closed;
  co_bits : forall f, Z.ldiff (reg s f) (Z.lor POLLIN POLLOUT) = 0;
  co_rev : forall f, rev s f <> 0 -> reg s f <> 0 }.

(** [n] is the number of descriptors with something reported: what poll() returns,
    the pipe inside tpoll not counted. *)
Definition counts (s : st) (n : Z) : Prop :=
  exists l, NoDup l /\ (forall f, In f l <-> rev s f <> 0) /\ n = Z.of_nat (length l).

(** Something the loop acts on is reported for object [o]. *)
Definition readable (s : st) (o : nat) : Prop := is_set s (fd s o) (Z.lor POLLIN (Z.lor POLLHUP POLLERR)) = true.
Definition writable (s : st) (o : nat) : Prop := is_set s (fd s o) POLLOUT = true.

(** Handlers register descriptors for input and output only. *)
Definition plain (a : act) : Prop :=
  match a with
  | AWatch _ ev | ASet _ ev => Z.ldiff ev (Z.lor POLLIN POLLOUT) = 0
  | _ => True
  end.
Definition plain_turn (t : turn) : Prop :=
  Forall plain (t_pre t) /\ Forall plain (fst (t_read t)) /\ Forall plain (fst (t_write t)).

(** The step leaves the descriptor of [o] alone. *)
Definition spares (o : nat) (a : act) : Prop :=
  match a with
  | AOpen o' _ | AAdopt o' _ | AClear o' _ | AClose o' => o' <> o
  | _ => True
  end.
(** Before the loop looks at [o], another handler or thread has interfered with it. *)
Definition disturbed (o : nat) (l : list ev) : Prop :=
  exists l1 a l2, l = l1 ++ Did a :: l2 /\ ~ spares o a /\ ~ In (Visited o) l1.

(** The daemon's own descriptors. *)
Definition own_fds (s : st) (ld ine : Z) : Prop :=
  own s ld = Daemon /\ (ine = -1 \/ own s ine = Daemon) /\ ld <> ine.

(** A system call's result and the signals around it, when no handler overwrote errno. *)
Definition errno_kept (x : sysret * late) : Prop := snd x <> NoChildren.
Definition interrupted (x : sysret * late) : Prop := fst x = Fail EINTR.
