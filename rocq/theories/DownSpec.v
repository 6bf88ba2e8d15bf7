(** What is expected when the daemon is told to reopen its logs, or to stop. *)
From Verif Require Import Base DownModel.

(** the main thread is at work on an earlier request *)
Definition reopening (l : loop) : Prop := match l_pc l with Reopening _ | AClear => True | _ => False end.
Definition blocked (l : loop) : Prop := l_pc l = InPoll.
Definition is_hup (h : happening) : bool := match h with Signal SigHup => true | _ => false end.
Definition hups (hs : list happening) : nat := length (filter is_hup hs).
(** what wakes the main thread *)
Definition wakes (l : loop) (h : happening) : Prop := blocked l /\ l_pc (fst (loop_step 0 l h)) <> InPoll.

(** the descriptors of the daemon's configuration and objects *)
Definition opt (o : option nat) : list nat := match o with Some x => [x] | None => [] end.
Definition fds (c : conf) : list nat := opt (c_fd c) ++ opt (c_ld c) ++ flat_map (fun t => opt (t_fd t)) (c_objs c) ++ [fst (c_pipe c); snd (c_pipe c)].
(** a client's request has the client's descriptor *)
Definition client_ok (t : thing) : Prop := forall sd, t_req t = Some sd -> sd = t_fd t.
Definition at_work (c : conf) (others : list nat) : mem := mkMem (fds c ++ others) (seq 0 (length (c_objs c))) true true.

Definition moves (w : who) (ws : list who) : nat := length (filter (fun x => match w, x with Old, Old => true | New, New => true | _, _ => false end) ws).
(** the new daemon has written the PID file and runs *)
Definition is_nobj (a : new_act) : bool := match a with NPort | NOwn | NObj _ => true | _ => false end.
Definition past_pid (s : two) : Prop := r_failed s = false /\ forallb is_nobj (r_new s) = true.
(** the main thread tests for the request to stop before it waits *)
Definition tests_first (l : loop) : Prop := match l_pc l with ADone | InPoll | Serving => True | _ => False end.
Definition past_test (l : loop) : Prop := match l_pc l with AReconfig | Reopening _ | AClear | BeforePoll => True | _ => False end.
Definition steps (hs : list happening) : nat := length (filter (fun h => match h with Step => true | _ => false end) hs).
