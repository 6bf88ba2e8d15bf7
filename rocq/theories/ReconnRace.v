(** Model of two threads that work on one console at the same time.

    The main thread runs the handlers of ReconnModel; so does the thread of a client that connects
    (server-sock.c:181-239, process_client, calls check_console_state), and nothing but the
    mutex of IPMI consoles and those inside tpoll keeps the two apart.  Here the handlers
    of process and telnet consoles are cut into the accesses to the console that other threads can
    see.  The calls of tpoll are single steps, together with the access to the timer's number next
    to them.  Assertions are left out, as in a production build.  Other simplifications are those of
    ReconnModel. *)
From Verif Require Import Base ReconnModel.
Set Implicit Arguments.
Open Scope Z_scope.

(** the rest of a thread's work *)
Inductive prog := Halt | Step (f : world -> res (world * prog)).
Definition act (f : world -> res world) (k : prog) : prog := Step (fun w => do w1 <- f w; Ok (w1, k)).
Definition look (c : nat) (k : dev -> prog) : prog := Step (fun w => do d <- dev_of w c; Ok (w, k d)).

(** one thread alone, up to its end *)
Fixpoint alone (p : prog) (w : world) : res world :=
  match p with
  | Halt => Ok w
  | Step f => match f w with Ok (w1, p1) => alone p1 w1 | UB k => UB k end
  end.
(** two threads; true: the first makes a step *)
Fixpoint race (l : list bool) (p q : prog) (w : world) : res (world * prog * prog) :=
  match l with
  | [] => Ok (w, p, q)
  | true :: l => match p with Halt => race l p q w | Step f => do r <- f w; race l (snd r) q (fst r) end
  | false :: l => match q with Halt => race l p q w | Step f => do r <- f w; race l p (snd r) (fst r) end
  end.

Definition close_fd (c : nat) (w : world) : res world := do d <- dev_of w c; if 0 <=? d_fd d then upd c (with_fd (-1)) w else Ok w.

(** server-process.c:245-250 *)
Definition process_retry (c : nat) : prog :=
  look c (fun d => act (fun w => arm c Reconnect (d_delay d * 1000) (say (Retry c (d_delay d * 1000)) w))
  (act (fun w => do d <- dev_of w c;
         upd c (with_delay (if d_delay d =? 0 then PROCESS_MIN_TIMEOUT else Z.min (d_delay d * 2) PROCESS_MAX_TIMEOUT)) w) Halt)).
(** server-process.c:215-253 open_process_obj, with 256-295 and 298-386 *)
Definition process_open (c : nat) (o : orc) : prog :=
  act (cancel_timer c)                                                               (* 229-232 *)
  (look c (fun d =>
     match d_st d with                                                               (* 234-239 *)
     | Up =>
         act (close_fd c)                                                            (* 272-276 *)
        (act (fun w => Ok (say (Went_down c) w))                                     (* 285-287 *)
        (act (fun w => do d <- dev_of w c; Ok (say (Killed c (d_pid d)) w))          (* 290 *)
        (act (upd c (with_pid (-1)))                                                 (* 291 *)
        (act (upd c (with_st Down)) (process_retry c)))))                            (* 293 *)
     | Down =>
         act (fun w => Ok (say (Try c) w))
         (if o_dev o && o_sock o && o_fork o then
            act (fun w => Ok (say (Forked c (o_pid o)) w))                           (* 328 *)
           (act (upd c (with_fd (o_fd o)))                                           (* 356 *)
           (act (upd c (with_pid (o_pid o)))
           (act (upd c (with_st Up))                                                 (* 359 *)
           (act (arm c Settled (PROCESS_MIN_TIMEOUT * 1000))                         (* 365 *)
           (act (fun w => Ok (say (Came_up c) w)) Halt)))))
          else process_retry c)
     | Pending => Halt
     end)).

(** server-telnet.c:297-340 disconnect_telnet_obj *)
Definition telnet_close (c : nat) : prog :=
  act (cancel_timer c)                                                               (* 305-308 *)
 (act (close_fd c)                                                                   (* 309-317 *)
 (act (fun w => do d <- dev_of w c; Ok (match d_st d with Up => say (Went_down c) w | _ => w end))
 (act (upd c (with_st Down))                                                         (* 325 *)
 (look c (fun d => act (fun w => arm c Reconnect (d_delay d * 1000) (say (Retry c (d_delay d * 1000)) w))
 (act (fun w => do d <- dev_of w c;                                                  (* 332-338 *)
        if d_delay d =? 0 then upd c (with_delay TELNET_MIN_TIMEOUT) w
        else if d_delay d <? TELNET_MAX_TIMEOUT then upd c (with_delay (Z.min (d_delay d * 2) TELNET_MAX_TIMEOUT)) w
        else Ok w) Halt)))))).
(** server-telnet.c:267-285 *)
Definition telnet_up_ (c : nat) : prog :=
  act (upd c (with_st Up)) (act (fun w => Ok (say (Came_up c) w)) (act (arm c Settled (TELNET_MIN_TIMEOUT * 1000)) Halt)).
(** server-telnet.c:177-294 connect_telnet_obj *)
Definition telnet_connect (c : nat) (o : orc) : prog :=
  act (cancel_timer c)                                                               (* 187-190 *)
  (look c (fun d =>
     match d_st d with
     | Down =>
         act (fun w => Ok (say (Try c) w))
         (if o_name o then
            act (fun w => if o_sock o then upd c (with_fd (o_fd o)) w else UB Fatal)  (* 206 *)
            (match o_conn o with                                                     (* 225-235 *)
             | CDone => telnet_up_ c
             | CInProgress => act (upd c (with_st Pending)) Halt
             | CFailed => telnet_close c
             end)
          else act (fun w => arm c Reconnect (RESOLVE_RETRY_TIMEOUT * 1000) (say (Unresolved c) w)) Halt)
     | Pending => if o_sockerr o then telnet_close c else telnet_up_ c
     | Up => act (fun _ => UB NullDeref) Halt                                         (* 263-266 *)
     end)).
(** server-telnet.c:154-174 *)
Definition telnet_open (c : nat) (o : orc) : prog :=
  look c (fun d => match d_st d with Up => telnet_close c | _ => telnet_connect c o end).

(** server-obj.c:798-869 shutdown_obj, for a process console *)
Definition process_shutdown (c : nat) (o : orc) : prog :=
  look c (fun d => if d_fd d <? 0 then Halt else act (upd c (with_fd (-1))) (process_open c o)).
(** server-sock.c:918-926, 936-953 check_console_state *)
Definition process_client (c : nat) (o : orc) : prog := look c (fun d => if d_fd d <? 0 then process_open c o else Halt).
Definition telnet_client (c : nat) (o : orc) : prog :=
  look c (fun d =>
    match d_st d with
    | Up => Halt
    | _ => act (fun w => upd c (with_delay TELNET_MIN_TIMEOUT) (say (Asked c) w))
           (look c (fun d => match d_st d with Down => telnet_open c o | _ => Halt end))
    end).
(** tpoll.c:590-620: an expired timer is unlinked, then its callback is run *)
Definition fired (id : Z) (k : prog) : prog := act (fun w => Ok (cancel id w)) k.
