(** Model of the output of one client at the level of single memory accesses and calls of
    tpoll (src/server-obj.c:684-736 unlink_objs, 800-853 shutdown_obj, 916-925
    read_from_obj, 962-1076 write_obj_data, 1079-1181 write_to_obj and
    src/server-esc.c:553-578 perform_suspend).  Any number of threads write to the
    client; thread 0 is the main loop, which alone flushes, suspends and closes it.
    RingModel takes each of these calls as one step; here other threads run in between.

    Simplifications.  Only the number of pending bytes is kept (RingModel has the bytes
    themselves), so whether a write goes past the end of the buffer is chosen by the
    schedule.  Memory is sequentially consistent.  What happens to the memory of a client
    that has been closed is not modelled. *)
From Verif Require Import Base.
Set Implicit Arguments.

(** Steps of the calls below. *)
Inductive instr :=
| Check (k : nat) (w : bool)   (* server-obj.c:982: gotEOF, without the lock *)
| Acquire                      (* 993, 1101: x_pthread_mutex_lock(&obj->bufLock) *)
| Put (k : nat)                (* 1013-1052: the bytes and bufInPtr, bufOutPtr *)
| LoadWrap                     (* 1032: gotBufWrap = 1, a bit-field next to gotEOF ... *)
| StoreWrap (eof : bool)       (* ... so the word read is written back with the bit set *)
| Ask                          (* 1056: is the client suspended? *)
| Want                         (* 1057: tpoll_set(POLLOUT) *)
| Release                      (* 1066 *)
| Send (n : nat)               (* 1132-1157: writev() took n bytes *)
| Empty                        (* 1160-1165: anything left?  gotEOF? *)
| Rest (dead : bool)           (* 1170: tpoll_clear(POLLOUT) *)
| Part (dead : bool)           (* 1179, 1181: unlock; shutdown_obj() if isDead *)
| LoadEof (q : bool)           (* 727, 732, 921: gotEOF = 1, read ... *)
| StoreEof (wrap q : bool)     (* ... and written back; [q]: 923-924 follow *)
| Peek                         (* 923-924: the pointers are compared without the lock *)
| Close                        (* 819-839: tpoll_clear, close(), empty the buffer *)
| Flip                         (* server-esc.c:562 *)
| Tell (b : bool)              (* 564-569: tpoll_clear (true) or tpoll_set (false) *).

(** [pend]: bytes in the buffer; [out]: POLLOUT is asked for; [lock]: holder of bufLock;
    [code]: what each thread has left of its call. *)
Record st := mkS {
  pend : nat; out : bool; susp : bool; eof : bool; wrap : bool;
  lock : option nat; gone : bool; code : nat -> list instr }.

Definition put (f : nat -> list instr) (t : nat) (v : list instr) : nat -> list instr :=
  fun u => if u =? t then v else f u.

(** One step of thread [t]; [r] is the rest of its call.  [cap] is OBJ_BUF_SIZE - 1. *)
Definition exec (cap : nat) (s : st) (t : nat) (i : instr) (r : list instr) : st :=
  let go := mkS (pend s) (out s) (susp s) (eof s) (wrap s) (lock s) (gone s) in
  let on r' := put (code s) t r' in
  match i with
  | Check k w =>
      if eof s then go (on [])
      else go (on (Acquire :: Put k :: (if w then [LoadWrap] else []) ++ [Ask]))
  | Acquire =>
      match lock s with
      | None => mkS (pend s) (out s) (susp s) (eof s) (wrap s) (Some t) (gone s) (on r)
      | Some _ => s
      end
  | Put k => mkS (Nat.min (pend s + k) cap) (out s) (susp s) (eof s) (wrap s) (lock s) (gone s) (on r)
  | LoadWrap => go (on (StoreWrap (eof s) :: r))
  | StoreWrap e => mkS (pend s) (out s) (susp s) e true (lock s) (gone s) (on r)
  | Ask => go (on (if susp s then [Release] else [Want; Release]))
  | Want => mkS (pend s) true (susp s) (eof s) (wrap s) (lock s) (gone s) (on r)
  | Release => mkS (pend s) (out s) (susp s) (eof s) (wrap s) None (gone s) (on r)
  | Send n => mkS (pend s - n) (out s) (susp s) (eof s) (wrap s) (lock s) (gone s) (on r)
  | Empty => go (on (if pend s =? 0 then [Rest (eof s)] else [Part false]))
  | Rest d => mkS (pend s) false (susp s) (eof s) (wrap s) (lock s) (gone s) (on [Part d])
  | Part d => mkS (pend s) (out s) (susp s) (eof s) (wrap s) None (gone s) (on (if d then [Close] else []))
  | LoadEof q => go (on [StoreEof (wrap s) q])
  | StoreEof w q => mkS (pend s) (out s) (susp s) true w (lock s) (gone s) (on (if q then [Peek] else []))
  | Peek => go (on (if pend s =? 0 then [Close] else []))
  | Close => mkS 0 false (susp s) false (wrap s) (lock s) true (on r)
  | Flip => mkS (pend s) (out s) (negb (susp s)) (eof s) (wrap s) (lock s) (gone s) (on [Tell (negb (susp s))])
  | Tell b => mkS (pend s) (negb b) (susp s) (eof s) (wrap s) (lock s) (gone s) (on r)
  end.

(** The calls.  [Write k w]: write_obj_data of k bytes, past the end of the buffer or not;
    [Unlink]: unlink_objs sets gotEOF of a client that has lost its last link;
    [Flush n]: write_to_obj; [Hup]: read_from_obj reads end of file;
    [Suspend]: perform_suspend. *)
Inductive call := Write (k : nat) (w : bool) | Unlink | Flush (n : nat) | Hup | Suspend.
Definition begin (c : call) : list instr :=
  match c with
  | Write k w => [Check k w]
  | Unlink => [LoadEof false]
  | Flush n => [Acquire; Send n; Empty]
  | Hup => [LoadEof true]
  | Suspend => [Flip]
  end.
(** Only the main loop makes the last three. *)
Definition may (t : nat) (c : call) : bool :=
  match c with Write _ _ | Unlink => true | _ => t =? 0 end.
Definition idle (s : st) (t : nat) : bool := match code s t with [] => true | _ => false end.

(** A schedule: a thread begins a call, or makes its next step. *)
Inductive event := Begin (t : nat) (c : call) | Run (t : nat).
Definition step (cap : nat) (s : st) (e : event) : st :=
  match e with
  | Begin t c =>
      if may t c && idle s t
      then mkS (pend s) (out s) (susp s) (eof s) (wrap s) (lock s) (gone s) (put (code s) t (begin c)) else s
  | Run t => match code s t with [] => s | i :: r => exec cap s t i r end
  end.
Definition run (cap : nat) (s : st) (es : list event) : st := fold_left (step cap) es s.
(** server-obj.c:60-135: a new client *)
Definition start : st := mkS 0 false false false false None false (fun _ => []).
