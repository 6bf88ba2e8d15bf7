(** Periodic timestamps in the console logs: src/server.c:557-634. *)
From Coq Require Import String.
From Verif Require Import Base Chars StrModel MsgModel.
Local Open Scope Z_scope.

Definition INT_MAX : Z := 2147483647.
Definition int_ (z : Z) : res Z := if (- INT_MAX - 1 <=? z) && (z <=? INT_MAX) then Ok z else UB SignedOverflow.

(** struct tm.  The date is kept as a number of days; [tm_off], the seconds that local
    time is ahead of UTC, stands for tm_isdst. *)
Record tm := mkTm { tm_day : Z; tm_hour : Z; tm_min : Z; tm_sec : Z; tm_off : Z }.
(** localtime_r(3) in a time zone where local time is [off t] seconds ahead at time [t] *)
Definition localtime (off : Z -> Z) (t : Z) : tm :=
  let l := t + off t in
  mkTm (l / 86400) (l mod 86400 / 3600) (l mod 3600 / 60) (l mod 60) (off t).
(** mktime(3): fields may be out of range; tm_isdst, left as localtime_r set it, makes it
    use the same offset.  The year does not overflow. *)
Definition mktime (x : tm) : Z := tm_day x * 86400 + tm_hour x * 3600 + tm_min x * 60 + tm_sec x - tm_off x.
(** util-str.c:365-403; [now]: what time() returns *)
Definition get_localtime (off : Z -> Z) (now t : Z) : tm := localtime off (if t =? 0 then now else t).

(** server.c:557-599.  [interval]: tStampMinutes, [next]: tStampNext before.  Gives
    tStampNext after, which is also the time for which the timer is set (594). *)
Definition schedule_timestamp (off : Z -> Z) (interval next now : Z) : res Z :=
  do _ <- assert_ (0 <? interval);
  let x := get_localtime off now next in
  do x <- (if next =? 0 then
             do h <- int_ (tm_hour x * 60);
             do m <- int_ (h + tm_min x);
             let numCompleted := Z.quot m interval in                       (* 576 *)
             do k <- int_ (numCompleted + 1);
             do m <- int_ (k * interval);                                   (* 577 *)
             Ok (mkTm (tm_day x) 0 m (tm_sec x) (tm_off x))
           else
             do m <- int_ (tm_min x + interval);                            (* 581 *)
             Ok (mkTm (tm_day x) (tm_hour x) m (tm_sec x) (tm_off x)));
  let x := mkTm (tm_day x) (tm_hour x) (tm_min x) 0 (tm_off x) in           (* 583 *)
  let t := mktime x in
  if t =? -1 then UB Fatal else Ok t.                                       (* 585 *)

(** server.c:618: what snprintf is given; [now]: create_long_time_string(0) *)
Definition stamp_text (name now : list Z) : list Z :=
  MSG_PREFIX ++ zs "Console [" ++ name ++ zs "] log at " ++ now ++ MSG_SUFFIX.

(** An object of the daemon, as far as it matters here: the log of a console, or not. *)
Inductive object := LogOf (console : list Z) | Other.
(** server.c:614-624; [buf]: the local buffer; [wrote]: what each log is given, so far *)
Fixpoint stamp_loop (buf now : list Z) (objs : list object) (wrote : list (list Z * list Z)) : res (list (list Z * list Z)) :=
  match objs with
  | [] => Ok wrote
  | Other :: objs => stamp_loop buf now objs wrote
  | LogOf c :: objs =>
      do buf <- notice (length buf) buf (stamp_text c now);                 (* 618-621 *)
      do n <- strlen buf;
      do s <- slice buf 0 n;                                                (* 622 *)
      stamp_loop buf now objs (wrote ++ [(c, s)])
  end.
(** server.c:602-634; None: no timer is set *)
Definition timestamp_logfiles (off : Z -> Z) (interval next clock : Z) (buf now : list Z) (objs : list object)
    : res (list (list Z * list Z) * option Z) :=
  do wrote <- stamp_loop buf now objs [];
  match wrote with
  | [] => Ok ([], None)
  | _ => do t <- schedule_timestamp off interval next clock; Ok (wrote, Some t)
  end.

(** One expiry of the timer: the time at which the callback runs, which is not before the
    time for which the timer was set; the stack's contents, the time as a text and the
    objects at that time. *)
Record expiry := mkExp { e_clock : Z; e_buf : list Z; e_now : list Z; e_objs : list object }.
(** The callbacks of the timer, one after the other; gives for each the time for which it
    was set and what was written, and the time for which the timer is set in the end. *)
Fixpoint expiries (off : Z -> Z) (interval : Z) (next : option Z) (es : list expiry)
    : res (list (Z * list (list Z * list Z)) * option Z) :=
  match es, next with
  | e :: es, Some t =>
      if e_clock e <? t then UB AssertFail                                  (* does not happen *)
      else
        do r <- timestamp_logfiles off interval t (e_clock e) (e_buf e) (e_now e) (e_objs e);
        do rest <- expiries off interval (snd r) es;
        Ok ((t, fst r) :: fst rest, snd rest)
  | _, _ => Ok ([], next)
  end.
(** main(), server.c:125-127, and what follows from it *)
Definition timestamps (off : Z -> Z) (interval start : Z) (es : list expiry) :=
  do t <- schedule_timestamp off interval 0 start;
  expiries off interval (Some t) es.
