(** Model of the places where messages are formatted into fixed buffers:
    src/server-obj.c:write_notify_msg, the notices in server-obj.c and
    server-sock.c that end with strcpy, and src/log.c:log_aux.

    What a format and its arguments expand to is given as a text.  The C library's
    vsnprintf never fails here (result < 0 is not modelled).  The buffers' initial
    contents are arbitrary.  [L] is MAX_LINE (common.h:87). *)
From Coq Require Import String.
From Verif Require Import Base Chars StrModel.
Local Open Scope nat_scope.

(** common.h:73-74 *)
Definition MSG_PREFIX : list Z := CR :: LF :: zs "<ConMan> ".
Definition MSG_SUFFIX : list Z := [DOT; CR; LF].

(** server-obj.c:535-568, write_notify_msg up to the call of notify_console_objs;
    [t]: what fmt and its arguments expand to.  Returns buf. *)
Definition notify_msg (L : nat) (buf t : list Z) : res (list Z) :=
  do r1 <- vsnprintf buf 0 L MSG_PREFIX;                                    (* 537 *)
  let '(p1, len1) := if L <=? snd r1 then (0, 0) else (snd r1, L - snd r1) in
  do r2 <- (if 0 <? len1 then                                               (* 546 *)
              do r <- vsnprintf (fst r1) p1 len1 t;
              if len1 <=? snd r then Ok (fst r, p1, 0)                      (* 551 *)
              else Ok (fst r, p1 + snd r, len1 - snd r)
            else Ok (fst r1, p1, len1));
  let '(buf2, p2, len2) := r2 in
  let '(p3, len3) :=
    if len2 <? length MSG_SUFFIX + 1                                        (* 561 *)
    then (L - length MSG_SUFFIX - 1, L - (L - length MSG_SUFFIX - 1))       (* "p < buf" is cut off at 0 *)
    else (p2, len2) in
  do r3 <- vsnprintf buf2 p3 len3 MSG_SUFFIX;                               (* 568 *)
  Ok (fst r3).

(** server-obj.c:628-634, 643-649, 710-716, server-sock.c:919-923, 928-932,
    938-942, 956-960, 967-971: snprintf into buf followed by
    strcpy(&buf[sizeof(buf) - 3], "\r\n"). *)
Definition notice (L : nat) (buf t : list Z) : res (list Z) :=
  do r <- vsnprintf buf 0 L t;
  blit (fst r) (L - 3) [CR; LF; NUL].

(** log.c:261-283, log_prefix, with the padding added in 208-213 *)
Definition prefix_field (prefix : list Z) : list Z :=
  let m := 10 - length prefix in
  prefix ++ COLON :: repeat SPACE (if m <=? 0 then 1 else m).

(** A step "n = snprintf(p, len, ...); if (n >= len) n = len - 1; p += n; len -= n;"
    (213-218, 222-227, 232-237) *)
Definition put_clipped (buf : list Z) (p len : nat) (t : list Z) : res (list Z * nat * nat) :=
  do r <- vsnprintf buf p len t;
  let n := if len <=? snd r then len - 1 else snd r in
  Ok (fst r, p + n, len - n).

(** strcat(&buf[p], s) *)
Definition strcat (buf : list Z) (p : nat) (s : list Z) : res (list Z) :=
  do e <- find_nul (S (length buf)) buf p;
  blit buf e (s ++ [NUL]).

(** log.c:181-240, log_aux: [stamp] is the time (with a blank at its end), which
    strftime stores only if it fits; [prefix] is log_prefix's result; [fmt] the
    format and [t] its expansion; [err] is strerror(errnum) if errnum > 0.  Returns
    buf and the positions of pbuf and sbuf. *)
Definition log_aux (L : nat) (buf stamp : list Z) (prefix : option (list Z)) (fmt t : list Z)
    (err : option (list Z)) : res (list Z * nat * nat) :=
  let len0 := L - 1 in                                                      (* 195 *)
  do r1 <- (if length stamp <? len0
            then do b <- blit buf 0 (stamp ++ [NUL]); Ok (b, length stamp, len0 - length stamp)
            else do b <- put buf 0 NUL; Ok (b, 0, 0));                      (* 200 *)
  let '(b1, p1, len1) := r1 in
  do r2 <- (match prefix with
            | Some x => if 0 <? len1 then put_clipped b1 p1 len1 (prefix_field x) else Ok (b1, p1, len1)
            | None => Ok (b1, p1, len1)
            end);                                                           (* 207 *)
  let '(b2, p2, len2) := r2 in
  do r3 <- (if 0 <? len2 then put_clipped b2 p2 len2 t else Ok (b2, p2, len2)); (* 221 *)
  let '(b3, p3, len3) := r3 in
  do last <- get fmt (length fmt - 1);                                      (* 230 *)
  do _ <- assert_ (0 <? length fmt);
  if (last =? LF)%Z then Ok (b3, p1, p2)
  else
    do r4 <- (match err with
              | Some e => if 0 <? len3 then put_clipped b3 p3 len3 (COLON :: SPACE :: e) else Ok (b3, p3, len3)
              | None => Ok (b3, p3, len3)
              end);
    let '(b4, p4, len4) := r4 in
    do b5 <- strcat b4 p4 [LF];                                             (* 239 *)
    Ok (b5, p1, p2).

(** log.c:242-245: strncpy(msgbuf, sbuf, msgbuflen) and a NUL at the end *)
Definition copy_msg (msgbuf : list Z) (src : list Z) (s : nat) : res (list Z) :=
  let n := length msgbuf in
  if n =? 0 then Ok msgbuf
  else
    do e <- find_nul (S (length src)) src s;
    do t <- slice src s (e - s);
    do b <- blit msgbuf 0 (firstn n (t ++ repeat NUL n));
    put b (n - 1) NUL.
