(** Model of the lexer, src/lex.c. *)
From Coq Require Import String.
From Verif Require Import Base Chars.
Local Open Scope Z_scope.

(** lex.h:55-71 *)
Definition LEX_MAX_STR : nat := Z.to_nat 1024.
Definition LEX_ERR := -1.
Definition LEX_EOF := 0.
Definition LEX_EOL := 256.
Definition LEX_INT := 257.
Definition LEX_STR := 258.
Definition LEX_TOK_OFFSET := 259.

(** lex.c:64-75.  [x_buf] is the block [pos] points into, [x_pos] the index of *pos
    in it, [x_text] the string held in text[]. *)
Record lex := mkLex {
  x_buf : list Z; x_pos : nat; x_toks : list (list Z);
  x_text : list Z; x_prev : Z; x_line : nat; x_eol : bool }.

(** lex.c:101-127 *)
Definition lex_create (buf : list Z) (toks : list (list Z)) : lex :=
  mkLex buf 0 toks [] 0 0 true.

(** A <ctype.h> test applied to *p.  ISO C leaves it undefined for the negative
    values a signed char takes ([iso] = true); the C library used in practice
    answers false in the "C" locale ([iso] = false). *)
Definition ctype (iso : bool) (f : Z -> bool) (c : Z) : res bool :=
  if 0 <=? schar c then Ok (f c) else if iso then UB OutOfBounds else Ok false.

(** for (p = ...; *p && ...; p++): first index from [p] where [stop] holds.
    [n] bounds the number of steps. *)
Fixpoint scan (n : nat) (buf : list Z) (p : nat) (stop : Z -> res bool) : res nat :=
  match n with
  | O => UB OutOfFuel
  | S n' =>
      do c <- get buf p;
      do b <- stop c;
      if b then Ok p else scan n' buf (S p) stop
  end.

(** memcpy(text, ..., len); text[len] = '\0' *)
Definition set_text (s : list Z) : res (list Z) :=
  if (length s <? LEX_MAX_STR)%nat then Ok s else UB OutOfBounds.

(** lex.c:320-345, lookup_token: [n] bounds the number of steps *)
Fixpoint lookup_loop (n : nat) (str : list Z) (toks : list (list Z)) (low high : Z) : res Z :=
  match n with
  | O => UB OutOfFuel
  | S n' =>
      if low <=? high then
        let middle := (low + high) / 2 in
        do t <- get toks (Z.to_nat middle);
        let x := strcasecmp str t in
        if x <? 0 then lookup_loop n' str toks low (middle - 1)
        else if 0 <? x then lookup_loop n' str toks (middle + 1) high
        else Ok (middle + LEX_TOK_OFFSET)
      else Ok LEX_STR
  end.
Definition lookup_token (str : list Z) (toks : list (list Z)) : res Z :=
  lookup_loop (S (length toks)) str toks 0 (Z.of_nat (length toks) - 1).

(** Return a token: new position, text and token; lex.c:157-158 and the like *)
Definition tok_ret (l : lex) (pos : nat) (text : list Z) (tok : Z) (eol : bool) : res (Z * lex) :=
  do t <- set_text text;
  Ok (tok, mkLex (x_buf l) pos (x_toks l) t tok (x_line l) eol).

(** lex.c:207-229: words, integers, single characters *)
Definition lex_default (iso : bool) (l : lex) (c : Z) : res (Z * lex) :=
  let buf := x_buf l in
  let p := x_pos l in
  do al <- ctype iso isalpha c;
  if al || (c =? UNDERSCORE) then                                    (* 208 *)
    do e <- scan (length buf) buf (S p)
              (fun d => if d =? NUL then Ok true
                        else do a <- ctype iso isalnum d; Ok (negb (a || (d =? UNDERSCORE))));
    let len := Nat.min (e - p) (LEX_MAX_STR - 1) in                  (* 210 *)
    do s <- slice buf p len;
    do t <- set_text s;
    do tok <- lookup_token t (x_toks l);
    tok_ret l e t tok (x_eol l)
  else
    do dg <- ctype iso isdigit c;
    do num <- (if dg then Ok true
               else if (c =? MINUS) || (c =? PLUS)
               then do d <- get buf (S p); ctype iso isdigit d else Ok false);
    if num then                                                       (* 216-218 *)
      do e <- scan (length buf) buf (S p)
                (fun d => if d =? NUL then Ok true
                          else do a <- ctype iso isdigit d; Ok (negb a));
      let len := Nat.min (e - p) (LEX_MAX_STR - 1) in
      do s <- slice buf p len;
      tok_ret l e s LEX_INT (x_eol l)
    else tok_ret l (S p) [c] (schar c) (x_eol l).                     (* 227-229 *)

Definition at_pos (l : lex) (p : nat) (lines : nat) : lex :=
  mkLex (x_buf l) p (x_toks l) (x_text l) (x_prev l) (x_line l + lines) (x_eol l).

(** lex.c:154-231: the loop; each round starts at another position *)
Fixpoint lex_loop (n : nat) (iso : bool) (l : lex) : res (Z * lex) :=
  match n with
  | O => UB OutOfFuel
  | S n' =>
      let buf := x_buf l in
      let p := x_pos l in
      do c <- get buf p;
      if c =? NUL then tok_ret l p [] LEX_EOF (x_eol l)               (* 156 *)
      else if (c =? SPACE) || (c =? TAB) || (c =? VT) || (c =? FF) then
        lex_loop n' iso (at_pos l (S p) 0)                            (* 164 *)
      else if c =? HASH then                                          (* 166 *)
        do e <- scan (length buf) buf (S p) (fun d => Ok ((d =? NUL) || (d =? LF) || (d =? CR)));
        lex_loop n' iso (at_pos l e 0)
      else if c =? CR then                                            (* 171 *)
        do d <- get buf (S p);
        if d =? LF then tok_ret l (S (S p)) [d] LEX_EOL true
        else tok_ret l (S p) [c] LEX_EOL true
      else if c =? LF then tok_ret l (S p) [c] LEX_EOL true           (* 175 *)
      else if (c =? DQUOTE) || (c =? QUOTE) then                      (* 180 *)
        do e <- scan (length buf) buf (S p)
                  (fun d => Ok ((d =? NUL) || (d =? c) || (d =? CR) || (d =? LF)));
        do d <- get buf e;
        if d =? c then
          let len := Nat.min (e - p - 1) (LEX_MAX_STR - 1) in         (* 184 *)
          do s <- slice buf (S p) len;
          tok_ret l (S e) s LEX_STR (x_eol l)
        else tok_ret l e [] LEX_ERR (x_eol l)                         (* 191 *)
      else if c =? BACKSLASH then                                     (* 195 *)
        do d <- get buf (S p);
        if d =? LF then lex_loop n' iso (at_pos l (S (S p)) 1)
        else if d =? CR then
          do e <- get buf (S (S p));
          if e =? LF then lex_loop n' iso (at_pos l (S (S (S p))) 1)
          else lex_default iso l c
        else lex_default iso l c
      else lex_default iso l c
  end.

(** lex.c:141-232, lex_next *)
Definition lex_next (iso : bool) (l : lex) : res (Z * lex) :=
  let l1 := if x_eol l                                                (* 149-152 *)
            then mkLex (x_buf l) (x_pos l) (x_toks l) (x_text l) (x_prev l) (S (x_line l)) false
            else l in
  lex_loop (S (length (x_buf l))) iso l1.

(** lex.c:348-360, lex_encode; the assert (355) is on the input *)
Definition lex_encode (dbg : bool) (s : list Z) : res (list Z) :=
  do _ <- assert_if dbg (forallb (fun c => c <? 128) s);
  Ok (map (fun c => if (c =? QUOTE) || (c =? DQUOTE) then Z.lor c 128 else c) s).
(** lex.c:363-373, lex_decode.  A character reduced to NUL ends the string. *)
Fixpoint until_nul (s : list Z) : list Z :=
  match s with [] => [] | c :: t => if c =? NUL then [] else c :: until_nul t end.
Definition lex_decode (s : list Z) : list Z := until_nul (map (fun c => Z.land c 127) s).

(** common.c:55-79, proto_strs *)
Local Open Scope string_scope.
Definition proto_strs : list (list Z) := map zs
  ["BROADCAST"; "CODE"; "CONNECT"; "CONSOLE"; "ERROR"; "FORCE"; "HELLO"; "JOIN"; "MESSAGE";
   "MONITOR"; "OK"; "OPTION"; "QUERY"; "QUIET"; "REGEX"; "RESET"; "TTY"; "USER"].
(** common.h:174-197, enum proto_toks *)
Definition TOK_BROADCAST := 259.
Definition TOK_CODE := 260.
Definition TOK_CONNECT := 261.
Definition TOK_CONSOLE := 262.
Definition TOK_ERROR := 263.
Definition TOK_FORCE := 264.
Definition TOK_HELLO := 265.
Definition TOK_JOIN := 266.
Definition TOK_MESSAGE := 267.
Definition TOK_MONITOR := 268.
Definition TOK_OK := 269.
Definition TOK_OPTION := 270.
Definition TOK_QUERY := 271.
Definition TOK_QUIET := 272.
Definition TOK_REGEX := 273.
Definition TOK_RESET := 274.
Definition TOK_TTY := 275.
Definition TOK_USER := 276.

(** server-conf.c:87-127, server_conf_strs; [ipmi]: WITH_FREEIPMI *)
Definition server_conf_strs (ipmi : bool) : list (list Z) := map zs
  (["CONSOLE"; "COREDUMP"; "COREDUMPDIR"; "DEV"; "EXECPATH"; "GLOBAL"] ++
   (if ipmi then ["IPMIOPTS"] else []) ++
   ["KEEPALIVE"; "LOG"; "LOGDIR"; "LOGFILE"; "LOGOPTS"; "LOOPBACK"; "NAME"; "NOFILE"; "OFF"; "ON";
    "PIDFILE"; "PORT"; "RESETCMD"; "SEROPTS"; "SERVER"; "SYSLOG"; "TCPWRAPPERS"; "TESTOPTS";
    "TIMESTAMP"])%list.
