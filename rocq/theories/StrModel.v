(** Model of the string utilities: portable/strlcpy.c, portable/strlcat.c and
    src/util-str.c.  Blocks of memory are lists of exactly the size of the object;
    strings are characters followed by NUL somewhere in a block. *)
From Verif Require Import Base Chars Fmt LexModel.
Local Open Scope Z_scope.

(** while ( *s++ ) ; -- index of the first NUL at or after [s] *)
Fixpoint find_nul (n : nat) (src : list Z) (s : nat) : res nat :=
  match n with
  | O => UB OutOfFuel
  | S n' => do c <- get src s; if c =? NUL then Ok s else find_nul n' src (S s)
  end.
(** strlen(3) *)
Definition strlen (src : list Z) : res nat := find_nul (S (length src)) src 0.

(** strlcpy.c:40-43: copy until a NUL has been copied or [n] characters have been *)
Fixpoint lcpy_loop (n : nat) (dst : list Z) (d : nat) (src : list Z) (s : nat) : res (list Z * nat * nat * nat) :=
  match n with
  | O => Ok (dst, d, s, O)
  | S n' =>
      do c <- get src s;
      do dst1 <- put dst d c;
      if c =? NUL then Ok (dst1, S d, S s, n) else lcpy_loop n' dst1 (S d) src (S s)
  end.
(** strlcpy.c:31-55; [d0] is the place in the block where dst points *)
Definition strlcpy (dst : list Z) (d0 : nat) (src : list Z) (siz : nat) : res (list Z * nat) :=
  do r <- lcpy_loop (siz - 1) dst d0 src 0;
  let '(dst1, d, s, n) := r in
  if (n =? 0)%nat then                                        (* 47 *)
    do dst2 <- (if (siz =? 0)%nat then Ok dst1 else put dst1 d NUL);
    do e <- find_nul (S (length src)) src s;
    Ok (dst2, e)
  else Ok (dst1, (s - 1)%nat).                                (* 54 *)

(** strlcat.c:42-43 *)
Fixpoint lcat_end (n : nat) (dst : list Z) (d : nat) : res nat :=
  match n with
  | O => Ok d
  | S n' => do c <- get dst d; if c =? NUL then Ok d else lcat_end n' dst (S d)
  end.
(** strlcat.c:49-55; [k] bounds the number of steps *)
Fixpoint lcat_loop (k : nat) (n : nat) (dst : list Z) (d : nat) (src : list Z) (s : nat) : res (list Z * nat * nat) :=
  match k with
  | O => UB OutOfFuel
  | S k' =>
      do c <- get src s;
      if c =? NUL then Ok (dst, d, s)
      else if (n =? 1)%nat then lcat_loop k' n dst d src (S s)
      else do dst1 <- put dst d c; lcat_loop k' (n - 1) dst1 (S d) src (S s)
  end.
(** strlcat.c:33-59 *)
Definition strlcat (dst src : list Z) (siz : nat) : res (list Z * nat) :=
  do d <- lcat_end siz dst 0;
  let n := (siz - d)%nat in
  if (n =? 0)%nat then do e <- strlen src; Ok (dst, (d + e)%nat)
  else
    do r <- lcat_loop (S (length src)) n dst d src 0;
    let '(dst1, d1, s) := r in
    do dst2 <- put dst1 d1 NUL;
    Ok (dst2, (d + s)%nat).

(** vsnprintf(p, n, ...) where the format and arguments expand to [t] *)
Definition vsnprintf (dst : list Z) (p n : nat) (t : list Z) : res (list Z * nat) :=
  if (n =? 0)%nat then Ok (dst, length t)
  else do dst1 <- blit dst p (firstn (n - 1) t ++ [NUL]); Ok (dst1, length t).

(** util-str.c:193-196: the loop to the end of dst[]; *p is read before num_left is tested *)
Fixpoint app_end (n : nat) (dst : list Z) (p : nat) : res (nat * nat) :=
  do c <- get dst p;
  if c =? NUL then Ok (p, n)
  else match n with O => Ok (p, O) | S n' => app_end n' dst (S p) end.
(** util-str.c:176-215, append_format_string; [t]: what fmt and its arguments expand to.
    dst and fmt are not NULL. *)
Definition append_format_string (dst : list Z) (size : nat) (t : list Z) : res (list Z * Z) :=
  if (size =? 0)%nat then Ok (dst, 0)
  else
    do r <- app_end size dst 0;
    let '(p, num_left) := r in
    if (num_left <=? 1)%nat then do dst1 <- put dst (size - 1) NUL; Ok (dst1, -1)
    else
      do _ <- assert_ (num_left + p =? size)%nat;             (* 205 *)
      do r2 <- vsnprintf dst p num_left t;
      let '(dst1, n) := r2 in
      if (num_left <=? n)%nat then Ok (dst1, -1)
      else Ok (dst1, Z.of_nat (p + n)).

(** util-str.c:234-247; [k] bounds the number of steps, [len] is an int *)
Fixpoint subst_loop (k : nat) (dst : list Z) (src : list Z) (c : Z) (sub : option (list Z))
    (p q : nat) (len : Z) : res (list Z * nat * Z) :=
  match k with
  | O => UB OutOfFuel
  | S k' =>
      do a <- get src p;
      if (a =? NUL) || (len <=? 0) then Ok (dst, q, len)
      else
        do tok <- (if a =? PERCENT then do b <- get src (S p); Ok (b =? c) else Ok false);
        if tok then
          match sub with
          | Some s =>
              do r <- strlcpy dst q s (Z.to_nat len);
              subst_loop k' (fst r) src c sub (S (S p)) (q + snd r) (len - Z.of_nat (snd r))
          | None => subst_loop k' dst src c sub (S (S p)) q len
          end
        else
          do dst1 <- put dst q a;
          subst_loop k' dst1 src c sub (S p) (S q) (len - 1)
  end.
(** util-str.c:218-256, substitute_string; dst and src are not NULL *)
Definition substitute_string (dst : list Z) (dstlen : nat) (src : list Z) (c : Z) (sub : option (list Z))
    : res (list Z * Z) :=
  if (dstlen =? 0)%nat || (c =? NUL) then Ok (dst, -1)
  else
    do r <- subst_loop (S (length src)) dst src c sub 0 0 (Z.of_nat dstlen);
    let '(dst1, q, len) := r in
    if 0 <? len then do dst2 <- put dst1 q NUL; Ok (dst2, Z.of_nat dstlen - len)
    else do dst2 <- put dst1 (dstlen - 1) NUL; Ok (dst2, -1).

(** util-str.c:109-120, is_empty_string, for a string that is not NULL *)
Definition is_empty_string (iso : bool) (s : list Z) : res bool :=
  (fix go (s : list Z) := match s with
   | [] => Ok true
   | c :: t => do b <- ctype iso isspace c; if b then go t else Ok false
   end) s.

(** util-str.c:141-143 *)
Fixpoint space_loop (n : nat) (iso : bool) (buf : list Z) (p : nat) : res nat :=
  match n with
  | O => UB OutOfFuel
  | S n' =>
      do c <- get buf p;
      if c =? NUL then Ok p
      else do b <- ctype iso isspace c; if b then space_loop n' iso buf (S p) else Ok p
  end.
(** How the scan for the end of the word (148-166) ends. *)
Inductive scan_end := SEnd (buf : list Z) (p q : nat) (quote : Z) | SErr (p q : nat).
Fixpoint word_loop (n : nat) (iso : bool) (buf : list Z) (p q : nat) : res scan_end :=
  match n with
  | O => UB OutOfFuel
  | S n' =>
      do cq <- get buf q;
      if cq =? NUL then Ok (SEnd buf p q 0)                                   (* 148 *)
      else
        do cp <- get buf p;
        if (cp =? DQUOTE) || (cp =? QUOTE) then                               (* 149 *)
          do cn <- get buf (S q);
          do fin <- (if cq =? cp then
                       do sp <- ctype iso isspace cn; Ok (sp || (cn =? NUL)) else Ok false);
          if fin then                                                          (* 150-153 *)
            do buf1 <- put buf q NUL; Ok (SEnd buf1 (S p) (S q) cp)
          else if cn =? NUL then Ok (SErr p (S q))                            (* 155-159 *)
          else word_loop n' iso buf p (S q)
        else
          do sp <- ctype iso isspace cq;
          if sp then do buf1 <- put buf q NUL; Ok (SEnd buf1 p (S q) 0)       (* 162-164 *)
          else word_loop n' iso buf p (S q)
  end.
(** util-str.c:123-173, parse_string.  [ptr] is the index held in *ptr_p.  Result: the
    string, *dst_p, *ptr_p, *quote_p if it was set, the return value. *)
Definition parse_string (iso : bool) (buf : list Z) (ptr : nat)
    : res (list Z * nat * nat * option Z * Z) :=
  do p <- space_loop (S (length buf)) iso buf ptr;
  do c <- get buf p;
  if c =? NUL then Ok (buf, p, p, None, 0)
  else
    do r <- word_loop (S (length buf)) iso buf p (S p);
    match r with
    | SEnd buf1 p1 q1 qt => Ok (buf1, p1, q1, Some qt, 1)
    | SErr p1 q1 => Ok (buf, p1, q1, None, -1)
    end.

(** The loop that calls parse_string until it returns 0 or less, server-conf.c:799-811,
    without the substitution: the index and quote of each word, the string, the last
    return value.  [n] bounds the number of calls. *)
Fixpoint parse_words (n : nat) (iso : bool) (buf : list Z) (ptr : nat) : res (list (nat * Z) * list Z * Z) :=
  match n with
  | O => UB OutOfFuel
  | S n' =>
      do r <- parse_string iso buf ptr;
      let '(buf1, p, ptr1, qt, rc) := r in
      if rc <=? 0 then Ok ([], buf1, rc)
      else
        do r2 <- parse_words n' iso buf1 ptr1;
        let '(ws, buf2, rc2) := r2 in
        Ok ((p, match qt with Some q => q | None => 0 end) :: ws, buf2, rc2)
  end.

(** util-str.c:295-344, create_time_delta_string, for a known t1.  difftime's double
    holds every difference of less than 2^53 s exactly. *)
Definition time_delta_string (dbg : bool) (t0 t1 : Z) : res (list Z) :=
  let n0 := t1 - t0 in
  do _ <- assert_if dbg (0 <=? n0);                              (* 307 *)
  let seconds := Z.rem n0 60 in let n1 := Z.quot n0 60 in
  let minutes := Z.rem n1 60 in let n2 := Z.quot n1 60 in
  let hours := Z.rem n2 24 in let n3 := Z.quot n2 24 in
  let days := Z.rem n3 7 in let n4 := Z.quot n3 7 in
  let weeks := Z.rem n4 52 in let years := Z.quot n4 52 in
  let i n u := fmt_d n ++ [u] in
  let s := i seconds 115 in
  let ms := i minutes 109 ++ s in
  let hms := i hours 104 ++ ms in
  let dhms := i days 100 ++ hms in
  let wdhms := i weeks 119 ++ dhms in
  let t := if 0 <? years then i years 121 ++ wdhms
           else if 0 <? weeks then wdhms
           else if 0 <? days then dhms
           else if 0 <? hours then hms
           else if 0 <? minutes then ms
           else s in
  do _ <- assert_if dbg (length t <? 32)%nat;                    (* 342 *)
  Ok (firstn 31 t).                                              (* snprintf into buf[32] *)

(** util-str.c:440-456, toint *)
Definition toint (c : Z) : Z :=
  if (48 <=? c) && (c <=? 57) then c - 48
  else if (65 <=? c) && (c <=? 70) then c - 65 + 10
  else if (97 <=? c) && (c <=? 102) then c - 97 + 10
  else 0.

(** util-str.c:407-417, the replacement for strcasecmp(3) *)
Fixpoint strcasecmp_r (a b : list Z) : Z :=
  match a, b with
  | x :: a', y :: b' => if toupper x =? toupper y then strcasecmp_r a' b' else toupper x - toupper y
  | x :: _, [] => toupper x
  | [], y :: _ => - toupper y
  | [], [] => 0
  end.
