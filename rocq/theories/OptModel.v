(** Model of the option strings of devices and logs: src/server-serial.c:123-222,
    src/server-test.c:66-181 and 277-355, src/server-ipmi.c:155-711,
    src/server-logfile.c:47-103.

    A C string is the list of its characters before the terminator.  The texts of
    the error messages are left out: a failing function returns None.  The
    functions of the C library that are used (strtok, strtol, strtoul, sscanf,
    strspn, strcasecmp, toupper) are given by their definition in the C standard. *)
From Coq Require Import String.
From Verif Require Import Base Chars Fmt LexModel StrModel.
Local Open Scope Z_scope.

(** ** The C library *)

(** strtok(s, ...) followed by strtok(NULL, ...) until it returns NULL: the tokens.
    [cur]: the characters of the current token, last one first. *)
Fixpoint tokens (sep : Z -> bool) (cur : list Z) (s : list Z) : list (list Z) :=
  match s with
  | [] => match cur with [] => [] | _ => [rev cur] end
  | c :: t =>
      if sep c then match cur with [] => tokens sep [] t | _ => rev cur :: tokens sep [] t end
      else tokens sep (c :: cur) t
  end.
Definition strtok_all (sep : Z -> bool) (s : list Z) : list (list Z) := tokens sep [] s.

Definition dval (c : Z) : Z :=
  if isdigit c then c - 48 else if isalpha c then tolower c - 97 + 10 else 99.
Definition is_dig (b c : Z) : bool := dval c <? b.

(** The digits in base [b] at the start of [s]. *)
Fixpoint take_digits (b acc : Z) (s : list Z) : Z * list Z :=
  match s with
  | c :: t => if is_dig b c then take_digits b (acc * b + dval c) t else (acc, s)
  | [] => (acc, s)
  end.
Definition hexmark (s : list Z) : bool :=
  match s with z :: x :: h :: _ => (z =? 48) && ((x =? 120) || (x =? 88)) && is_dig 16 h | _ => false end.

Definition take_sign (s : list Z) : bool * list Z :=
  match s with
  | c :: t => if c =? MINUS then (true, t) else if c =? PLUS then (false, t) else (false, s)
  | [] => (false, s)
  end.

(** The subject sequence for base 0: sign, magnitude and what follows; None when
    there is no number. *)
Definition subject (s : list Z) : option (bool * Z * list Z) :=
  let '(neg, s2) := take_sign (skip_space s) in
  let '(b, s3) := if hexmark s2 then (16, skipn 2 s2)
                  else match s2 with 48 :: _ => (8, s2) | _ => (10, s2) end in
  match s3 with
  | c :: _ => if is_dig b c then let '(v, rest) := take_digits b 0 s3 in Some (neg, v, rest) else None
  | [] => None
  end.

Definition LONG_MAX := 9223372036854775807.
Definition LONG_MIN := -9223372036854775808.
Definition ULONG_MAX := 18446744073709551615.

(** strtol(s, &endp, 0): the value, the string at endp, and whether errno is set to
    ERANGE *)
Definition strtol0 (s : list Z) : Z * list Z * bool :=
  match subject s with
  | None => (0, s, false)
  | Some (neg, v, rest) =>
      let v := if neg then - v else v in
      if LONG_MAX <? v then (LONG_MAX, rest, true)
      else if v <? LONG_MIN then (LONG_MIN, rest, true)
      else (v, rest, false)
  end.

(** strtoul(s, &endp, 0) *)
Definition strtoul0 (s : list Z) : Z * list Z * bool :=
  match subject s with
  | None => (0, s, false)
  | Some (neg, v, rest) =>
      if ULONG_MAX <? v then (ULONG_MAX, rest, true)
      else ((if neg then - v else v) mod (ULONG_MAX + 1), rest, false)
  end.

(** %d of sscanf; a value that does not fit an int is undefined in the standard,
    [wrap] is what the library does *)
Definition scan_d (wrap : Z -> Z) (s : list Z) : option (Z * list Z) :=
  let '(neg, s2) := take_sign (skip_space s) in
  match s2 with
  | c :: _ =>
      if isdigit c then
        let '(v, rest) := take_digits 10 0 s2 in
        let v := if neg then - v else v in
        Some (if (INT_MIN <=? v) && (v <=? INT_MAX) then v else wrap v, rest)
      else None
  | [] => None
  end.

(** ** Serial options *)

(** server.h:144-149; the speed is kept as its value in bits per second, 0 for B0 *)
Record seropt := mkSer { s_bps : Z; s_databits : Z; s_parity : Z; s_stopbits : Z }.

(** server-serial.c:56-85, where the platform has all of these *)
Definition bps_table : list Z :=
  [50; 75; 110; 134; 150; 200; 300; 600; 1200; 1800; 2400; 4800; 9600; 19200; 38400; 57600; 115200; 230400; 460800].

(** server-serial.c:207-222 *)
Fixpoint int_to_bps (bps : Z) (tab : list Z) (val : Z) : Z :=
  match tab with
  | [] => bps
  | v :: t => if v <=? val then int_to_bps v t val else bps
  end.

(** server-serial.c:151: sscanf(str, "%d,%d%c%d", ...): the values assigned, in
    order; n is their number (EOF and 0 are treated alike) *)
Definition sscanf_ser (wrap : Z -> Z) (str : list Z) : list Z :=
  match scan_d wrap str with
  | None => []
  | Some (b, r1) =>
      b :: match r1 with
           | c :: r2 =>
               if c =? COMMA then
                 match scan_d wrap r2 with
                 | None => []
                 | Some (d, r3) =>
                     d :: match r3 with
                          | p :: r4 => p :: match scan_d wrap r4 with None => [] | Some (s, _) => [s] end
                          | [] => []
                          end
                 end
               else []
           | [] => []
           end
  end.

(** server-serial.c:172-191 *)
Definition parity_of (c : Z) : option Z :=
  if (c =? 78) || (c =? 110) then Some 0
  else if (c =? 79) || (c =? 111) then Some 1
  else if (c =? 69) || (c =? 101) then Some 2
  else None.

(** server-serial.c:123-204 *)
Definition parse_serial_opts (wrap : Z -> Z) (opts : seropt) (str : list Z) : option seropt :=
  match str with
  | [] => None
  | _ =>
      let vals := sscanf_ser wrap str in
      let n := length vals in
      let bps := nth 0 vals 0 in
      let databits := if (2 <=? n)%nat then nth 1 vals 0 else s_databits opts in
      let stopbits := if (4 <=? n)%nat then nth 3 vals 0 else s_stopbits opts in
      let obps := if (1 <=? n)%nat then int_to_bps 0 bps_table bps else s_bps opts in
      if (1 <=? n)%nat && (obps <=? 0) then None
      else if (2 <=? n)%nat && ((databits <? 5) || (8 <? databits)) then None
      else
        match (if (3 <=? n)%nat then parity_of (nth 2 vals 0) else Some (s_parity opts)) with
        | None => None
        | Some parity =>
            if (4 <=? n)%nat && ((stopbits <? 1) || (2 <? stopbits)) then None
            else Some (mkSer obps databits parity stopbits)
        end
  end.

(** ** Options of a test console *)

(** server.h:226-231 *)
Record testopt := mkTest { o_bytes : Z; o_max : Z; o_min : Z; o_prob : Z }.

(** server-test.c:66-79 *)
Definition init_test_opts : testopt := mkTest 1024 (-1) (-1) 100.

Definition MAX_LINE : nat := Z.to_nat 1024.

(** server-test.c:128-181; [erange]: errno is ERANGE.  It is not cleared before the
    call of strtol().  Returns the options and the new state of errno. *)
Definition process_test_opt (erange : bool) (opts : testopt) (str : list Z) : option testopt * bool :=
  let tag c := existsb (Z.eqb c) (zs "BbMmNnPp") in
  match str with
  | c :: k :: p =>
      if tag c && negb (tag k) && (k =? COLON) then                         (* 145 *)
        let '(l, rest, er) := strtol0 p in
        let erange := erange || er in
        if negb (length rest =? 0)%nat || erange || (l <? 0) || (INT_MAX <? l) then (None, erange)
        else
          let u := toupper c in
          (if u =? 66 then Some (mkTest l (o_max opts) (o_min opts) (o_prob opts))
           else if u =? 77 then Some (mkTest (o_bytes opts) l (o_min opts) (o_prob opts))
           else if u =? 78 then Some (mkTest (o_bytes opts) (o_max opts) l (o_prob opts))
           else Some (mkTest (o_bytes opts) (o_max opts) (o_min opts) (Z.min l 100)), erange)
      else (None, erange)
  | _ => (None, erange)
  end.

(** server-test.c:117-122 *)
Fixpoint test_loop (erange : bool) (opts : testopt) (toks : list (list Z)) : option testopt * bool :=
  match toks with
  | [] => (Some opts, erange)
  | t :: toks =>
      match process_test_opt erange opts t with
      | (None, e) => (None, e)
      | (Some o, e) => test_loop e o toks
      end
  end.

Definition is_comma (c : Z) : bool := c =? COMMA.

(** server-test.c:82-125 *)
Definition parse_test_opts (erange : bool) (opts : testopt) (str : list Z) : option testopt * bool :=
  if (MAX_LINE <=? length str)%nat then (None, erange)                      (* 108 *)
  else test_loop erange opts (strtok_all is_comma str).

(** ** The test console *)

(** server.h:233-239, numLeft and lastChar *)
Record test := mkDev { d_left : Z; d_last : Z }.

(** server-test.c:217-218 *)
Definition new_test : test := mkDev 0 32.

(** server-test.c:316-321: [n] characters *)
Fixpoint fill (n : nat) (last : Z) : list Z * Z :=
  match n with
  | O => ([], last)
  | S n' =>
      let c := last + 1 in
      let '(l, e) := fill n' (if c =? 126 then 32 else c) in (c :: l, e)
  end.

(** server-test.c:277-355, read_test_obj: what is given to each reader, and the
    delay of the next timer.  [r1] and [r2] are the results of rand(); [size] is
    sizeof(buf). *)
Definition read_test_obj (size : nat) (opts : testopt) (d : test) (r1 r2 : Z) : res (test * list Z * Z) :=
  let '(d1, out) :=
    if (0 <? d_left d) || (r1 mod 100 <? o_prob opts) then                  (* 309 *)
      let left := if d_left d =? 0 then o_bytes opts else d_left d in
      let n := Z.min left (Z.of_nat size) in
      let '(out, last) := fill (Z.to_nat n) (d_last d) in
      (mkDev (left - n) last, out)
    else (d, []) in
  do delay <- (if 0 <? d_left d1 then Ok 0
               else if o_max opts <? 0 then Ok 100
               else if (o_min opts <? 0) || (o_max opts <=? o_min opts) then Ok (o_max opts)
               else
                 let interval := o_max opts - o_min opts + 1 in             (* 348 *)
                 if INT_MAX <? interval then UB SignedOverflow
                 else Ok (o_min opts + r2 mod interval));
  Ok (d1, out, delay).

(** ** Keys *)

(** server-ipmi.c:671 *)
Definition hexdigits : list Z := zs "0123456789ABCDEFabcdef".
Definition all_hex (s : list Z) : bool := forallb (fun c => existsb (Z.eqb c) hexdigits) s.

(** server-ipmi.c:689-697; [p]: what is left of src, [hi]: (p - src) is even *)
Fixpoint key_loop (dst : list Z) (dstend : nat) (p : list Z) (hi : bool) (q n : nat) : res (list Z * list Z * nat) :=
  match p with
  | [] => Ok (dst, p, n)
  | c :: p' =>
      if (q <? dstend)%nat then
        if hi then
          do dst <- put dst q (Z.land (Z.shiftl (toint c) 4) 240);
          key_loop dst dstend p' false q (S n)
        else
          do v <- get dst q;
          do dst <- put dst q (Z.lor v (Z.land (toint c) 15));
          key_loop dst dstend p' true (S q) n
      else Ok (dst, p, n)
  end.

(** server-ipmi.c:658-711.  Returns dst[] and the result. *)
Definition parse_key (dst : list Z) (src : list Z) (dstlen : nat) : res (list Z * Z) :=
  if (dstlen =? 0)%nat then Ok (dst, -1)
  else
    match src with
    | z :: x :: digits =>
        if (z =? 48) && ((x =? 120) || (x =? 88)) && all_hex digits then
          do r <- key_loop dst (dstlen - 1) digits true 0 0;
          let '(dst1, more, n) := r in
          do dst2 <- put dst1 n NUL;
          match more with
          | _ :: _ => Ok (dst2, -1)
          | [] => do _ <- assert_ (n <? dstlen)%nat; Ok (dst2, Z.of_nat n)
          end
        else
          do r <- strlcpy dst 0 (cstr src) dstlen;
          Ok (fst r, if (dstlen <=? snd r)%nat then -1 else Z.of_nat (snd r))
    | _ =>
        do r <- strlcpy dst 0 (cstr src) dstlen;
        Ok (fst r, if (dstlen <=? snd r)%nat then -1 else Z.of_nat (snd r))
    end.

(** ** Options of an IPMI console *)

(** server.h:193-205: the arrays username, password and kg with their "set" flags *)
Record ipmiopt := mkIpmi {
  i_user : list Z; i_user_set : bool;
  i_pass : list Z; i_pass_set : bool;
  i_kg : list Z; i_kglen : Z; i_kg_set : bool;
  i_priv : Z; i_cipher : Z; i_work : Z }.

(** What libipmiconsole accepts, and its constants. *)
Record lib := mkLib {
  v_user : list Z -> bool; v_pass : list Z -> bool; v_kg : list Z -> bool;
  v_priv : Z -> bool; v_cipher : Z -> bool; v_work : Z -> bool;
  c_user : Z; c_operator : Z; c_admin : Z;
  c_default : Z;
  (* the names of the workaround flags, server-ipmi.c:570-616 *)
  c_flags : list (list Z * Z) }.

(** server-ipmi.c:155-169; the sizes are those of the three arrays *)
Definition init_ipmi_opts (L : lib) (su sp sk : nat) : ipmiopt :=
  mkIpmi (repeat 0 su) false (repeat 0 sp) false (repeat 0 sk) 0 false (-1) (-1) (c_default L).

Definition set_user o u := mkIpmi u true (i_pass o) (i_pass_set o) (i_kg o) (i_kglen o) (i_kg_set o) (i_priv o) (i_cipher o) (i_work o).
Definition set_pass o p := mkIpmi (i_user o) (i_user_set o) p true (i_kg o) (i_kglen o) (i_kg_set o) (i_priv o) (i_cipher o) (i_work o).
Definition set_kg o k n := mkIpmi (i_user o) (i_user_set o) (i_pass o) (i_pass_set o) k n true (i_priv o) (i_cipher o) (i_work o).
Definition set_priv o v := mkIpmi (i_user o) (i_user_set o) (i_pass o) (i_pass_set o) (i_kg o) (i_kglen o) (i_kg_set o) v (i_cipher o) (i_work o).
Definition set_cipher o v := mkIpmi (i_user o) (i_user_set o) (i_pass o) (i_pass_set o) (i_kg o) (i_kglen o) (i_kg_set o) (i_priv o) v (i_work o).
Definition set_work o v := mkIpmi (i_user o) (i_user_set o) (i_pass o) (i_pass_set o) (i_kg o) (i_kglen o) (i_kg_set o) (i_priv o) (i_cipher o) v.

(** the string in an array *)
Definition arr_string (a : list Z) : res (list Z) := do n <- strlen a; Ok (firstn n a).

(** conversion of a long to an int and to an unsigned int, as on the supported
    platforms *)
Definition to_int (v : Z) : Z := let m := v mod 4294967296 in if INT_MAX <? m then m - 4294967296 else m.
Definition to_uint (v : Z) : Z := v mod 4294967296.

(** server-ipmi.c:344-380 *)
Definition opt_username (L : lib) (o : ipmiopt) (str : list Z) : res (option ipmiopt) :=
  match str with
  | [] => do a <- put (i_user o) 0 NUL; Ok (Some (set_user o a))
  | _ =>
      do r <- strlcpy (i_user o) 0 (cstr str) (length (i_user o));
      let '(a, n) := r in
      if (length (i_user o) <=? n)%nat then Ok None
      else do s <- arr_string a; if v_user L s then Ok (Some (set_user o a)) else Ok None
  end.

(** server-ipmi.c:383-419 *)
Definition opt_password (L : lib) (o : ipmiopt) (str : list Z) : res (option ipmiopt) :=
  match str with
  | [] => do a <- put (i_pass o) 0 NUL; Ok (Some (set_pass o a))
  | _ =>
      do r <- parse_key (i_pass o) str (length (i_pass o));
      let '(a, n) := r in
      if n <? 0 then Ok None
      else do s <- arr_string a; if v_pass L s then Ok (Some (set_pass o a)) else Ok None
  end.

(** server-ipmi.c:422-460 *)
Definition opt_k_g (L : lib) (o : ipmiopt) (str : list Z) : res (option ipmiopt) :=
  match str with
  | [] => do a <- put (i_kg o) 0 NUL; Ok (Some (set_kg o a 0))
  | _ =>
      do r <- parse_key (i_kg o) str (length (i_kg o));
      let '(a, n) := r in
      if n <? 0 then Ok None
      else if v_kg L (firstn (Z.to_nat n) a) then Ok (Some (set_kg o a n)) else Ok None
  end.

Definition same (a : list Z) (b : string) : bool := strcasecmp a (zs b) =? 0.

(** server-ipmi.c:463-510; the argument of ipmiconsole_privilege_level_is_valid() and
    the field are ints *)
Definition opt_privilege (L : lib) (o : ipmiopt) (str : list Z) : option ipmiopt :=
  match str with
  | [] => Some (set_priv o (-1))
  | _ =>
      if same str "user" then Some (set_priv o (c_user L))
      else if same str "op" || same str "operator" then Some (set_priv o (c_operator L))
      else if same str "admin" || same str "administrator" then Some (set_priv o (c_admin L))
      else
        let '(n, rest, er) := strtol0 str in
        if negb (length rest =? 0)%nat || er then None
        else if v_priv L (to_int n) then Some (set_priv o (to_int n)) else None
  end.

(** server-ipmi.c:513-551 *)
Definition opt_cipher (L : lib) (o : ipmiopt) (str : list Z) : option ipmiopt :=
  match str with
  | [] => Some (set_cipher o (-1))
  | _ =>
      let '(n, rest, er) := strtol0 str in
      if negb (length rest =? 0)%nat || er then None
      else if v_cipher L (to_int n) then Some (set_cipher o (to_int n)) else None
  end.

Fixpoint find_flag (fs : list (list Z * Z)) (str : list Z) : option Z :=
  match fs with
  | [] => None
  | (name, f) :: fs => if strcasecmp str name =? 0 then Some f else find_flag fs str
  end.

(** server-ipmi.c:554-655 *)
Definition opt_workaround (L : lib) (o : ipmiopt) (str : list Z) : option ipmiopt :=
  let flag :=
    if (length str =? 0)%nat || same str "default" then Some (c_default L)
    else
      match find_flag (c_flags L) str with
      | Some f => Some f
      | None =>
          if same str "none" then Some 0
          else
            let '(n, rest, er) := strtoul0 str in
            if negb (length rest =? 0)%nat || er then None
            else if v_work L (to_uint n) then Some (to_uint n) else None
      end in
  match flag with
  | None => None
  | Some f =>
      if (f =? 0) || (f =? c_default L) || (i_work o =? c_default L) then Some (set_work o f)
      else Some (set_work o (Z.lor (i_work o) f))
  end.

(** server-ipmi.c:275-341 *)
Definition process_ipmi_opt (L : lib) (o : ipmiopt) (str : list Z) : res (option ipmiopt) :=
  match str with
  | c :: k :: p =>
      if k =? COLON then
        let u := toupper c in
        if u =? 85 then opt_username L o p
        else if u =? 80 then opt_password L o p
        else if u =? 75 then opt_k_g L o p
        else if u =? 76 then Ok (opt_privilege L o p)
        else if u =? 67 then Ok (opt_cipher L o p)
        else if u =? 87 then Ok (opt_workaround L o p)
        else Ok None
      else Ok None
  | _ => Ok None
  end.

Fixpoint ipmi_loop (L : lib) (o : ipmiopt) (toks : list (list Z)) : res (option ipmiopt) :=
  match toks with
  | [] => Ok (Some o)
  | t :: toks =>
      do r <- process_ipmi_opt L o t;
      match r with None => Ok None | Some o => ipmi_loop L o toks end
  end.

(** server-ipmi.c:240, 248, 256, 264 *)
Definition undash (t : list Z) : list Z := if list_eqb t [MINUS] then [] else t.

Fixpoint work_loop (L : lib) (o : ipmiopt) (toks : list (list Z)) : option ipmiopt :=
  match toks with
  | [] => Some o
  | t :: toks => match opt_workaround L o (undash t) with None => None | Some o => work_loop L o toks end
  end.

(** server-ipmi.c:222-272 *)
Definition parse_ipmi_opts_v1 (L : lib) (o : ipmiopt) (toks : list (list Z)) : res (option ipmiopt) :=
  match toks with
  | [] => Ok (Some o)
  | t :: toks =>
      do r <- opt_username L o (undash t);
      match r, toks with
      | None, _ => Ok None
      | Some o, [] => Ok (Some o)
      | Some o, t :: toks =>
          do r <- opt_password L o (undash t);
          match r, toks with
          | None, _ => Ok None
          | Some o, [] => Ok (Some o)
          | Some o, t :: toks =>
              do r <- opt_k_g L o (undash t);
              match r with None => Ok None | Some o => Ok (work_loop L o toks) end
          end
      end
  end.

(** server-ipmi.c:172-219 *)
Definition parse_ipmi_opts (L : lib) (o : ipmiopt) (str : list Z) : res (option ipmiopt) :=
  if (MAX_LINE <=? length str)%nat then Ok None                             (* 192 *)
  else
    let toks := strtok_all is_comma str in
    match str with
    | [] => ipmi_loop L o toks
    | _ => if nth 1 str NUL =? COLON then ipmi_loop L o toks else parse_ipmi_opts_v1 L o toks
    end.

(** ** Options of a log *)

(** server.h:174-178 *)
Record logopt := mkLogopt { g_lock : bool; g_sanitize : bool; g_timestamp : bool }.

Definition log_sep (c : Z) : bool := existsb (Z.eqb c) [SPACE; TAB; LF; DOT; COMMA; 59].

(** server-logfile.c:83-100, one token; an unknown one is reported and ignored *)
Definition process_log_opt (o : logopt) (t : list Z) : logopt :=
  if same t "lock" then mkLogopt true (g_sanitize o) (g_timestamp o)
  else if same t "nolock" then mkLogopt false (g_sanitize o) (g_timestamp o)
  else if same t "sanitize" then mkLogopt (g_lock o) true (g_timestamp o)
  else if same t "nosanitize" then mkLogopt (g_lock o) false (g_timestamp o)
  else if same t "timestamp" then mkLogopt (g_lock o) (g_sanitize o) true
  else if same t "notimestamp" then mkLogopt (g_lock o) (g_sanitize o) false
  else o.

(** server-logfile.c:47-103 *)
Definition parse_logfile_opts (o : logopt) (str : list Z) : option logopt :=
  match str with
  | [] => None
  | _ =>
      if (MAX_LINE <=? length str)%nat then None                            (* 75 *)
      else Some (fold_left process_log_opt (strtok_all log_sep str) o)
  end.
