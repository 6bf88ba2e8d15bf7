(** Model of the expansion of conversion specifiers and of the names of console
    log files: src/server-obj.c:301-447 (format_obj_string, sanitize_file_string)
    and src/server-logfile.c:106-311 (create_logfile_obj, open_logfile_obj).

    A string in memory is given with its terminator and whatever follows it.  What
    strftime() writes for a specifier is given by [tm]; it writes nothing when the
    text does not fit (its contents are then unspecified, and not used). *)
From Coq Require Import String.
From Verif Require Import Base Chars Fmt LexModel StrModel.
Local Open Scope nat_scope.

(** The parts of a console that are used: its name and, by the type of its device,
    aux.serial.dev (for a Unix domain socket the same field), or the host and port
    of a telnet console.  (server.h:107-280) *)
Inductive device := DFile (dev : list Z) | DTelnet (host : list Z) (port : Z) | DNone.
Record conobj := mkObj { o_name : list Z; o_dev : device }.

Definition isgraph (c : Z) : bool := ((33 <=? c) && (c <=? 126))%Z.

(** server-obj.c:433-447, sanitize_file_string on the string at [p] *)
Fixpoint sanitize_file_string (n : nat) (iso : bool) (buf : list Z) (p : nat) : res (list Z) :=
  match n with
  | O => UB OutOfFuel
  | S n' =>
      do c <- get buf p;
      if (c =? NUL)%Z then Ok buf
      else
        do g <- ctype iso isgraph c;
        do buf <- (if negb g || (c =? SLASH)%Z then put buf p UNDERSCORE else Ok buf);
        sanitize_file_string n' iso buf (S p)
  end.

(** server-obj.c:357: the part of a path after its last slash *)
Fixpoint base_name (acc s : list Z) : list Z :=
  match s with
  | [] => acc
  | c :: t => if (c =? SLASH)%Z then base_name t t else base_name acc t
  end.

(** server-obj.c:343-349 and 358-363: strlen, strcpy and sanitize; [n] > 0 is the
    room left.  Returns buf, pdst and the new n. *)
Definition copy_part (iso : bool) (buf : list Z) (pdst : nat) (n : Z) (s : list Z) : res (list Z * nat * Z) :=
  let n' := (n - Z.of_nat (length s))%Z in
  if (0 <? n')%Z then
    do buf1 <- blit buf pdst (cstr s);
    do buf2 <- sanitize_file_string (S (length buf)) iso buf1 pdst;
    Ok (buf2, pdst + length s, n')
  else Ok (buf, pdst, n').

(** server-obj.c:367-376 and 380-386 (the latter does not sanitize) *)
Definition print_part (iso clean : bool) (buf : list Z) (pdst : nat) (n : Z) (t : list Z) : res (list Z * nat * Z) :=
  do r <- vsnprintf buf pdst (Z.to_nat n) t;
  let '(buf1, m) := r in
  if (n <=? Z.of_nat m)%Z then Ok (buf1, pdst, 0%Z)
  else
    do buf2 <- (if clean then sanitize_file_string (S (length buf)) iso buf1 pdst else Ok buf1);
    Ok (buf2, pdst + m, (n - Z.of_nat m)%Z).

(** server-obj.c:405-410 *)
Definition time_part (buf : list Z) (pdst : nat) (n : Z) (t : list Z) : res (list Z * nat * Z) :=
  if (Z.of_nat (length t) <? n)%Z then
    do buf1 <- blit buf pdst (cstr t);
    if length t =? 0 then Ok (buf1, pdst, 0%Z) else Ok (buf1, pdst + length t, (n - Z.of_nat (length t))%Z)
  else Ok (buf, pdst, 0%Z).

(** server-obj.c:333-335, 413-415, 419-422: literal characters *)
Definition plain_part (buf : list Z) (pdst : nat) (n : Z) (t : list Z) : res (list Z * nat * Z) :=
  let n' := (n - Z.of_nat (length t))%Z in
  if (0 <? n')%Z then do buf1 <- blit buf pdst t; Ok (buf1, pdst + length t, n')
  else Ok (buf, pdst, n').

(** server-obj.c:388-403 *)
Definition time_specs : list Z := zs "dgGHjmMsSuUVwWyY".

(** server-obj.c:338-424, the switch *)
Definition spec_part (iso : bool) (obj : option conobj) (pid : Z) (tm : Z -> list Z)
    (buf : list Z) (pdst : nat) (n : Z) (spec : Z) : res (list Z * nat * Z) :=
  if (spec =? 78)%Z then                                                    (* N *)
    match obj with
    | None => plain_part buf pdst n [PERCENT; spec]
    | Some o => copy_part iso buf pdst n (o_name o)
    end
  else if (spec =? 68)%Z then                                               (* D *)
    match obj with
    | None => plain_part buf pdst n [PERCENT; spec]
    | Some o =>
        match o_dev o with
        | DFile dev => copy_part iso buf pdst n (base_name dev dev)
        | DTelnet host port => print_part iso true buf pdst n (host ++ COLON :: fmt_d port)
        | DNone => Ok (buf, pdst, n)
        end
    end
  else if (spec =? 80)%Z then print_part iso false buf pdst n (fmt_d pid)   (* P *)
  else if existsb (Z.eqb spec) time_specs then time_part buf pdst n (tm spec)
  else if (spec =? PERCENT)%Z then plain_part buf pdst n [PERCENT]
  else plain_part buf pdst n [PERCENT; spec].

(** server-obj.c:331-426, the loop.  [k] bounds the number of steps. *)
Fixpoint format_loop (k : nat) (iso : bool) (obj : option conobj) (pid : Z) (tm : Z -> list Z) (fmt : list Z)
    (psrc : nat) (buf : list Z) (pdst : nat) (n : Z) : res (list Z * nat * Z) :=
  match k with
  | O => UB OutOfFuel
  | S k' =>
      do c <- get fmt psrc;                                                 (* 331 *)
      if (c =? NUL)%Z || (n <=? 0)%Z then Ok (buf, pdst, n)
      else if negb (c =? PERCENT)%Z then
        do r <- plain_part buf pdst n [c];
        let '(buf1, pdst1, n1) := r in
        format_loop k' iso obj pid tm fmt (S psrc) buf1 pdst1 n1
      else
        do spec <- get fmt (S psrc);                                        (* 332 *)
        do r <- (if (spec =? NUL)%Z then plain_part buf pdst n [c]
                 else spec_part iso obj pid tm buf pdst n spec);
        let '(buf1, pdst1, n1) := r in
        format_loop k' iso obj pid tm fmt (S (S psrc)) buf1 pdst1 n1
  end.

(** server-obj.c:301-430.  Returns buf and the result. *)
Definition format_obj_string (iso : bool) (obj : option conobj) (pid : Z) (tm : Z -> list Z)
    (buf : list Z) (buflen : nat) (fmt : list Z) : res (list Z * Z) :=
  do r <- format_loop (S (length fmt)) iso obj pid tm fmt 0 buf 0 (Z.of_nat buflen);
  let '(buf1, pdst, n) := r in
  do _ <- assert_ (pdst <? buflen);                                         (* 427 *)
  do buf2 <- put buf1 pdst NUL;
  Ok (buf2, if (n <=? 0)%Z then (-1)%Z else Z.of_nat pdst).

(** ** Console log files

    Of a logfile object: its name, fmtName and console; of the list of objects only
    the logfiles, and of the options nothing. *)
Record log := mkLog { l_name : list Z; l_fmt : option (list Z); l_con : conobj }.

(** the C string at the start of [buf] *)
Definition c_string (buf : list Z) : res (list Z) := do n <- strlen buf; Ok (firstn n buf).

(** server-logfile.c:106-219, create_logfile_obj; None: rejected.  [buf] is the local
    buffer, of MAX_LINE bytes. *)
Definition create_logfile (iso : bool) (pid : Z) (tm : Z -> list Z) (buf : list Z) (name : list Z) (con : conobj)
    (logs : list log) : res (option (list log)) :=
  let has := existsb (Z.eqb PERCENT) name in
  do pname <- (if has then                                                  (* 132 *)
                 do r <- format_obj_string iso (Some con) pid tm buf (length buf) (cstr name);
                 let '(buf1, m) := r in
                 if (0 <=? m)%Z then c_string buf1 else Ok name
               else Ok name);
  if existsb (fun l => (strcmp (l_name l) pname =? 0)%Z) logs then Ok None  (* 145 *)
  else Ok (Some (logs ++ [mkLog name (if has then Some name else None) con])).

(** server-logfile.c:250-278, open_logfile_obj: the logfile and the name that is
    given to open(2), if it gets that far *)
Definition open_logfile (iso : bool) (pid : Z) (tm : Z -> list Z) (buf : list Z) (l : log) : res (log * option (list Z)) :=
  match l_fmt l with
  | None => Ok (l, Some (l_name l))
  | Some f =>
      do r <- format_obj_string iso (Some (l_con l)) pid tm buf (length buf) (cstr f);
      let '(buf1, m) := r in
      if (m <? 0)%Z then Ok (l, None)
      else do s <- c_string buf1; Ok (mkLog s (Some f) (l_con l), Some s)
  end.
