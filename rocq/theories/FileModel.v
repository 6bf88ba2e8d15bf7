(** Model of util-file.c: read_n, write_n, read_line, get_dir_name, create_dirs. *)
From Verif Require Import Base Chars StrModel.
Local Open Scope Z_scope.

(** ** The kernel: read(2) and write(2) on a blocking descriptor *)
(** [stream]: every byte the peer will send before it closes.  A schedule says how the
    successive calls end: interrupted, failing, or transferring at most [k] bytes; when it
    is used up calls transfer all they can. *)
Inductive io_ev := Intr | Fail | Chunk (k : nat).
Inductive io_res (A : Type) := IoIntr | IoErr | IoOk (a : A).
Arguments IoIntr {A}. Arguments IoErr {A}. Arguments IoOk {A} a.
Definition tail_ev (sched : list io_ev) : list io_ev := match sched with [] => [] | _ :: t => t end.
(** read(2): at least one byte unless the end of the stream is reached. *)
Definition sys_read (sched : list io_ev) (stream : list Z) (want : nat) : io_res (list Z) * list io_ev * list Z :=
  match sched with
  | Intr :: s => (IoIntr, s, stream)
  | Fail :: s => (IoErr, s, stream)
  | Chunk k :: s => let n := Nat.min want (Nat.max 1 k) in (IoOk (firstn n stream), s, skipn n stream)
  | [] => (IoOk (firstn want stream), [], skipn want stream)
  end.
(** write(2): the number of bytes taken. *)
Definition sys_write (sched : list io_ev) (data : list Z) : io_res nat * list io_ev :=
  match sched with
  | Intr :: s => (IoIntr, s)
  | Fail :: s => (IoErr, s)
  | Chunk k :: s => (IoOk (Nat.min k (length data)), s)
  | [] => (IoOk (length data), [])
  end.

(** util-file.c:169-181; result: the buffer, nleft or the error, the rest of the stream *)
Fixpoint read_n_loop (f : nat) (sched : list io_ev) (stream : list Z) (buf : list Z) (p nleft : nat)
    : res (list Z * option nat * list io_ev * list Z) :=
  match f with
  | O => UB OutOfFuel
  | S f' =>
      if (nleft =? 0)%nat then Ok (buf, Some O, sched, stream)
      else
        match sys_read sched stream nleft with
        | (IoIntr, s1, st1) => read_n_loop f' s1 st1 buf p nleft
        | (IoErr, s1, st1) => Ok (buf, None, s1, st1)
        | (IoOk d, s1, st1) =>
            if (length d =? 0)%nat then Ok (buf, Some nleft, s1, st1)         (* 176-178 *)
            else do buf1 <- blit buf p d;
                 read_n_loop f' s1 st1 buf1 (p + length d) (nleft - length d)
        end
  end.
(** util-file.c:161-183, read_n.  Result: the buffer, the return value, what is left. *)
Definition read_n (sched : list io_ev) (stream : list Z) (buf : list Z) (n : nat)
    : res (list Z * Z * list io_ev * list Z) :=
  do r <- read_n_loop (S (length sched + n)) sched stream buf 0 n;
  let '(buf1, o, s1, st1) := r in
  match o with
  | Some nleft => Ok (buf1, Z.of_nat (n - nleft), s1, st1)
  | None => Ok (buf1, -1, s1, st1)
  end.

(** util-file.c:194-203; [out]: what the descriptor has taken so far *)
Fixpoint write_n_loop (f : nat) (sched : list io_ev) (out : list Z) (buf : list Z) (p nleft : nat)
    : res (list Z * bool * list io_ev) :=
  match f with
  | O => UB OutOfFuel
  | S f' =>
      if (nleft =? 0)%nat then Ok (out, true, sched)
      else
        do d <- slice buf p nleft;
        match sys_write sched d with
        | (IoIntr, s1) => write_n_loop f' s1 out buf p nleft
        | (IoErr, s1) => Ok (out, false, s1)
        | (IoOk k, s1) => write_n_loop f' s1 (out ++ firstn k d) buf (p + k) (nleft - k)
        end
  end.
(** util-file.c:186-205, write_n *)
Definition write_n (sched : list io_ev) (out : list Z) (buf : list Z) (n : nat) : res (list Z * Z * list io_ev) :=
  do r <- write_n_loop (S (S (length sched))) sched out buf 0 n;
  let '(out1, ok, s1) := r in
  Ok (out1, if ok then Z.of_nat n else -1, s1).

(** util-file.c:224-243: [n] bytes are stored; result: the buffer, n, or an early return *)
Inductive line_end := LDone (n : nat) | LEof | LErr.
Fixpoint read_line_loop (f : nat) (sched : list io_ev) (stream : list Z) (buf : list Z) (n maxlen : nat)
    : res (list Z * line_end * list io_ev * list Z) :=
  match f with
  | O => UB OutOfFuel
  | S f' =>
      if (n <? maxlen)%nat then
        match sys_read sched stream 1 with
        | (IoOk (c :: _), s1, st1) =>
            do buf1 <- put buf n c;
            if c =? LF then Ok (buf1, LDone (S n), s1, st1)
            else read_line_loop f' s1 st1 buf1 (S n) maxlen
        | (IoOk [], s1, st1) => Ok (buf, if (n =? 0)%nat then LEof else LDone n, s1, st1)
        | (IoIntr, s1, st1) => read_line_loop f' s1 st1 buf n maxlen
        | (IoErr, s1, st1) => Ok (buf, LErr, s1, st1)
        end
      else Ok (buf, LDone n, sched, stream)
  end.
(** util-file.c:208-247, read_line; buf is not NULL *)
Definition read_line (sched : list io_ev) (stream : list Z) (buf : list Z) (maxlen : nat)
    : res (list Z * Z * list io_ev * list Z) :=
  if (maxlen =? 0)%nat then Ok (buf, 0, sched, stream)
  else
    do r <- read_line_loop (S (length sched + maxlen)) sched stream buf 0 (maxlen - 1);
    let '(buf1, e, s1, st1) := r in
    match e with
    | LDone n => do buf2 <- put buf1 n NUL; Ok (buf2, Z.of_nat n, s1, st1)    (* 245-246 *)
    | LEof => Ok (buf1, 0, s1, st1)
    | LErr => Ok (buf1, -1, s1, st1)
    end.

(** ** get_dir_name *)
(** The index of a character, for a pointer that may be one before the string
    (util-file.c:260, 270: strictly such a pointer is undefined; taken here to behave as
    the index -1). *)
Definition zget (s : list Z) (p : Z) : res Z := if p <? 0 then UB OutOfBounds else get s (Z.to_nat p).
(** util-file.c:264-266, 274-276 *)
Fixpoint back_slash (f : nat) (s : list Z) (p : Z) : res Z :=
  match f with
  | O => UB OutOfFuel
  | S f' => if 0 <? p then do c <- zget s p; if c =? SLASH then back_slash f' s (p - 1) else Ok p else Ok p
  end.
(** util-file.c:269-271 *)
Fixpoint back_name (f : nat) (s : list Z) (p : Z) : res Z :=
  match f with
  | O => UB OutOfFuel
  | S f' => if 0 <=? p then do c <- zget s p; if c =? SLASH then Ok p else back_name f' s (p - 1) else Ok p
  end.
(** util-file.c:250-302, get_dir_name; [s] is the block holding srcpath.  [None]: NULL is
    returned. *)
Definition get_dir_name (s : list Z) (dst : list Z) (dstlen : nat) : res (option (list Z)) :=
  do len <- strlen s;
  let f := S (S (length s)) in
  do p1 <- back_slash f s (Z.of_nat len - 1);
  do p2 <- back_name f s p1;
  do p3 <- back_slash f s p2;
  if p3 <? 0 then
    if (dstlen <? 2)%nat then Ok None
    else do d1 <- put dst 0 DOT; do d2 <- put d1 1 NUL; Ok (Some d2)
  else
    let n := Z.to_nat (p3 + 1) in
    if (dstlen <=? n)%nat then Ok None
    else do t <- slice s 0 n; do d1 <- blit dst 0 t; do d2 <- put d1 n NUL; Ok (Some d2).

(** ** create_dirs *)
(** A file system: what each path is.  A path is absolute or relative to the working
    directory, and a list of names; "." and ".." are taken as ordinary names, and there are
    no symbolic links. *)
Inductive kind := Dir | File.
Definition fpath : Type := bool * list (list Z).
Definition fsys : Type := fpath -> option kind.
(** The path a C string denotes: repeated slashes count as one. *)
Fixpoint names (acc : list Z) (s : list Z) : list (list Z) :=
  match s with
  | [] => match acc with [] => [] | _ => [acc] end
  | c :: t => if c =? SLASH then match acc with [] => names [] t | _ => acc :: names [] t end
              else names (acc ++ [c]) t
  end.
Definition path_of (s : list Z) : fpath :=
  (match s with c :: _ => c =? SLASH | [] => false end, names [] s).
Fixpoint names_eqb (a b : list (list Z)) : bool :=
  match a, b with
  | [], [] => true
  | x :: a', y :: b' => (if list_eq_dec Z.eq_dec x y then true else false) && names_eqb a' b'
  | _, _ => false
  end.
Definition path_eqb (p q : fpath) : bool := Bool.eqb (fst p) (fst q) && names_eqb (snd p) (snd q).
Definition fs_add (fs : fsys) (p : fpath) : fsys := fun q => if path_eqb p q then Some Dir else fs q.
(** mkdir(2); [deny] says where the kernel refuses for other reasons (permission, space). *)
Inductive mk_res := MkOk | MkExist | MkOther.
Definition sys_mkdir (deny : fpath -> bool) (fs : fsys) (p : fpath) : fsys * mk_res :=
  match fs p with
  | Some _ => (fs, MkExist)
  | None =>
      match fs (fst p, removelast (snd p)) with
      | Some Dir => if deny p then (fs, MkOther) else (fs_add fs p, MkOk)
      | _ => (fs, MkOther)
      end
  end.

(** util-file.c:342-344: trailing slashes are overwritten with NULs *)
Fixpoint trim_slashes (f : nat) (buf : list Z) (p : Z) : res (list Z) :=
  match f with
  | O => UB OutOfFuel
  | S f' => if 0 <? p then
              do c <- zget buf p;
              if c =? SLASH then do b1 <- put buf (Z.to_nat p) NUL; trim_slashes f' b1 (p - 1) else Ok buf
            else Ok buf
  end.
(** util-file.c:355-357 *)
Fixpoint skip_slashes (f : nat) (buf : list Z) (p : nat) : res nat :=
  match f with
  | O => UB OutOfFuel
  | S f' => do c <- get buf p; if c =? SLASH then skip_slashes f' buf (S p) else Ok p
  end.
(** strchr(buf + p, '/') *)
Fixpoint find_slash (f : nat) (buf : list Z) (p : nat) : res (option nat) :=
  match f with
  | O => UB OutOfFuel
  | S f' => do c <- get buf p;
            if c =? SLASH then Ok (Some p) else if c =? NUL then Ok None else find_slash f' buf (S p)
  end.
(** The string at the start of a block. *)
Definition cstr (buf : list Z) : res (list Z) := do n <- strlen buf; Ok (firstn n buf).
(** util-file.c:351-382; the messages logged are left out *)
Fixpoint dirs_loop (f : nat) (deny : fpath -> bool) (fs : fsys) (buf : list Z) (slash : nat) : res (fsys * Z) :=
  match f with
  | O => UB OutOfFuel
  | S f' =>
      do p <- skip_slashes (S (length buf)) buf slash;
      do o <- find_slash (S (length buf)) buf p;
      do buf1 <- (match o with Some q => put buf q NUL | None => Ok buf end);
      do name <- cstr buf1;
      let '(fs1, r) := sys_mkdir deny fs (path_of name) in
      let bad := match r with
                 | MkOk => false
                 | MkOther => true
                 | MkExist => match fs1 (path_of name) with Some Dir => false | _ => true end
                 end in
      if bad then Ok (fs1, -1)
      else match o with
           | None => Ok (fs1, 0)
           | Some q => do buf2 <- put buf1 q SLASH; dirs_loop f' deny fs1 buf2 (S q)
           end
  end.
(** util-file.c:305-384, create_dirs; dir_name is not NULL; [pmax] is PATH_MAX and [junk]
    the initial content of dir_buf[] *)
Definition create_dirs (deny : fpath -> bool) (fs : fsys) (pmax : nat) (junk : list Z) (dir_name : list Z)
    : res (fsys * Z) :=
  do s <- cstr dir_name;
  match s with
  | [] => Ok (fs, -1)
  | _ =>
      match fs (path_of s) with
      | Some Dir => Ok (fs, 0)
      | Some File => Ok (fs, -1)
      | None =>
          do r <- strlcpy junk 0 dir_name pmax;
          let '(buf, n) := r in
          if (pmax <=? n)%nat then Ok (fs, -1)
          else
            do len <- strlen buf;
            do buf1 <- trim_slashes (S (length buf)) buf (Z.of_nat len - 1);
            dirs_loop (S (length buf1)) deny fs buf1 0
      end
  end.
