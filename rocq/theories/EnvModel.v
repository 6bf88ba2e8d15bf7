(** The environment of the commands that the daemon runs: src/server.c:88-116 and 419-488. *)
From Coq Require Import String.
From Verif Require Import Base Chars HostModel.
Local Open Scope nat_scope.
Local Open Scope list_scope.

(** getenv(key): the first entry that begins with "key=".  [env]: the entries of environ *)
Fixpoint skip_prefix (key s : list Z) : option (list Z) :=
  match key, s with
  | [], 61%Z :: v => Some v
  | k :: key, c :: s => if (k =? c)%Z then skip_prefix key s else None
  | _, _ => None
  end.
Fixpoint getenv (env : list (list Z)) (key : list Z) : option (list Z) :=
  match env with
  | [] => None
  | s :: env => match skip_prefix key s with Some v => Some v | None => getenv env key end
  end.

(** server.c:436-441.  [stdpath]: _PATH_STDPATH of paths.h, or as in common.h:37 *)
Definition STDPATH : list Z := zs "/usr/bin:/bin:/usr/sbin:/sbin".
Definition env_restrict (stdpath : list Z) : list (list Z) := [zs "IFS= " ++ [9; 10]%Z; zs "PATH=" ++ stdpath; zs "TERM=dumb"].
(** server.c:442-446 *)
Definition env_preserve : list (list Z) := [zs "DEBUG"; zs "TZ"].

(** server.c:450-453; the total is far below 2^31 *)
Fixpoint measure_restrict (num len : nat) (l : list (list Z)) : nat * nat :=
  match l with
  | [] => (num, len)
  | s :: l => measure_restrict (num + 1) (len + (length s + 1)) l
  end.
(** server.c:454-459 *)
Fixpoint measure_preserve (env : list (list Z)) (num len : nat) (l : list (list Z)) : nat * nat :=
  match l with
  | [] => (num, len)
  | k :: l =>
      match getenv env k with
      | None => measure_preserve env num len l
      | Some v => measure_preserve env (num + 1) (len + (length k + length v + 2)) l
      end
  end.

Section P.
(** sizeof(char * ) *)
Variable p : nat.
(** server.c:466-471 *)
Fixpoint fill_restrict (buf : list cell) (num ptr : nat) (l : list (list Z)) : res (list cell * nat * nat) :=
  match l with
  | [] => Ok (buf, num, ptr)
  | s :: l =>
      do buf <- store buf (num * p) (VPtr (Some ptr)) p;
      do buf <- blit buf ptr (map CB (s ++ [0%Z]));
      fill_restrict buf (num + 1) (ptr + (length s + 1)) l
  end.
(** server.c:472-483 *)
Fixpoint fill_preserve (env : list (list Z)) (buf : list cell) (num ptr : nat) (l : list (list Z)) : res (list cell * nat * nat) :=
  match l with
  | [] => Ok (buf, num, ptr)
  | k :: l =>
      match getenv env k with
      | None => fill_preserve env buf num ptr l
      | Some v =>
          do buf <- store buf (num * p) (VPtr (Some ptr)) p;
          do buf <- blit buf ptr (map CB k);
          let ptr := ptr + length k in
          do buf <- put buf ptr (CB 61);
          let ptr := ptr + 1 in
          do buf <- blit buf ptr (map CB (v ++ [0%Z]));
          fill_preserve env buf (num + 1) (ptr + (length v + 1)) l
      end
  end.
(** server.c:419-488; [mem]: what malloc() returns: memory with any contents, or NULL *)
Definition get_sane_env (stdpath : list Z) (env : list (list Z)) (mem : option (nat -> cell)) : res (option (list cell)) :=
  let '(env_num, env_len) := measure_restrict 1 0 (env_restrict stdpath) in
  let '(env_num, env_len) := measure_preserve env env_num env_len env_preserve in
  let env_len := env_len + env_num * p in                                    (* 460 *)
  match mem with
  | None => Ok None
  | Some junk =>
      let buf := map junk (seq 0 env_len) in
      do r <- fill_restrict buf 0 (env_num * p) (env_restrict stdpath);
      let '(buf, num, ptr) := r in
      do r <- fill_preserve env buf num ptr env_preserve;
      let '(buf, num, ptr) := r in
      do buf <- store buf (num * p) (VPtr None) p;                           (* 484 *)
      do _ <- assert_ (num + 1 =? env_num);
      do _ <- assert_ (ptr =? env_len);
      Ok (Some buf)
  end.
End P.
(** What execv() and execl() read: the strings of the NULL-terminated array at [o].
    [fuel]: at most as many pointers as cells.  environ is this array from server.c:115 on,
    before any command is run (server.c:156-157 come later). *)
Fixpoint environ_at (p fuel : nat) (buf : list cell) (o : nat) : res (list (list Z)) :=
  match fuel with
  | 0 => UB OutOfFuel
  | S fuel =>
      do v <- load buf o p;
      match v with
      | VPtr None => Ok []
      | VPtr (Some a) => do s <- chars_at (skipn a buf); do t <- environ_at p fuel buf (o + p); Ok (s :: t)
      | VInt _ => UB NullDeref
      end
  end.
(** main(), server.c:115-117: the environment of all commands that are run later *)
Definition child_env (p : nat) (stdpath : list Z) (env : list (list Z)) (mem : option (nat -> cell)) : res (list (list Z)) :=
  do r <- get_sane_env p stdpath env mem;
  match r with
  | None => UB Fatal                                                         (* log_err *)
  | Some buf => environ_at p (S (length buf)) buf 0
  end.
