(** src/util-file.c:85-158 (locks), src/server-conf.c:396-416, 473-478, 1485-1574 and 282-294
    (the lock on the configuration file and the PID file), src/server.c:829-930
    (open_daemon_logfile) and src/server-logfile.c:241-289 (open_logfile_obj), for any number
    of daemons.

    The kernel: a lock covers a whole file (util-file.c:133-136).  It belongs to a process; a
    process has at most one on a file, and loses it when it closes any descriptor of the file
    or ends (fcntl(2), F_SETLK).  Locks of other programs are [Other]: they may be of the kind
    that belongs to an open file (F_OFD_SETLK), for which F_GETLK gives the pid -1, or of a
    process that this process cannot see, for which it gives 0. *)
From Verif Require Import Base.
Local Open Scope Z_scope.

Inductive owner := Proc (p : Z) | Other (id : nat) (told : Z).
Definition owner_eqb (a b : owner) : bool :=
  match a, b with
  | Proc p, Proc q => p =? q
  | Other i x, Other j y => (i =? j)%nat && (x =? y)
  | _, _ => false
  end.
Record lock := mkLock { l_own : owner; l_file : nat; l_write : bool }.
(** the locks that keep [o] from a lock on [f] *)
Definition conflicts (o : owner) (f : nat) (w : bool) (ls : list lock) : list lock :=
  filter (fun l => (l_file l =? f)%nat && negb (owner_eqb (l_own l) o) && (w || l_write l)) ls.
Definition unlocked (o : owner) (f : nat) (ls : list lock) : list lock := filter (fun l => negb ((l_file l =? f)%nat && owner_eqb (l_own l) o)) ls.
(** util-file.c:127-139, get_file_lock with F_SETLK *)
Definition get_lock (o : owner) (f : nat) (w : bool) (ls : list lock) : option (list lock) :=
  match conflicts o f w ls with
  | [] => Some (mkLock o f w :: unlocked o f ls)
  | _ => None
  end.
Definition told (l : lock) : Z := match l_own l with Proc p => p | Other _ x => x end.
(** util-file.c:142-158, test_file_lock(F_WRLCK); any of the locks in the way may be told: [pick] *)
Definition test_lock (o : owner) (f : nat) (ls : list lock) (pick : nat) : Z :=
  match conflicts o f true ls with
  | [] => 0
  | l :: r => told (nth pick (l :: r) l)
  end.
(** close() of a descriptor of [f]; the end of a process *)
Definition closed (p : Z) (f : nat) (ls : list lock) : list lock := unlocked (Proc p) f ls.
Definition ended (p : Z) (ls : list lock) : list lock := filter (fun l => negb (owner_eqb (l_own l) (Proc p))) ls.

(** ** Starting and stopping *)
(** A daemon: it has opened the file (396); has the lock (409); has found another (413) and is
    about to give up, which drops its lock; has found no other, and reads the configuration;
    runs, with the PID file written (474); has removed the PID file (283) and is about to close the configuration (289). *)
Inductive stage := Opened | Locked | Refused | Passed | Up | Leaving.
(** the file that has the name of the configuration; the locks; the daemons, each with its
    file; the PID file, by the name that all of them use *)
Record world := mkWorld { conf_file : nat; locks : list lock; procs : list (Z * (nat * stage)); pidfile : option Z }.
Definition drop {A} (p : Z) (l : list (Z * A)) : list (Z * A) := filter (fun x => negb (fst x =? p)) l.
Definition look {A} (p : Z) (l : list (Z * A)) : option A := match List.find (fun x => fst x =? p) l with Some x => Some (snd x) | None => None end.
Definition set_proc {A} (p : Z) (a : A) (l : list (Z * A)) : list (Z * A) := (p, a) :: drop p l.
(** the process ends *)
Definition gone (p : Z) (w : world) : world := mkWorld (conf_file w) (ended p (locks w)) (drop p (procs w)) (pidfile w).
Definition at_stage (p : Z) (f : nat) (s : stage) (ls : list lock) (w : world) : world := mkWorld (conf_file w) ls (set_proc p (f, s) (procs w)) (pidfile w).
(** One system call of one of the processes, or something else that happens.
    [Die]: log_err(), a fatal signal, a crash; nothing is removed (log.c:127-166).
    [Replace]: the file is replaced by another, as editors do.
    [Foreign], [Release]: another program takes or drops a lock. *)
Inductive op := Start (p : Z) | Lock_ (p : Z) | Test (p : Z) (pick : nat) | GiveUp (p : Z) | Write (p : Z) | Unlink (p : Z) | Close (p : Z) | Die (p : Z)
  | Replace (f : nat) | Foreign (id : nat) (told : Z) (f : nat) (w : bool) | Release (id : nat) (told : Z) (f : nat).
Definition step (w : world) (o : op) : world :=
  match o with
  | Start p =>                                                         (* server-conf.c:396 *)
      match look p (procs w) with
      | None => if 0 <? p then at_stage p (conf_file w) Opened (locks w) w else w
      | Some _ => w
      end
  | Lock_ p =>                                                         (* 409-412 *)
      match look p (procs w) with
      | Some (f, Opened) =>
          match get_lock (Proc p) f false (locks w) with
          | Some ls => at_stage p f Locked ls w
          | None => gone p w
          end
      | _ => w
      end
  | Test p pick =>                                                     (* 413-416 *)
      match look p (procs w) with
      | Some (f, Locked) => at_stage p f (if 0 <? test_lock (Proc p) f (locks w) pick then Refused else Passed) (locks w) w
      | _ => w
      end
  | GiveUp p =>                                                        (* 414-415, log.c:127-166 *)
      match look p (procs w) with
      | Some (f, Refused) => gone p w
      | _ => w
      end
  | Write p =>                                                         (* 473-478, 1518-1574; no failures *)
      match look p (procs w) with
      | Some (f, Passed) => mkWorld (conf_file w) (locks w) (set_proc p (f, Up) (procs w)) (Some p)
      | _ => w
      end
  | Unlink p =>                                                        (* 282-287 *)
      match look p (procs w) with
      | Some (f, Up) => mkWorld (conf_file w) (locks w) (set_proc p (f, Leaving) (procs w)) None
      | _ => w
      end
  | Close p =>                                                         (* 288-294, server.c:176 *)
      match look p (procs w) with
      | Some (f, Leaving) => gone p (mkWorld (conf_file w) (closed p f (locks w)) (procs w) (pidfile w))
      | _ => w
      end
  | Die p => match look p (procs w) with Some _ => gone p w | None => w end
  | Replace f => mkWorld f (locks w) (procs w) (pidfile w)
  | Foreign i x f wr =>
      match get_lock (Other i x) f wr (locks w) with
      | Some ls => mkWorld (conf_file w) ls (procs w) (pidfile w)
      | None => w
      end
  | Release i x f => mkWorld (conf_file w) (unlocked (Other i x) f (locks w)) (procs w) (pidfile w)
  end.
Definition history (w : world) (l : list op) : world := fold_left step l w.
(** server-conf.c:396, 402-405, 506-531, 1485-1515: the pid that a process [p], started with
    -k, -q or -r, signals, 0 if it finds none.  [with_pidfile]: -P is given. *)
Definition target (w : world) (p : Z) (pick : nat) (with_pidfile : bool) : Z :=
  let t := test_lock (Proc p) (conf_file w) (locks w) pick in
  if t =? 0 then match pidfile w with Some q => if with_pidfile && (1 <? q) then q else 0 | None => 0 end else t.

(** ** Logs *)
(** a descriptor: process, log (0: the daemon's own), file.  [text]: what the files contain *)
Record logs := mkLogs { g_locks : list lock; g_fds : list (Z * nat * nat); g_text : nat -> list Z }.
Definition fd_of (p : Z) (o : nat) (l : list (Z * nat * nat)) : option nat :=
  match List.find (fun x => (fst (fst x) =? p) && (snd (fst x) =? o)%nat) l with Some x => Some (snd x) | None => None end.
Definition no_fd (p : Z) (o : nat) (l : list (Z * nat * nat)) : list (Z * nat * nat) := filter (fun x => negb ((fst (fst x) =? p) && (snd (fst x) =? o)%nat)) l.
Definition close_log (p : Z) (o : nat) (s : logs) : logs :=
  match fd_of p o (g_fds s) with
  | Some f => mkLogs (closed p f (g_locks s)) (no_fd p o (g_fds s)) (g_text s)
  | None => s
  end.
Definition emptied (f : nat) (t : nat -> list Z) : nat -> list Z := fun g => if (g =? f)%nat then [] else t g.
(** server-logfile.c:241-289.  [f]: the file that open() gives, if any; [zero]: gotTruncate;
    [lk]: the option lock *)
Definition open_logfile_obj (s : logs) (p : Z) (o : nat) (f : option nat) (zero lk : bool) : logs :=
  let s := close_log p o s in                                                 (* 241-247 *)
  match f with
  | None => s
  | Some f =>
      let t := if zero then emptied f (g_text s) else g_text s in              (* 273-278 *)
      if lk then
        match get_lock (Proc p) f true (g_locks s) with                        (* 283-289 *)
        | Some ls => mkLogs ls ((p, o, f) :: g_fds s) t
        | None => mkLogs (closed p f (g_locks s)) (g_fds s) t
        end
      else mkLogs (g_locks s) ((p, o, f) :: g_fds s) t
  end.
(** server.c:848-930, open_daemon_logfile *)
Definition open_daemon_logfile (s : logs) (p : Z) (f : option nat) (zero : bool) : logs :=
  match f with
  | None => close_log p 0 s                                                   (* 884-888, 915-928 *)
  | Some f =>
      let t := if zero then emptied f (g_text s) else g_text s in              (* 848-853, 881 *)
      match get_lock (Proc p) f true (g_locks s) with
      | None => close_log p 0 (mkLogs (closed p f (g_locks s)) (g_fds s) t)    (* 895-899, 915-928 *)
      | Some ls =>                                                            (* 904-911 *)
          let s := close_log p 0 (mkLogs ls (g_fds s) t) in
          mkLogs (g_locks s) ((p, 0%nat, f) :: g_fds s) (g_text s)
      end
  end.
(** the daemon writes to one of its logs *)
Definition write_log (s : logs) (p : Z) (o : nat) (d : list Z) : logs :=
  match fd_of p o (g_fds s) with
  | Some f => mkLogs (g_locks s) (g_fds s) (fun g => if (g =? f)%nat then g_text s g ++ d else g_text s g)
  | None => s
  end.
Inductive log_op := Console (p : Z) (o : nat) (f : option nat) (zero lk : bool) | Daemon (p : Z) (f : option nat) (zero : bool) | Writes (p : Z) (o : nat) (d : list Z) | Ends (p : Z).
Definition log_step (s : logs) (o : log_op) : logs :=
  match o with
  | Console p i f z lk => open_logfile_obj s p (S i) f z lk
  | Daemon p f z => open_daemon_logfile s p f z
  | Writes p i d => write_log s p i d
  | Ends p => mkLogs (ended p (g_locks s)) (filter (fun x => negb (fst (fst x) =? p)) (g_fds s)) (g_text s)
  end.
Definition log_history (s : logs) (l : list log_op) : logs := fold_left log_step l s.
