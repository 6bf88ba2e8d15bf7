(** Model of a console's log file while others rename, remove and empty files, of its being
    opened again upon SIGHUP (src/server-logfile.c, src/server.c) and of what happens to it when
    the daemon stops (src/server-obj.c).  The log's output buffer is the one of RingModel. *)
From Verif Require Import Base RingModel.

Section Rot.
Variable SZ : nat.   (* OBJ_BUF_SIZE *)

(** ** Files *)
(** The directory: which file a name stands for; what the files contain; all files from
    [d_next] on have not been used.  Simplification: one directory level, no permissions; a
    file that can not be opened is an argument of [Hup]. *)
Record disk := mkDisk { d_name : nat -> option nat; d_text : nat -> list Z; d_next : nat }.
Definition set_at {A} (f : nat -> A) (x : nat) (v : A) : nat -> A := fun y => if y =? x then v else f y.
(** open with O_CREAT, and O_TRUNC if [zero] (server-logfile.c:273-278) *)
Definition open_file (d : disk) (n : nat) (zero : bool) : nat * disk :=
  match d_name d n with
  | Some f => (f, if zero then mkDisk (d_name d) (set_at (d_text d) f []) (d_next d) else d)
  | None => (d_next d, mkDisk (set_at (d_name d) n (Some (d_next d))) (set_at (d_text d) (d_next d) []) (S (d_next d)))
  end.
(** write with O_APPEND (server-logfile.c:273) *)
Definition append (d : disk) (f : nat) (s : list Z) : disk := mkDisk (d_name d) (set_at (d_text d) f (d_text d f ++ s)) (d_next d).

(** ** The log *)
(** server.h:123-128, 260-275: the buffer with its flags, the file that the descriptor is open
    on, and gotTruncate *)
Record log := mkLog { g_obj : obj; g_file : option nat; g_zero : bool }.
(** [w_writes]: what write() was given so far, and for which file; [w_said]: the numbers in the
    messages about bytes that were dropped *)
Record world := mkW { w_disk : disk; w_log : log; w_writes : list (nat * list Z); w_said : list nat }.

(** What open_logfile_obj meets: the name is too long or open() fails; the lock is refused; all
    is well. *)
Inductive opened := NoFile | NoLock | Fine.

(** server-obj.c:961-1075, write_obj_data for a log: the new object, and the number of bytes
    that it says were overwritten (976-992, 1017, 1043-1047), if any *)
Definition put (o : obj) (src : list Z) (isInfo : bool) : res (obj * list nat) :=
  do y <- write_obj_data SZ o src isInfo;
  let len := fst y in
  let avail := SZ - 1 - num_bytes_buffered SZ o in
  Ok (snd y, if avail <? len then [len - avail] else []).

(** server-logfile.c:222-311, open_logfile_obj.  [n]: the name after the %-tokens have been
    replaced; [msg]: the text of line 295.  Simplification: when open() fails gotTruncate has
    been cleared already (274-277), which is modelled; a name that is too long (254-262) leaves
    it set, and is the same here as an open that fails.  The state of the line (306) is left alone: nothing
    here depends on it. *)
Definition open_logfile_obj (w : world) (n : nat) (r : opened) (msg : list Z) : res world :=
  let g := w_log w in
  let o := close_fd (g_obj g) in                                              (* 241-247 *)
  match r with
  | NoFile => Ok (mkW (w_disk w) (mkLog o None false) (w_writes w) (w_said w))    (* 278-282 *)
  | NoLock =>                                                                 (* 283-289 *)
      let (f, d) := open_file (w_disk w) n (g_zero g) in
      Ok (mkW d (mkLog o None false) (w_writes w) (w_said w))
  | Fine =>
      let (f, d) := open_file (w_disk w) n (g_zero g) in
      do x <- put (open_fd o) msg false;                                      (* 290-298 *)
      Ok (mkW d (mkLog (fst x) (Some f) false) (w_writes w) (w_said w ++ snd x))
  end.

(** server-obj.c:1078-1182 and 798-858, write_to_obj and, if writing failed, shutdown_obj: the
    file is closed, what was not written is dropped, and the number of these bytes is said *)
Definition flush_log (w : world) (rs : list wres) : res world :=
  let g := w_log w in
  do x <- write_to_obj SZ (g_obj g) rs;
  let '(sent, dead, o) := x in
  let w1 := match g_file g with
            | Some f => match sent with
                        | [] => w
                        | _ => mkW (append (w_disk w) f sent) g (w_writes w ++ [(f, sent)]) (w_said w)
                        end
            | None => w
            end in
  if dead && o_open o then                                                    (* 812 *)
    let n := num_bytes_buffered SZ o in                                       (* 836 *)
    Ok (mkW (w_disk w1) (mkLog (shutdown_buf o) None (g_zero g)) (w_writes w1)
            (if 0 <? n then w_said w1 ++ [n] else w_said w1))                 (* 840 *)
  else Ok (mkW (w_disk w1) (mkLog o (g_file g) (g_zero g)) (w_writes w1) (w_said w1)).

(** What happens.  [Put]: text for the log, from the console or an informational message.
    [Flush]: the log is ready for writing (server.c:817).  [Hup]: main loop after a SIGHUP
    (server.c:771-779, 941-946), or the first opening (server-obj.c:267).  The rest is done by
    others: rename, unlink, creating an empty file, emptying one. *)
Inductive op :=
| Put (d : list Z) (isInfo : bool)
| Flush (rs : list wres)
| Hup (n : nat) (r : opened) (msg : list Z)
| Rename (n m : nat)
| Unlink (n : nat)
| Create (n : nat)
| Empty (n : nat).

Definition step (w : world) (x : op) : res world :=
  let d := w_disk w in let g := w_log w in
  match x with
  | Put t i =>
      do y <- put (g_obj g) t i;
      Ok (mkW d (mkLog (fst y) (g_file g) (g_zero g)) (w_writes w) (w_said w ++ snd y))
  | Flush rs => flush_log w rs
  | Hup n r msg => open_logfile_obj w n r msg
  | Rename n m =>
      match d_name d n with
      | Some f => Ok (mkW (mkDisk (set_at (set_at (d_name d) n None) m (Some f)) (d_text d) (d_next d)) g (w_writes w) (w_said w))
      | None => Ok w
      end
  | Unlink n => Ok (mkW (mkDisk (set_at (d_name d) n None) (d_text d) (d_next d)) g (w_writes w) (w_said w))
  | Create n => Ok (mkW (snd (open_file d n false)) g (w_writes w) (w_said w))
  | Empty n =>
      match d_name d n with
      | Some f => Ok (mkW (mkDisk (d_name d) (set_at (d_text d) f []) (d_next d)) g (w_writes w) (w_said w))
      | None => Ok w
      end
  end.
Fixpoint run (w : world) (xs : list op) : res world :=
  match xs with
  | [] => Ok w
  | x :: xs => do w <- step w x; run w xs
  end.

(** server-logfile.c:158-162: a log object that has not been opened; server-obj.c:65-99 *)
Definition create_logfile_obj (junk : list Z) (zero : bool) : log :=
  mkLog (close_fd (create (KLogfile LineInit) junk)) None zero.
Definition start (d : disk) (junk : list Z) (zero : bool) : world := mkW d (create_logfile_obj junk zero) [] [].

(** server-obj.c:141-260, destroy_obj for a log, called when the daemon stops (server.c:163,
    server-conf.c:302-304): the number of bytes that are said to be unwritten, if any; the file
    is closed. *)
Definition stop (w : world) : world :=
  let n := num_bytes_buffered SZ (g_obj (w_log w)) in                         (* 153 *)
  mkW (w_disk w) (mkLog (close_fd (g_obj (w_log w))) None (g_zero (w_log w))) (w_writes w)
      (if 0 <? n then w_said w ++ [n] else w_said w).                         (* 154-158 *)
End Rot.
