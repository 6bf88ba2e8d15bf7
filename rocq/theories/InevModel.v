(** Watching for the creation of files: src/inevent.c:168-540 (with <sys/inotify.h>). *)
From Coq Require Import String.
From Verif Require Import Base Chars.
Local Open Scope Z_scope.

(** ** The kernel's side.  Directories are known by a number (inode).  Watch descriptors
    of one inotify instance are not used again.  The queue does not overflow. *)
Inductive event := ECreate (wd : Z) (name : list Z) | EIgnored (wd : Z).
Record kern := mkK { k_watch : list (Z * Z); k_next : Z; k_queue : list event }.
Definition k0 : kern := mkK [] 1 [].
Definition event_eqb (a b : event) : bool :=
  match a, b with
  | ECreate w n, ECreate v m => (w =? v) && list_eqb n m
  | EIgnored w, EIgnored v => w =? v
  | _, _ => false
  end.
(** an event equal to the last one in the queue is merged with it *)
Definition enqueue (e : event) (k : kern) : kern :=
  match rev (k_queue k) with
  | l :: _ => if event_eqb l e then k else mkK (k_watch k) (k_next k) (k_queue k ++ [e])
  | [] => mkK (k_watch k) (k_next k) (k_queue k ++ [e])
  end.
Definition watch_of (k : kern) (inode : Z) : option Z :=
  match find (fun p => fst p =? inode) (k_watch k) with Some p => Some (snd p) | None => None end.
(** inotify_add_watch(2) on a directory that exists *)
Definition add_watch (k : kern) (inode : Z) : kern * Z :=
  match watch_of k inode with
  | Some wd => (k, wd)
  | None => (mkK ((inode, k_next k) :: k_watch k) (k_next k + 1) (k_queue k), k_next k)
  end.
(** inotify_rm_watch(2) *)
Definition rm_watch (k : kern) (wd : Z) : kern :=
  if existsb (fun p => snd p =? wd) (k_watch k)
  then enqueue (EIgnored wd) (mkK (filter (fun p => negb (snd p =? wd)) (k_watch k)) (k_next k) (k_queue k))
  else k.
(** a file is created in, or moved to, a directory *)
Definition k_created (k : kern) (inode : Z) (name : list Z) : kern :=
  match watch_of k inode with Some wd => enqueue (ECreate wd name) k | None => k end.
(** a directory is deleted *)
Definition k_gone (k : kern) (inode : Z) : kern :=
  match watch_of k inode with Some wd => rm_watch k wd | None => k end.

(** ** The daemon's side *)
(** struct inevent, inevent.c:129-136 *)
Record reg := mkReg { r_path : list Z; r_dir : list Z; r_file : list Z; r_cb : Z; r_wd : Z }.
(** inevent_fd (168; -1 or not), inevent_list (169), and the kernel's data of that fd *)
Record st := mkSt { i_fd : bool; i_list : option (list reg); i_k : kern }.
Definition st0 : st := mkSt false None k0.

(** strrchr(s, '/') *)
Fixpoint last_slash (s : list Z) (i : nat) (found : option nat) : option nat :=
  match s with
  | [] => found
  | c :: s => last_slash s (S i) (if c =? 47 then Some i else found)
  end.
(** up to the NUL *)
Fixpoint upto_nul (s : list Z) : list Z := match s with [] => [] | c :: s => if c =? 0 then [] else c :: upto_nul s end.
(** inevent.c:435-449: the directory and the name of the file; [path] without its NUL *)
Definition split_path (path : list Z) : res (list Z * list Z) :=
  match last_slash path 0 None with
  | None => UB NullDeref
  | Some p =>
      let file := skipn (p + 1) path in
      do buf <- put (path ++ [0]) (if (p =? 0)%nat then p + 1 else p) 0;      (* 444-449 *)
      Ok (upto_nul buf, file)
  end.

(** inevent.c:408-466.  [dir]: which directory a path leads to at this time, if any *)
Definition inevent_create (dir : list Z -> option Z) (k : kern) (path : list Z) (cb : Z) : res (kern * option reg) :=
  do df <- split_path path;
  match dir (fst df) with
  | None => Ok (k, None)                                                     (* 455 *)
  | Some inode => let '(k, wd) := add_watch k inode in Ok (k, Some (mkReg path (fst df) (snd df) cb wd))
  end.
(** inevent.c:387-405 *)
Definition inevent_fini (dbg : bool) (s : st) : res st :=
  do _ <- assert_if dbg (i_fd s);
  do _ <- assert_if dbg (match i_list s with Some _ => true | None => false end);
  Ok (mkSt false None k0).
(** inevent.c:355-384; [ok]: inotify_init() succeeds.  list_create() does not fail. *)
Definition inevent_init (dbg ok : bool) (s : st) : res (st * bool) :=
  do _ <- assert_ (negb (i_fd s));
  do _ <- assert_ (match i_list s with Some _ => false | None => true end);
  if ok then Ok (mkSt true (Some []) k0, true)
  else do s <- inevent_fini dbg s; Ok (s, false).
Definition by_path (p : list Z) (r : reg) : bool := list_eqb (r_path r) p.   (* 496-507 *)
Definition by_wd (wd : Z) (r : reg) : bool := r_wd r =? wd.                  (* 510-521 *)
Definition by_event (wd : Z) (name : list Z) (r : reg) : bool := (r_wd r =? wd) && list_eqb (r_file r) name.   (* 524-540 *)
(** inevent.c:176-217; cb 0 stands for NULL *)
Definition inevent_add (dbg ok : bool) (dir : list Z -> option Z) (s : st) (path : list Z) (cb : Z) : res (st * Z) :=
  if cb =? 0 then Ok (s, -1)
  else match path with
  | 47 :: _ =>
      do r <- (if i_fd s then Ok (s, true) else inevent_init dbg ok s);
      let '(s, inited) := r in
      if inited then
        match i_list s with
        | None => UB NullDeref
        | Some l =>
            match find (by_path path) l with
            | Some _ => Ok (s, -1)                                           (* 205 *)
            | None =>
                do r <- inevent_create dir (i_k s) path cb;
                match snd r with
                | None => Ok (mkSt (i_fd s) (i_list s) (fst r), -1)
                | Some g => Ok (mkSt (i_fd s) (Some (l ++ [g])) (fst r), 0)
                end
            end
        end
      else Ok (s, -1)
  | _ => Ok (s, -1)                                                          (* 193 *)
  end.
(** list_remove() of the element that list_find() found *)
Fixpoint remove_first (f : reg -> bool) (l : list reg) : list reg :=
  match l with [] => [] | r :: l => if f r then l else r :: remove_first f l end.
(** inevent.c:220-272 *)
Definition inevent_remove (dbg : bool) (s : st) (path : list Z) : res st :=
  match i_list s with
  | None => Ok s
  | Some l =>
      match find (by_path path) l with
      | None => Ok s
      | Some g =>
          let l := remove_first (by_path path) l in
          let wd_cnt := length (filter (by_wd (r_wd g)) l) in
          let k := if (0 <=? r_wd g) && (wd_cnt =? 0)%nat then rm_watch (i_k s) (r_wd g) else i_k s in   (* 261 *)
          let s := mkSt (i_fd s) (Some l) k in
          match l with
          | [] => inevent_fini dbg s                                         (* 268 *)
          | _ => Ok s
          end
      end
  end.
(** inevent.c:317-345: the events that have been read; gives the list, and the callbacks
    in the order in which they run.  (The daemon's callback does not use this module.) *)
Fixpoint process_events (l : list reg) (es : list event) : list reg * list Z :=
  match es with
  | [] => (l, [])
  | EIgnored wd :: es => process_events (filter (fun r => negb (by_wd wd r)) l) es              (* 329 *)
  | ECreate wd name :: es =>
      let '(l', ran) := process_events l es in
      match name with
      | [] => (l', ran)                                                      (* event_ptr->len > 0 *)
      | _ => match find (by_event wd name) l with                            (* 336 *)
             | Some r => (l', if r_cb r =? 0 then ran else r_cb r :: ran)
             | None => (l', ran)
             end
      end
  end.
(** inevent.c:285-348; read() returns the first [n] events, as many as fit into buf[].
    Without events it fails with EAGAIN. *)
Definition inevent_process (n : nat) (s : st) : res (st * list Z) :=
  if i_fd s then
    match firstn n (k_queue (i_k s)) with
    | [] => Ok (s, [])
    | es =>
        match i_list s with
        | None => UB NullDeref
        | Some l =>
            let '(l, ran) := process_events l es in
            Ok (mkSt (i_fd s) (Some l) (mkK (k_watch (i_k s)) (k_next (i_k s)) (skipn n (k_queue (i_k s)))), ran)
        end
    end
  else Ok (s, []).

(** ** Histories *)
Inductive op :=
  | Add (ok : bool) (dir : list Z -> option Z) (path : list Z) (cb : Z)      (* create_unixsock_obj, server-unixsock.c:151 *)
  | Remove (path : list Z)                                                   (* destroy_obj, server-obj.c:215 *)
  | Created (inode : Z) (name : list Z)
  | Gone (inode : Z)
  | Process (n : nat).                                                       (* mux_io, server.c:797 *)
Definition step (dbg : bool) (s : st) (o : op) : res (st * list Z) :=
  match o with
  | Add ok dir path cb => do r <- inevent_add dbg ok dir s path cb; Ok (fst r, [])
  | Remove path => do s <- inevent_remove dbg s path; Ok (s, [])
  | Created inode name => Ok (mkSt (i_fd s) (i_list s) (k_created (i_k s) inode name), [])
  | Gone inode => Ok (mkSt (i_fd s) (i_list s) (k_gone (i_k s) inode), [])
  | Process n => inevent_process n s
  end.
Fixpoint run (dbg : bool) (s : st) (ops : list op) : res (st * list Z) :=
  match ops with
  | [] => Ok (s, [])
  | o :: ops => do r <- step dbg s o; do q <- run dbg (fst r) ops; Ok (fst q, snd r ++ snd q)
  end.
