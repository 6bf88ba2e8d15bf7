(** What it means to be watching for a file. *)
From Verif Require Import Base Chars InevModel.
Local Open Scope Z_scope.

(** [path] is file [f] in directory [d] *)
Definition names (path d f : list Z) : Prop :=
  ~ In 47 f /\ ((path = d ++ 47 :: f /\ d <> []) \/ (path = 47 :: f /\ d = [47])).
(** [path] is registered with callback [cb] *)
Definition registered (s : st) (path : list Z) (cb : Z) : Prop :=
  exists l r, i_list s = Some l /\ In r l /\ r_path r = path /\ r_cb r = cb.
(** ... and the kernel watches directory [inode] for it *)
Definition watching (s : st) (path : list Z) (inode cb : Z) : Prop :=
  exists l r, i_list s = Some l /\ In r l /\ r_path r = path /\ r_cb r = cb /\ In (inode, r_wd r) (k_watch (i_k s)).
(** the states that are reached *)
Definition reaches (dbg : bool) (ops : list op) (s : st) : Prop := exists ran, run dbg st0 ops = Ok (s, ran).
(** how many events are handled *)
Fixpoint handled (ops : list op) : nat :=
  match ops with [] => 0 | Process n :: ops => n + handled ops | _ :: ops => handled ops end.
(** inotify is available *)
Definition inotify_ok (o : op) : Prop := match o with Add ok _ _ _ => ok = true | _ => True end.
(** paths are C strings; in a debug build, inotify is available *)
Definition op_ok (o : op) : Prop := match o with Add _ _ path _ => chars_ok path | _ => True end.
Definition fine (dbg : bool) (o : op) : Prop := op_ok o /\ (dbg = true -> inotify_ok o).
(** in [past], [cb] was registered for a file, and that file was created in the directory
    that the path led to when it was registered *)
Definition caused (past : list op) (cb : Z) : Prop :=
  exists ok dir path d f inode, In (Add ok dir path cb) past /\ names path d f /\ dir d = Some inode /\ In (Created inode f) past.
(** how many events wait to be handled *)
Definition waiting (s : st) : nat := length (k_queue (i_k s)).
(** the kernel has told that it no longer watches for [path] *)
Definition lost (s : st) (path : list Z) : Prop :=
  exists l r, i_list s = Some l /\ In r l /\ r_path r = path /\ In (EIgnored (r_wd r)) (k_queue (i_k s)).
