(** What is expected of a console's log, whatever happens to the files. *)
From Verif Require Import Base RingModel RingSpec RotModel.

(** the text for the log: of the console, the daemon's messages, the lines "log opened" *)
Definition text_of (x : op) : list Z :=
  match x with Put d _ => d | Hup _ Fine msg => msg | _ => [] end.
Definition text (xs : list op) : list Z := flat_map text_of xs.
(** what has been written, to whatever file, and to one *)
Definition written (ws : list (nat * list Z)) : list Z := flat_map snd ws.
Definition written_to (f : nat) (ws : list (nat * list Z)) : list Z := flat_map (fun x => if fst x =? f then snd x else []) ws.
Definition total (l : list nat) : nat := fold_right Nat.add 0 l.

(** Nothing goes wrong: no write fails, and the log can be opened. *)
Definition is_err (r : wres) : bool := match r with WErr => true | _ => false end.
Definition untroubled (x : op) : Prop :=
  match x with Flush rs => existsb is_err rs = false | Hup _ r _ => r = Fine | _ => True end.
(** Writing keeps up: at no time more than [CAP] bytes wait.  [ys]: what has happened at some
    time. *)
Definition keeps_up (SZ : nat) (w : world) (xs : list op) : Prop :=
  forall ys zs w', xs = ys ++ zs -> run SZ w ys = Ok w' -> length (text ys) <= length (written (w_writes w')) + (SZ - 1).
(** One text is no longer than the buffer holds (a read is at most 8191 bytes, and what is made
    of it at most 16383). *)
Definition moderate (SZ : nat) (x : op) : Prop := length (text_of x) <= SZ - 1.
(** others do not empty files *)
Definition not_emptied (x : op) : Prop := match x with Empty _ => False | _ => True end.
Definition no_hup (x : op) : Prop := match x with Hup _ _ _ => False | _ => True end.
(** nobody but the daemon touches the names *)
Definition daemon's (x : op) : Prop := match x with Put _ _ | Flush _ => True | _ => False end.
(** a disk on which the files from [d_next] on are unused *)
Definition proper (d : disk) : Prop := forall n f, d_name d n = Some f -> f < d_next d.
(** what a file contains; unused ones are empty *)
Definition contents (d : disk) (f : nat) : list Z := if f <? d_next d then d_text d f else [].
(** what was to be written and has not been *)
Definition waiting (SZ : nat) (w : world) : list Z :=
  match iov SZ (g_obj (w_log w)) with Ok p => p | UB _ => [] end.
