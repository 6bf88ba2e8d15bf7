(** Model of the links between clients and consoles at the level of single list
    operations (src/server-obj.c:604-758, 847-853, src/server-esc.c:222-258): every
    call of list_append, list_delete_all, list_peek and list_is_empty holds the
    list's own mutex, and nothing else orders the threads.  SessModel takes a whole
    call of link_objs or unlink_obj as one step; here other threads may run in
    between.

    Simplifications.  Objects are numbers, each a client or not; a link joins a client
    and a console.  Messages are not modelled (they change no link).  The traversal of
    the writers at 656-663 takes the first writer that it has not had yet. *)
From Verif Require Import Base.
Set Implicit Arguments.

(** readers, writers and gotEOF of every object; which objects were destroyed *)
Record links := mkL { rd : nat -> list nat; wr : nat -> list nat; eof : nat -> bool; gone : nat -> bool }.
Definition put {A} (f : nat -> A) (i : nat) (v : A) : nat -> A := fun j => if j =? i then v else f j.
Definition set_rd (l : links) i v := mkL (put (rd l) i v) (wr l) (eof l) (gone l).
Definition set_wr (l : links) i v := mkL (rd l) (put (wr l) i v) (eof l) (gone l).
Definition set_eof (l : links) i := mkL (rd l) (wr l) (put (eof l) i true) (gone l).
Definition set_gone (l : links) i := mkL (rd l) (wr l) (eof l) (put (gone l) i true).
Definition drop (x : nat) (l : list nat) : list nat := remove Nat.eq_dec x l.
Definition is_nil {A} (l : list A) : bool := match l with [] => true | _ => false end.

(** What follows a call of unlink_objs: nothing; the next turn of the first or of the
    second loop of unlink_obj, [fin] being the destruction after it. *)
Inductive cont := Done | LoopW (o : nat) (fin : bool) | LoopR (o : nat) (fin : bool).
(** Where a thread stands. *)
Inductive instr :=
| AppR (s d : nat)                    (* link_objs, 672 *)
| AppW (s d : nat)                    (* 674 *)
| DelR (s d : nat) (q : cont)         (* unlink_objs, 693 *)
| DelW (s d : nat) (q : cont)         (* 697 *)
| E1 (s d : nat) (q : cont)           (* 725: list_is_empty(src->readers) *)
| E2 (s d : nat) (q : cont)           (* 725: list_is_empty(src->writers) *)
| E3 (s d : nat) (q : cont)           (* 730 *)
| E4 (s d : nat) (q : cont)           (* 730 *)
| PeekW (o : nat) (fin : bool)        (* unlink_obj, 749 *)
| PeekR (o : nat) (fin : bool)        (* 752 *)
| Free (o : nat)                      (* server.c: destroy_obj after shutdown_obj *)
| Steal (s d : nat) (seen : list nat) (* link_objs with enableForce, 656-663 *).

Section Weave.
Variable isc : nat -> bool.           (* is_client_obj *)

Definition next (q : cont) : list instr :=
  match q with Done => [] | LoopW o f => [PeekW o f] | LoopR o f => [PeekR o f] end.
(** One list operation and what the call does after it. *)
Definition exec (l : links) (i : instr) : links * list instr :=
  match i with
  | AppR s d => (set_rd l s (rd l s ++ [d]), [AppW s d])
  | AppW s d => (set_wr l d (wr l d ++ [s]), [])
  | DelR s d q => (set_rd l s (drop d (rd l s)), [DelW s d q])
  | DelW s d q => (set_wr l d (drop s (wr l d)), [E1 s d q])
  | E1 s d q => if isc s && is_nil (rd l s) then (l, [E2 s d q]) else (l, [E3 s d q])
  | E2 s d q => if is_nil (wr l s) then (set_eof l s, next q) else (l, [E3 s d q])
  | E3 s d q => if isc d && is_nil (rd l d) then (l, [E4 s d q]) else (l, next q)
  | E4 s d q => if is_nil (wr l d) then (set_eof l d, next q) else (l, next q)
  | PeekW o f => match wr l o with x :: _ => (l, [DelR x o (LoopW o f)]) | [] => (l, [PeekR o f]) end
  | PeekR o f => match rd l o with x :: _ => (l, [DelR o x (LoopR o f)]) | [] => (l, if f then [Free o] else []) end
  | Free o => (set_gone l o, [])
  | Steal s d seen =>
      match find (fun x => negb (existsb (Nat.eqb x) seen)) (wr l d) with
      | Some x => (l, [PeekW x false; Steal s d (x :: seen)])
      | None => (l, [AppR s d])
      end
  end.

(** The calls a thread makes. *)
Inductive call :=
| Link (s d : nat)                    (* link_objs without stealing *)
| Force (s d : nat)                   (* link_objs of a client with enableForce *)
| Unlink (s d : nat)                  (* unlink_objs *)
| Detach (c : nat)                    (* unlink_obj *)
| Hangup (c : nat)                    (* shutdown_obj of a client, 847-853, and its destruction *).
Definition begin (a : call) : instr :=
  match a with
  | Link s d => AppR s d
  | Force s d => Steal s d []
  | Unlink s d => DelR s d Done
  | Detach c => PeekW c false
  | Hangup c => PeekW c true
  end.

(** Any number of threads; each has a list of what is left to do. *)
Record weave := mkW { w_l : links; w_t : list (list instr) }.
Inductive event := Start (p : list call) | Run (t : nat).
Fixpoint replace {A} (l : list A) (n : nat) (v : A) : list A :=
  match l, n with
  | [], _ => []
  | _ :: l', O => v :: l'
  | x :: l', S n' => x :: replace l' n' v
  end.
Definition step (w : weave) (e : event) : weave :=
  match e with
  | Start p => mkW (w_l w) (w_t w ++ [map begin p])
  | Run t =>
      match nth_error (w_t w) t with
      | Some (i :: rest) => let (l, more) := exec (w_l w) i in mkW l (replace (w_t w) t (more ++ rest))
      | _ => w
      end
  end.
Definition run (w : weave) (es : list event) : weave := fold_left step es w.
End Weave.
