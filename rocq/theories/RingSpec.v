(** Specification of a bounded output queue, independent of the ring layout. *)
From Verif Require Import Base RingModel.
Set Implicit Arguments.

(** The abstract queue: the bytes waiting, oldest first, and the mode flags. *)
Record queue := mkQ {
  q_pending : list Z;
  q_eof : bool;
  q_client : bool;
  q_quiet : bool;
  q_open : bool }.

Section Spec.
Variable CAP : nat.   (* capacity *)

(** A message that is accepted: its first [CAP] bytes are queued and only the
    last [CAP] bytes of the result are kept. *)
Definition enqueue (pending data : list Z) : list Z :=
  lastn CAP (pending ++ firstn CAP data).

Definition accepts (q : queue) (isInfo : bool) : bool :=
  negb (q_eof q) && negb (isInfo && q_client q && q_quiet q).

(** How many bytes the kernel takes in a flush that meets results [rs]. *)
Fixpoint taken (rs : list wres) (n : nat) : nat :=
  match rs with
  | [] => 0
  | WIntr :: rs' => taken rs' n
  | WAccept k :: _ => Nat.min k n
  | _ :: _ => 0
  end.

(** One step: the new queue and the bytes handed to the kernel. *)
Definition qstep (q : queue) (x : op) : queue * list Z :=
  let '(mkQ p e c i o) := q in
  match x with
  | OWrite d b => if accepts q b then (mkQ (enqueue p d) e c i o, []) else (q, [])
  | OFlush rs =>
      let n := if o then taken rs (length p) else 0 in
      (mkQ (skipn n p) e c i o, firstn n p)
  | OEof => (mkQ p true c i o, [])
  | OQuiet => (mkQ p e c (negb i) o, [])
  | OSuspend => (q, [])
  | OShutdown => if o then (mkQ [] false c i false, []) else (q, [])
  | OClose => (mkQ p e c i false, [])
  | OOpen => if o then (q, []) else (mkQ p false c i true, [])
  end.

Fixpoint qrun (q : queue) (xs : list op) : queue * list Z :=
  match xs with
  | [] => (q, [])
  | x :: xs' =>
      let '(q1, s1) := qstep q x in
      let '(q2, s2) := qrun q1 xs' in (q2, s1 ++ s2)
  end.

(** Bytes queued by a sequence of operations that drops nothing. *)
Fixpoint queued (q : queue) (xs : list op) : list Z :=
  match xs with
  | [] => []
  | x :: xs' =>
      (match x with
       | OWrite d i => if accepts q i then d else []
       | _ => []
       end) ++ queued (fst (qstep q x)) xs'
  end.

(** Quiet mode and suspension exist for clients only. *)
Definition op_allowed (client : bool) (x : op) : Prop :=
  match x with OQuiet | OSuspend => client = true | _ => True end.

(** No operation throws the buffer away. *)
Definition op_keeps (x : op) : Prop :=
  match x with OShutdown => False | _ => True end.

(** The backlog never exceeds the capacity: every accepted message fits behind
    what is pending when it arrives. *)
Fixpoint fits (q : queue) (xs : list op) : Prop :=
  match xs with
  | [] => True
  | x :: xs' =>
      (match x with
       | OWrite d i =>
           accepts q i = true -> length (q_pending q) + length d <= CAP
       | _ => True
       end) /\ fits (fst (qstep q x)) xs'
  end.
End Spec.


(** Everything ever accepted into the buffer, in order (a message longer than
    the capacity contributes the part that was queued). *)
Fixpoint history (CAP : nat) (q : queue) (xs : list op) : list Z :=
  match xs with
  | [] => []
  | x :: xs' =>
      (match x with
       | OWrite d i => if accepts q i then firstn CAP d else []
       | _ => []
       end) ++ history CAP (fst (qstep CAP q x)) xs'
  end.

(** The main loop will flush: output is pending, the descriptor is open, the
    client has not suspended output, and poll() is asked for writability. *)
Definition flush_scheduled (q_pending : list Z) (o : obj) : Prop :=
  q_pending <> [] -> o_open o = true -> is_suspended o = false -> o_pollout o = true.

(** No reopening while output is pending, as for a client's descriptor. *)
Definition op_no_reopen (x : op) : Prop :=
  match x with OOpen => False | _ => True end.

(** [subseq a b]: [a] is obtained from [b] by deleting elements. *)
Inductive subseq {A} : list A -> list A -> Prop :=
| sub_nil : forall b, subseq [] b
| sub_keep : forall x a b, subseq a b -> subseq (x :: a) (x :: b)
| sub_drop : forall x a b, subseq a b -> subseq a (x :: b).

(** A newly created object: nothing pending, quiet mode as requested. *)
Definition empty_queue (k : kind) : queue :=
  match k with
  | KClient q _ => mkQ [] false true q true
  | _ => mkQ [] false false false true
  end.

Definition kind_client (k : kind) : bool :=
  match k with KClient _ _ => true | _ => false end.
