(** When threads keep out of each other's way, and what links should look like. *)
From Verif Require Import Base WeaveModel.
Set Implicit Arguments.

Definition times (x : nat) (l : list nat) : nat := count_occ Nat.eq_dec l x.
(** Client [c] lists exactly those objects that list it, equally often. *)
Definition symmetric (l : links) (c : nat) : Prop :=
  forall k, times k (rd l c) = times c (wr l k) /\ times c (rd l k) = times k (wr l c).
(** Nothing refers to [c] and it refers to nothing. *)
Definition unlinked (l : links) (c : nat) : Prop :=
  rd l c = [] /\ wr l c = [] /\ forall k, ~ In c (rd l k) /\ ~ In c (wr l k).

Section Sep.
Variable isc : nat -> bool.
(** The client an operation is about. *)
Definition of_pair (s d : nat) : nat := if isc s then s else d.
Definition client_of (i : instr) : nat :=
  match i with
  | AppR s d | AppW s d | DelR s d _ | DelW s d _ | E1 s d _ | E2 s d _ | E3 s d _ | E4 s d _ | Steal s d _ => of_pair s d
  | PeekW o _ | PeekR o _ | Free o => o
  end.
(** Some thread has something left to do about client [c]. *)
Definition pending (w : weave) (c : nat) : Prop :=
  exists t i, In t (w_t w) /\ In i t /\ client_of i = c.

Definition call_client (a : call) : nat :=
  match a with Link s d | Force s d | Unlink s d => of_pair s d | Detach c | Hangup c => c end.
(** Links join a client and a console, and nobody is stolen from. *)
Definition gentle (a : call) : Prop :=
  match a with
  | Link s d | Unlink s d => xorb (isc s) (isc d) = true
  | Force _ _ => False
  | Detach c | Hangup c => isc c = true
  end.
(** A program that destroys a client does nothing else with it afterwards. *)
Fixpoint tidy (p : list call) : Prop :=
  match p with
  | [] => True
  | a :: p' => match a with Hangup c => ~ In c (map call_client p') | _ => True end /\ tidy p'
  end.
(** Only clients that no thread is busy with, and that are not destroyed, are taken up. *)
Definition starts_apart (w : weave) (e : event) : Prop :=
  match e with
  | Start p => Forall gentle p /\ tidy p /\ forall c, In c (map call_client p) -> ~ pending w c /\ gone (w_l w) c = false
  | Run _ => True
  end.
Fixpoint apart (w : weave) (es : list event) : Prop :=
  match es with
  | [] => True
  | e :: es' => starts_apart w e /\ apart (step isc w e) es'
  end.
(** Before the first client. *)
Definition fresh (w : weave) : Prop :=
  w_t w = [] /\ (forall c, gone (w_l w) c = false) /\
  forall c, isc c = true -> unlinked (w_l w) c.

(** One thread runs [p] alone for [n] steps. *)
Fixpoint alone (n : nat) (l : links) (p : list instr) : links * list instr :=
  match n with
  | O => (l, p)
  | S n' => match p with [] => (l, []) | i :: rest => let (l', more) := exec isc l i in alone n' l' (more ++ rest) end
  end.
Definition runs_of (t : nat) (es : list event) : nat :=
  length (filter (fun e => match e with Run j => j =? t | _ => false end) es).
(** All that concerns client [c]. *)
Definition same_for (c : nat) (a b : links) : Prop :=
  rd a c = rd b c /\ wr a c = wr b c /\ eof a c = eof b c /\ gone a c = gone b c /\
  forall k, times c (rd a k) = times c (rd b k) /\ times c (wr a k) = times c (wr b k).
End Sep.
