(** When the output of a client is taken care of. *)
From Verif Require Import Base WakeModel.
Set Implicit Arguments.

(** A state of the daemon that some schedule of any threads leads to. *)
Definition reached (cap : nat) (s : st) : Prop := exists es, s = run cap start es.

(** The main loop waits for something to happen and nobody is in the middle of changing
    the buffer. *)
Definition waiting (s : st) : Prop := code s 0 = [] /\ lock s = None.
(** Nobody is doing anything with the client. *)
Definition quiet (s : st) : Prop := (forall t, code s t = []) /\ lock s = None.

(** No write of the schedule passes the end of the buffer. *)
Definition unwrapped (es : list event) : Prop := forall t k, ~ In (Begin t (Write k true)) es.
(** The schedule neither suspends nor resumes the client. *)
Definition steady (es : list event) : Prop := forall t, ~ In (Begin t Suspend) es.
(** No byte can be handed to the client: whatever the main loop is told, it is not that the
    client can take output. *)
Definition held (s : st) : Prop := out s = false.
(** Somebody noted that the client is to be closed. *)
Definition noted (s : st) : Prop := eof s = true.
(** The schedule only has other writes and other sessions ending: the main loop is not
    told anything about the client, neither that it can take output nor that it is gone. *)
Definition unattended (es : list event) : Prop :=
  Forall (fun e => match e with Begin _ (Write _ _) | Begin _ Unlink | Run _ => True | _ => False end) es.
