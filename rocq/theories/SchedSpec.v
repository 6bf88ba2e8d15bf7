(** When timestamps are due, and what they say. *)
From Coq Require Import String.
From Verif Require Import Base Chars MsgModel SchedModel.
Local Open Scope Z_scope.

(** the local midnight at or before [t], in seconds of UTC *)
Definition midnight (off : Z -> Z) (t m : Z) : Prop :=
  (m + off t) mod 86400 = 0 /\ m <= t < m + 86400.
(** the logs among the objects *)
Definition logs (objs : list object) : list (list Z) := flat_map (fun o => match o with LogOf c => [c] | Other => [] end) objs.
(** what is written to the log of console [c] *)
Definition message (c now : list Z) : list Z :=
  CR :: LF :: zs "<ConMan> Console [" ++ c ++ zs "] log at " ++ now ++ [DOT; CR; LF].
(** logs have names of their consoles, which are strings *)
Definition objs_ok (objs : list object) : Prop := Forall chars_ok (logs objs).
