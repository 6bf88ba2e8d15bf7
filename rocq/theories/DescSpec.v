(** What is meant by keeping descriptors apart, for DescProps. *)
From Verif Require Import Base DescModel.
Local Open Scope Z_scope.

Definition standard (fd : Z) : Prop := fd = 0 \/ fd = 1 \/ fd = 2.
(** A usual beginning: standard input, output and error are open, and the numbers of the open
    files are below the next one. *)
Definition started_with (t : tab) : Prop :=
  NoDup (map fst t) /\ (forall fd, standard fd -> In fd (map fst t)) /\
  Forall (fun e => 0 <= fst e /\ (d_id (snd e) < length t)%nat) t.

(** A call that made the descriptor [fd]. *)
Definition makes (c : call) (a : answer) (fd : Z) : Prop :=
  ok a = true /\ match c with Open _ _ => fd = fd1 a | Pair _ _ => fd = fd1 a \/ fd = fd2 a | _ => False end.
(** Thread [j] made [fd] by [c], and since then it was neither closed nor marked. *)
Definition unmarked (past : list (nat * call * answer)) (fd : Z) (j : nat) (c : call) : Prop :=
  exists since a before, past = since ++ (j, c, a) :: before /\ makes c a fd /\
    forall k c' a', In (k, c', a') since -> c' <> Close fd /\ ~ (c' = Cloexec fd /\ ok a' = true).

(** Every thread is between two functions. *)
Definition idle (p : proc) : Prop := Forall (fun q => q = Ret) (p_threads p).
Definition no_client (e : ev) : Prop := match e with Begin _ (JAccept _) => False | _ => True end.
(** Only the main thread begins anything: no client's thread has to open a console again that was
    down when the client asked for it. *)
Definition by_main (e : ev) : Prop := match e with Begin i _ => i = O | _ => True end.
