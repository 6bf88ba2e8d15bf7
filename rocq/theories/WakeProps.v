(** Theorems about output that several threads produce at the same time: C123. *)
From Verif Require Import Base WakeModel WakeSpec WakeProof.
Set Implicit Arguments.

(** C123: whatever the threads do and in whatever order, when the main loop waits and
    nobody is in the middle of changing the buffer, a client that has output pending and
    is not suspended is being polled for output. *)
Theorem C123_polled cap s : reached cap s -> waiting s ->
  gone s = false -> 0 < pend s -> susp s = false -> out s = true.
Proof. apply polled. Qed.

(** Nobody stays in the middle of it: who holds the buffer lets go after at most six steps
    of its own, none of which waits for another thread. *)
Theorem C123_released cap s t : reached cap s -> lock s = Some t ->
  exists m, m <= 6 /\ lock (run cap s (repeat (Run t) m)) = None.
Proof. apply released. Qed.

(** A client that is to be closed is closed by the write that empties its buffer. *)
Theorem C123_closed cap s n : waiting s -> noted s -> pend s <= n ->
  gone (run cap s (Begin 0 (Flush n) :: repeat (Run 0) 6)) = true.
Proof.
  intros [C L] N P. unfold run, noted in *. cbn [repeat fold_left].
  remember (step cap s (Begin 0 (Flush n))) as s1 eqn:E1.
  assert (A1 : code s1 0 = [Acquire; Send n; Empty] /\ lock s1 = None /\ eof s1 = true /\ pend s1 <= n).
  { subst s1. cbn [step]. unfold idle. rewrite C. cbn [may andb Nat.eqb code lock eof pend]. now rewrite put_eq. }
  clear - A1. destruct A1 as (C & L & N & P). rewrite (@step_run cap s1 0 _ _ C). cbn [exec]. rewrite L.
  remember (mkS (pend s1) _ _ _ _ _ _ _) as s2 eqn:E2.
  assert (A2 : code s2 0 = [Send n; Empty] /\ eof s2 = true /\ pend s2 <= n).
  { subst s2. cbn [code eof pend]. now rewrite put_eq. }
  clear - A2. destruct A2 as (C & N & P). rewrite (@step_run cap s2 0 _ _ C). cbn [exec].
  remember (mkS (pend s2 - n) _ _ _ _ _ _ _) as s3 eqn:E3.
  assert (A3 : code s3 0 = [Empty] /\ eof s3 = true /\ pend s3 = 0).
  { subst s3. cbn [code eof pend]. rewrite put_eq. repeat split; [exact N|lia]. }
  clear - A3. destruct A3 as (C & N & P). rewrite (@step_run cap s3 0 _ _ C). cbn [exec]. rewrite P, N. cbn [Nat.eqb].
  remember (mkS 0 _ _ _ _ _ _ _) as s4 eqn:E4.
  assert (A4 : code s4 0 = [Rest true]). { subst s4. cbn [code]. apply put_eq. }
  clear - A4. rewrite (@step_run cap s4 0 _ _ A4). cbn [exec].
  remember (mkS (pend s4) _ _ _ _ _ _ _) as s5 eqn:E5.
  assert (A5 : code s5 0 = [Part true]). { subst s5. cbn [code]. apply put_eq. }
  clear - A5. rewrite (@step_run cap s5 0 _ _ A5). cbn [exec].
  remember (mkS (pend s5) _ _ _ _ _ _ _) as s6 eqn:E6.
  assert (A6 : code s6 0 = [Close]). { subst s6. cbn [code]. apply put_eq. }
  clear - A6. rewrite (@step_run cap s6 0 _ _ A6). reflexivity.
Qed.

(** Once somebody noted that a client is to be closed, it stays so until it is closed, as
    long as no write passes the end of the circular buffer. *)
Theorem C123_noted_partial cap es1 es2 : unwrapped (es1 ++ es2) -> noted (run cap start es1) ->
  gone (run cap start (es1 ++ es2)) = true \/ noted (run cap start (es1 ++ es2)).
Proof. apply kept. Qed.

(** C123, finding: gotEOF and gotBufWrap are bits of one word, gotBufWrap is set with the
    buffer's lock held and gotEOF without it.  When another thread's message passes the
    end of the buffer while the main loop notes that the client hung up, the note is lost:
    the client's descriptor is polled for nothing any more and the session stays. *)
Theorem C123_noted_refuted : exists cap es1 es2,
  noted (run cap start es1) /\
  let s := run cap start (es1 ++ es2) in
  quiet s /\ gone s = false /\ ~ noted s /\ pend s = 0 /\ held s.
Proof.
  exists 9, [Begin 1 (Write 1 true); Run 1; Run 1; Run 1; Run 1; Begin 0 Hup; Run 0; Run 0],
    [Run 0; Run 1; Run 1; Run 1; Run 1; Begin 0 (Flush 1); Run 0; Run 0; Run 0; Run 0; Run 0].
  split; [reflexivity|]. cbv zeta. split; [split; [|reflexivity]|].
  - intros [|[|t]]; reflexivity.
  - repeat split. unfold noted. vm_compute. discriminate.
Qed.

(** C123, finding: a client whose console is stolen is sent a message and then marked to be
    closed when its buffer is empty.  If the main loop sends the message before the mark is
    set, nothing closes the client: no message and no other session wakes it. *)
Theorem C123_stolen_refuted : exists cap es,
  let s := run cap start es in
  quiet s /\ noted s /\ gone s = false /\
  forall es', unattended es' -> gone (run cap s es') = false /\ held (run cap s es').
Proof.
  exists 9, [Begin 1 (Write 1 false); Run 1; Run 1; Run 1; Run 1; Run 1; Run 1;
             Begin 0 (Flush 1); Run 0; Run 0; Run 0; Run 0; Run 0; Begin 1 Unlink; Run 1; Run 1].
  cbv zeta. split; [split; [|reflexivity]|].
  - intros [|[|t]]; reflexivity.
  - split; [reflexivity|]. split; [reflexivity|]. intros es' U.
    destruct (@stuck_run 9 es' (run 9 start [Begin 1 (Write 1 false); Run 1; Run 1; Run 1; Run 1; Run 1; Run 1;
      Begin 0 (Flush 1); Run 0; Run 0; Run 0; Run 0; Run 0; Begin 1 Unlink; Run 1; Run 1])) as (_ & _ & O & G & _);
      [|exact U|now split].
    repeat split. intros [|[|t]]; exact I.
Qed.

(** While a client is suspended, and nobody was writing to it when it was suspended, it is
    not polled for output, whatever is written to it. *)
Theorem C123_suspended_partial cap s es : (forall t, code s t = []) -> susp s = true -> held s -> steady es ->
  held (run cap s es).
Proof. apply silenced. Qed.

(** C123, finding: a message being written while the client suspends its output is sent
    to it although the suspension is in force. *)
Theorem C123_suspended_refuted : exists cap es,
  let s := run cap start es in
  quiet s /\ gone s = false /\ susp s = true /\ 0 < pend s /\ ~ held s.
Proof.
  exists 9, [Begin 1 (Write 1 false); Run 1; Run 1; Run 1; Run 1; Begin 0 Suspend; Run 0; Run 0; Run 1; Run 1].
  cbv zeta. split; [split; [|reflexivity]|].
  - intros [|[|t]]; reflexivity.
  - repeat split; [vm_compute; lia|unfold held; vm_compute; discriminate].
Qed.

(** Two writers, a suspend and a resume, and a flush that leaves something. *)
Example C123_example :
  let es := [Begin 1 (Write 3 false); Begin 2 (Write 4 true); Run 1; Run 2; Run 2; Run 1; Run 2; Begin 0 Suspend; Run 0; Run 2;
             Run 2; Run 2; Run 2; Run 0; Run 1; Run 1; Run 1; Run 1; Begin 0 Suspend; Run 0; Run 0; Begin 0 (Flush 5);
             Run 0; Run 0; Run 0; Run 0] in
  let s := run 9 start es in
  reached 9 s /\ waiting s /\ gone s = false /\ pend s = 2 /\ susp s = false /\ out s = true.
Proof. cbv zeta. split; [eexists; reflexivity|]. repeat split. Qed.
Example C123_example_lock :
  let s := run 9 start [Begin 1 (Write 3 true); Run 1; Run 1] in
  reached 9 s /\ lock s = Some 1 /\ lock (run 9 s (repeat (Run 1) 6)) = None.
Proof. cbv zeta. split; [eexists; reflexivity|]. repeat split. Qed.
Example C123_example_closed :
  let s := run 9 start [Begin 1 (Write 3 false); Run 1; Run 1; Run 1; Run 1; Run 1; Run 1; Begin 0 Hup; Run 0; Run 0; Run 0] in
  waiting s /\ noted s /\ pend s <= 3 /\ gone s = false.
Proof. cbv zeta. repeat split. vm_compute. lia. Qed.
Example C123_example_suspended :
  let s := run 9 start [Begin 0 Suspend; Run 0; Run 0] in
  (forall t, code s t = []) /\ susp s = true /\ held s /\
  steady [Begin 1 (Write 3 false); Run 1; Run 1; Run 1; Run 1; Run 1] /\
  pend (run 9 s [Begin 1 (Write 3 false); Run 1; Run 1; Run 1; Run 1; Run 1]) = 3.
Proof.
  cbv zeta. repeat split; [intros [|t]; reflexivity|].
  intros t. cbn [In]. intuition discriminate.
Qed.

Print Assumptions C123_polled.
Print Assumptions C123_released.
Print Assumptions C123_closed.
Print Assumptions C123_noted_partial.
Print Assumptions C123_noted_refuted.
Print Assumptions C123_stolen_refuted.
Print Assumptions C123_suspended_partial.
Print Assumptions C123_suspended_refuted.
