(** Properties C01-C05 and C65 of the output buffer.  Vocabulary: [RingSpec]
    (abstract bounded queue, histories) and the modelled calls of [RingModel].
    OBJ_BUF_SIZE = 16384 and LOG_REPLAY_LEN = 4096 are instances of [SZ], [RL]. *)
From Verif Require Import Base RingModel RingSpec RingProof.
Set Implicit Arguments.

(** C01: the object behaves as a queue of capacity SZ-1 that drops its oldest
    bytes: same bytes handed to the kernel, same bytes pending. *)
Theorem C01_ring_is_bounded_queue : forall SZ k junk xs,
  1 < SZ -> length junk = SZ -> Forall (op_allowed (kind_client k)) xs ->
  exists o', run SZ (create k junk) xs = Ok (o', snd (qrun (SZ - 1) (empty_queue k) xs)) /\
    iov SZ o' = Ok (q_pending (fst (qrun (SZ - 1) (empty_queue k) xs))) /\
    length (o_buf o') = SZ /\ o_in o' < SZ /\ o_out o' < SZ.
Proof. exact ring_refines. Qed.

(** C01: whatever is flushed and whatever overflows, what was sent followed by
    what is pending keeps the order of what was queued, and what is pending is
    the end of what was queued. *)
Theorem C01_order_and_suffix : forall SZ k junk xs o' sent p,
  1 < SZ -> length junk = SZ -> Forall (op_allowed (kind_client k)) xs ->
  run SZ (create k junk) xs = Ok (o', sent) -> iov SZ o' = Ok p ->
  subseq (sent ++ p) (history (SZ - 1) (empty_queue k) xs) /\
  exists pre, history (SZ - 1) (empty_queue k) xs = pre ++ p.
Proof. exact ring_order. Qed.

(** C01: with a reader that takes nothing, exactly the last SZ-1 bytes remain. *)
Theorem C01_overflow_keeps_newest : forall SZ k junk xs o' sent,
  1 < SZ -> length junk = SZ -> Forall (op_allowed (kind_client k)) xs ->
  Forall (fun x => match x with OFlush _ | OShutdown => False | _ => True end) xs ->
  run SZ (create k junk) xs = Ok (o', sent) ->
  iov SZ o' = Ok (lastn (SZ - 1) (history (SZ - 1) (empty_queue k) xs)).
Proof. exact ring_noflush. Qed.

(** C01, finding: a single message that is longer than the capacity keeps its
    FIRST SZ-1 bytes, not its last ones (server-obj.c:990-992). *)
Theorem C01_oversized_message_refuted : exists SZ o data o' n,
  1 < SZ /\ length (o_buf o) = SZ /\ write_obj_data SZ o data false = Ok (n, o') /\
  iov SZ o' <> Ok (lastn (SZ - 1) data).
Proof.
  exists 4, (create KConsole [0;0;0;0]%Z), [1;2;3;4;5]%Z.
  eexists; eexists. split; [lia|]. split; [vm_compute; reflexivity|]. split; [vm_compute; reflexivity|].
  vm_compute; discriminate.
Qed.

(** C02: no sequence of operations leaves the buffer; every access made by
    [run] is bounds-checked and every assert is evaluated. *)
Theorem C02_no_out_of_bounds : forall SZ k junk xs,
  1 < SZ -> length junk = SZ -> Forall (op_allowed (kind_client k)) xs ->
  exists o' sent, run SZ (create k junk) xs = Ok (o', sent) /\
    length (o_buf o') = SZ /\ o_in o' < SZ /\ o_out o' < SZ.
Proof.
  exact (fun SZ k junk xs H1 H2 H3 =>
    match @ring_refines SZ k junk xs H1 H2 H3 with
    | ex_intro _ o' (conj a (conj _ b)) => ex_intro _ o' (ex_intro _ _ (conj a b))
    end).
Qed.

(** C03: if no message ever exceeds the free space, the bytes written to the
    descriptor followed by the pending ones are all the bytes queued. *)
Theorem C03_no_loss_below_capacity : forall SZ k junk xs,
  1 < SZ -> length junk = SZ -> Forall (op_allowed (kind_client k)) xs ->
  Forall op_keeps xs -> fits (SZ - 1) (empty_queue k) xs ->
  exists o' sent p, run SZ (create k junk) xs = Ok (o', sent) /\ iov SZ o' = Ok p /\
    sent ++ p = queued (SZ - 1) (empty_queue k) xs.
Proof. exact ring_conserve. Qed.

(** C04: the replay shows exactly the last RL bytes queued to the log (all of
    them if there are fewer), between the two messages. *)
Theorem C04_replay_shows_last_bytes : forall SZ RL dbg k junk xs b e o' sent,
  0 < RL -> length e + 2 = length b -> RL + 2 * length b < SZ ->
  length junk = SZ -> Forall (op_allowed (kind_client k)) xs -> Forall op_keeps xs ->
  (dbg = true -> history (SZ - 1) (empty_queue k) xs <> []) ->
  run SZ (create k junk) xs = Ok (o', sent) ->
  replay_message SZ RL dbg o' b e =
    Ok (Some (b ++ lastn RL (history (SZ - 1) (empty_queue k) xs) ++ e)).
Proof. exact replay_correct. Qed.

(** C05, positive part: in a production build the replay of a log that never was
    shut down is safe in every state, also when nothing was logged. *)
Theorem C05_replay_safe_partial : forall SZ RL k junk xs b e o' sent,
  0 < RL -> length e + 2 = length b -> RL + 2 * length b < SZ ->
  length junk = SZ -> Forall (op_allowed (kind_client k)) xs -> Forall op_keeps xs ->
  run SZ (create k junk) xs = Ok (o', sent) ->
  exists m, replay_message SZ RL false o' b e = Ok (Some m).
Proof.
  exact (fun SZ RL k junk xs b e o' sent H1 H2 H3 H4 H5 H6 H7 =>
    ex_intro _ _ (@replay_correct SZ RL false k junk xs b e o' sent H1 H2 H3 H4 H5 H6
      (fun H => False_ind _ (Bool.diff_false_true H)) H7)).
Qed.

(** C05, finding: in a debug build replaying a log with nothing in it aborts
    (server-esc.c:360), e.g. right after the log was shut down on a write error. *)
Theorem C05_empty_replay_refuted : exists SZ RL junk o' sent b e,
  0 < RL /\ length e + 2 = length b /\ RL + 2 * length b < SZ /\ length junk = SZ /\
  run SZ (create (KLogfile LineInit) junk) [OWrite [1;2;3]%Z false; OShutdown] = Ok (o', sent) /\
  replay_message SZ RL true o' b e = UB AssertFail.
Proof.
  exists 20, 4, (repeat 0%Z 20). do 2 eexists. exists [1;2;3]%Z, [1]%Z.
  split; [lia|]. split; [vm_compute; reflexivity|]. split; [cbn; lia|]. split; [vm_compute; reflexivity|].
  split; vm_compute; reflexivity.
Qed.

(** C05, finding: shutdown_obj resets the positions but not the wrap flag, so
    after a shutdown the replay shows stale bytes that are not the last ones. *)
Theorem C05_stale_replay_refuted : exists SZ RL junk xs o' sent b e m,
  0 < RL /\ length e + 2 = length b /\ RL + 2 * length b < SZ /\ length junk = SZ /\
  run SZ (create (KLogfile LineInit) junk) xs = Ok (o', sent) /\
  replay_message SZ RL true o' b e = Ok (Some m) /\
  m <> b ++ lastn RL (history (SZ - 1) (empty_queue (KLogfile LineInit)) xs) ++ e.
Proof.
  exists 12, 3, (repeat 0%Z 12),
    [OWrite [1;2;3;4;5;6;7;8]%Z false; OWrite [9;10;11;12;13;14]%Z false; OShutdown].
  do 2 eexists. exists [1;2;3]%Z, [1]%Z. eexists.
  split; [lia|]. split; [vm_compute; reflexivity|]. split; [cbn; lia|]. split; [vm_compute; reflexivity|].
  split; [vm_compute; reflexivity|]. split; [vm_compute; reflexivity|]. vm_compute; discriminate.
Qed.

(** C65: as long as the descriptor is not reopened, pending output always has
    its flush scheduled. *)
Theorem C65_flush_scheduled_partial : forall SZ k junk xs o' sent p,
  1 < SZ -> length junk = SZ -> Forall (op_allowed (kind_client k)) xs ->
  Forall op_no_reopen xs ->
  run SZ (create k junk) xs = Ok (o', sent) -> iov SZ o' = Ok p ->
  flush_scheduled p o'.
Proof. exact ring_sched. Qed.

(** C65, finding: bytes typed while a console is down stay in the buffer, and
    when it is reopened nobody asks poll() for writability: they are held back
    until the next keystroke. *)
Theorem C65_reopen_refuted : exists SZ junk xs o' sent p,
  1 < SZ /\ length junk = SZ /\ Forall (op_allowed false) xs /\
  run SZ (create KConsole junk) xs = Ok (o', sent) /\ iov SZ o' = Ok p /\
  ~ flush_scheduled p o'.
Proof.
  exists 8, (repeat 0%Z 8), [OShutdown; OWrite [65]%Z false; OOpen].
  do 3 eexists. split; [lia|]. split; [vm_compute; reflexivity|]. split; [repeat constructor|].
  split; [vm_compute; reflexivity|]. split; [vm_compute; reflexivity|].
  unfold flush_scheduled; cbn. intros H. discriminate H; auto; discriminate.
Qed.

(** ** The hypotheses are met by concrete cases. *)
Definition ex_ops : list op :=
  [OWrite [1;2;3]%Z false; OFlush [WIntr; WAccept 2]; OWrite [4;5;6;7]%Z true;
   OQuiet; OWrite [8]%Z true; OSuspend; OWrite [9;10]%Z false].

Example ex_ops_allowed : Forall (op_allowed (kind_client (KClient false false))) ex_ops.
Proof. repeat constructor. Qed.

Example ex_run : exists o', run 6 (create (KClient false false) (repeat 0%Z 6)) ex_ops
  = Ok (o', [1;2]%Z) /\ iov 6 o' = Ok [5;6;7;9;10]%Z.
Proof. eexists; split; vm_compute; reflexivity. Qed.

Example ex_fits : fits 15 (empty_queue (KClient false false)) ex_ops
  /\ Forall op_keeps ex_ops /\ Forall op_no_reopen ex_ops.
Proof. split; [cbn; repeat split; lia|split; repeat constructor]. Qed.

Example ex_noflush : Forall (fun x => match x with OFlush _ | OShutdown => False | _ => True end)
  [OWrite [1;2;3]%Z false; OWrite [4;5]%Z false].
Proof. repeat constructor. Qed.

Example ex_replay :
  4 + 2 * 3 < 20 /\
  exists o' s, run 20 (create (KLogfile LineInit) (repeat 0%Z 20))
     [OWrite [1;2;3;4;5;6]%Z false; OWrite [7;8]%Z true] = Ok (o', s) /\
  replay_message 20 4 true o' [91;92;93]%Z [94]%Z = Ok (Some [91;92;93;5;6;7;8;94]%Z).
Proof. split; [lia|]. do 2 eexists; split; vm_compute; reflexivity. Qed.

Print Assumptions C01_ring_is_bounded_queue.
Print Assumptions C01_order_and_suffix.
Print Assumptions C01_overflow_keeps_newest.
Print Assumptions C01_oversized_message_refuted.
Print Assumptions C02_no_out_of_bounds.
Print Assumptions C03_no_loss_below_capacity.
Print Assumptions C04_replay_shows_last_bytes.
Print Assumptions C05_replay_safe_partial.
Print Assumptions C05_empty_replay_refuted.
Print Assumptions C05_stale_replay_refuted.
Print Assumptions C65_flush_scheduled_partial.
Print Assumptions C65_reopen_refuted.
