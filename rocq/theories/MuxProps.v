(** Theorems about the main loop: C64 and C74. *)
From Verif Require Import Base MuxModel MuxSpec MuxProof.
Open Scope Z_scope.

(** ** C64 *)

(** One pass of the main loop, with whatever the handlers and the client threads do to
    the descriptors meanwhile: every object for which input, a hangup or an error was
    reported is read, unless something else already acted on its descriptor in this pass. *)
Theorem C64_read ld ine n acc inx s ts s' p l o : coherent s -> counts s n -> own_fds s ld ine ->
  Forall plain acc -> Forall plain inx -> Forall plain_turn ts ->
  In o (objs s) -> readable s o ->
  mux_pass ld ine n acc inx s ts = Ok (s', p, l) -> In (Read o) l \/ disturbed o l.
Proof.
  intros H N O P1 P2 P3 I R M. destruct (pass_served ld ine n acc inx s ts s' p l o INS H N O P1 P2 P3 (or_introl eq_refl) I R M) as [D|[[_ D]|[E _]]]; auto. discriminate.
Qed.

(** Likewise every object that can be written is written or has just been removed because
    reading it failed. *)
Theorem C64_written ld ine n acc inx s ts s' p l o : coherent s -> counts s n -> own_fds s ld ine ->
  Forall plain acc -> Forall plain inx -> Forall plain_turn ts ->
  In o (objs s) -> writable s o ->
  mux_pass ld ine n acc inx s ts = Ok (s', p, l) -> In (Wrote o) l \/ In (Deleted o) l \/ disturbed o l.
Proof.
  intros H N O P1 P2 P3 I R M. destruct (pass_served ld ine n acc inx s ts s' p l o POLLOUT H N O P1 P2 P3 (or_intror eq_refl) I R M) as [D|[[E _]|[_ [D|D]]]]; auto. discriminate.
Qed.

(** When the pass ends, objects it did not look at have nothing reported for them,
    and the table still fits the objects. *)
Theorem C64_none_left ld ine n acc inx s ts s' p l : coherent s -> counts s n -> own_fds s ld ine ->
  Forall plain acc -> Forall plain inx -> Forall plain_turn ts ->
  mux_pass ld ine n acc inx s ts = Ok (s', p, l) ->
  coherent s' /\ forall o, In o (skipn p (objs s')) -> 0 <= fd s' o -> rev s' (fd s' o) = 0.
Proof. apply pass_end. Qed.

(** An object leaves the list only when its handler has failed, and then its descriptor is
    closed, registered for nothing and no descriptor is its own any more. *)
Theorem C64_removed n pos s t s' tr r o : coherent s -> plain_turn t ->
  one n pos s t = (s', tr, r) -> In o (objs s) -> ~ In o (objs s') ->
  In (Deleted o) tr /\ (In (Read o) tr /\ snd (t_read t) = true \/ In (Wrote o) tr /\ snd (t_write t) = true) /\
  fd s' o = -1 /\ (forall f, own s' f <> Of o).
Proof.
  intros H P E I N. destruct (one_removed _ _ _ _ _ _ _ _ H P E I N) as (A & B & C & D). auto.
Qed.

(** Two consoles and a client with events, a client thread closing and adding objects. *)
Definition ex_fd (o : nat) : Z := match o with 1%nat => 5 | 2%nat => 6 | 3%nat => 7 | _ => -1 end.
Definition ex_own (f : Z) : owner := if f =? 3 then Daemon else if f =? 5 then Of 1 else if f =? 6 then Of 2 else if f =? 7 then Of 3 else Closed.
Definition ex_reg (f : Z) : Z := if (f =? 3) || (f =? 5) || (f =? 6) || (f =? 7) then 5 else 0.
Definition ex_rev (f : Z) : Z := if f =? 3 then 1 else if f =? 5 then 5 else if f =? 7 then 4 else 0.
Definition ex_st := mkSt [1; 2; 3]%nat ex_fd ex_own ex_reg ex_rev.
Definition ex_turns := [mkTurn [AAppend 4%nat] ([AClose 1%nat], true) ([], false); mkTurn [] ([], false) ([], false); mkTurn [] ([], false) ([AClear 3%nat 4], false); mkTurn [] ([], false) ([], false)].
Lemma ex_coherent : coherent ex_st.
Proof.
  assert (X : forall f, f = 3 \/ f = 5 \/ f = 6 \/ f = 7 \/ (f <> 3 /\ f <> 5 /\ f <> 6 /\ f <> 7)) by lia.
  constructor; cbn [objs fd own reg rev ex_st].
  - repeat constructor; cbn [In]; lia.
  - intros [|[|[|[|o]]]]; cbn; lia.
  - intros [|[|[|[|o]]]]; cbn; auto; lia.
  - intros f o. destruct (X f) as [->|[->|[->|[->|(A & B & C & D)]]]]; try (vm_compute; congruence); try (vm_compute; intros E; injection E; intros <-; reflexivity).
    unfold ex_own. do 4 (rewrite (proj2 (Z.eqb_neq _ _)) by assumption). discriminate.
  - intros f. destruct (X f) as [->|[->|[->|[->|(A & B & C & D)]]]]; try lia.
    unfold ex_own. do 4 (rewrite (proj2 (Z.eqb_neq _ _)) by assumption). congruence.
  - intros f. destruct (X f) as [->|[->|[->|[->|(A & B & C & D)]]]]; try (vm_compute; congruence).
    unfold ex_reg. do 4 (rewrite (proj2 (Z.eqb_neq _ _)) by assumption). cbn. congruence.
  - intros f. destruct (X f) as [->|[->|[->|[->|(A & B & C & D)]]]]; try reflexivity.
    unfold ex_reg. do 4 (rewrite (proj2 (Z.eqb_neq _ _)) by assumption). reflexivity.
  - intros f. destruct (X f) as [->|[->|[->|[->|(A & B & C & D)]]]]; try (vm_compute; congruence).
    unfold ex_rev. rewrite (proj2 (Z.eqb_neq f 3)), (proj2 (Z.eqb_neq f 5)), (proj2 (Z.eqb_neq f 7)) by assumption. congruence.
Qed.
Example C64_example : coherent ex_st /\ counts ex_st 3 /\ own_fds ex_st 3 (-1) /\ Forall plain_turn ex_turns /\
  readable ex_st 1%nat /\ writable ex_st 3%nat /\
  exists s', mux_pass 3 (-1) 3 [ALoose 9] [] ex_st ex_turns = Ok (s', 2%nat,
    [Did (ALoose 9); Did (AAppend 4); Visited 1; Read 1; Did (AClose 1); Deleted 1; Visited 2; Visited 3; Wrote 3; Did (AClear 3 4)]) /\
    objs s' = [2; 3; 4]%nat.
Proof.
  split; [exact ex_coherent|]. split.
  { exists [3; 5; 7]. split; [repeat constructor; cbn [In]; lia|]. split; [|reflexivity]. intros f. cbn [rev ex_st In]. unfold ex_rev.
    destruct (Z.eqb_spec f 3), (Z.eqb_spec f 5), (Z.eqb_spec f 7); subst; split; intros; try lia; auto. }
  split; [split; [reflexivity|split; [auto|lia]]|]. split; [repeat constructor|]. split; [reflexivity|]. split; [reflexivity|].
  eexists. split; [vm_compute; reflexivity|reflexivity].
Qed.

(** ** C74 *)

(** However often a read or write is interrupted by signals, the outcome is that of the
    last try, as if there had been no signal: provided no handler changed errno. *)
Theorem C74_interrupts_partial l r : Forall interrupted l -> Forall errno_kept (l ++ [r]) -> ~ interrupted r ->
  attempt (l ++ [r]) = Some (match fst r with Done n => GoOn n | Fail e => if e =? EAGAIN then Later else GiveUp e end).
Proof. apply attempt_last. Qed.

(** The handler of SIGCHLD does change it: a read that found nothing to read, with the
    signal of the last child process delivered before errno is looked at, gives up a
    healthy connection; an interrupted poll() likewise ends the daemon. *)
Theorem C74_errno_refuted :
  attempt [(Fail EAGAIN, NoSignal)] = Some Later /\ attempt [(Fail EAGAIN, NoChildren)] = Some (GiveUp ECHILD) /\
  attempt [(Fail EINTR, NoChildren); (Done 10, NoSignal)] = Some (GiveUp ECHILD) /\
  wait [(Fail EINTR, NoSignal, false); (Done 1, NoSignal, false)] = Some (GoOn 1) /\
  wait [(Fail EINTR, NoChildren, false); (Done 1, NoSignal, false)] = Some (GiveUp ECHILD).
Proof. vm_compute. auto. Qed.

(** The wait for events survives any number of signals as well. *)
Theorem C74_wait_partial l n sg b : Forall (fun x => interrupted (fst x) /\ errno_kept (fst x) /\ snd x = false) l ->
  wait (l ++ [(Done n, sg, b)]) = Some (GoOn n).
Proof. apply wait_last. Qed.

(** ... and an interruption by a request to end or to reopen makes it look at that
    request at once, whatever tpoll() would do next. *)
Theorem C74_wait_asked_partial l x rest :
  Forall (fun x => interrupted (fst x) /\ errno_kept (fst x) /\ snd x = false) l ->
  interrupted (fst x) -> errno_kept (fst x) -> snd x = true -> wait (l ++ x :: rest) = Some Later.
Proof.
  intros F I K A. assert (X : forall y : sysret * late * bool, interrupted (fst y) -> errno_kept (fst y) ->
    exists sg, fst y = (Fail EINTR, sg) /\ errno_after EINTR sg = EINTR).
  { intros [[r sg] b] Iy Ky. cbn in *. unfold interrupted, errno_kept in *. cbn in *. exists sg. subst r.
    split; [reflexivity|]. destruct sg; cbn; try reflexivity. congruence. }
  induction F as [|y l (I1 & K1 & A1) F IH]; cbn [app wait].
  - destruct (X x I K) as (sg & E1 & E2). destruct x as [r b]. cbn in *. subst r b. rewrite E2. reflexivity.
  - destruct (X y I1 K1) as (sg & E1 & E2). destruct y as [r b]. cbn in *. subst r b. rewrite E2. exact IH.
Qed.

(** A termination signal ends the loop within two steps of the main thread (finish the
    pass, test the flag), at whatever moment it comes, except on the way into poll(). *)
Theorem C74_terminates_partial h : at_ (history_of h) <> Entering ->
  at_ (history_of (h ++ [Term; Go; Go])) = Exited.
Proof.
  intros N. unfold history_of in *. rewrite fold_left_app. set (d := fold_left happen h _) in *. clearbody d.
  destruct d as [[] q]; cbn in *; congruence.
Qed.

(** There it is missed: the daemon sleeps, however long, until something else wakes it. *)
Theorem C74_missed_refuted : exists h, at_ (history_of h) = Entering /\
  forall k, (1 <= k)%nat -> history_of (h ++ Term :: repeat Go k) = mkLoop Asleep true.
Proof.
  exists [Go]. split; [reflexivity|]. intros [|k] K; [lia|]. unfold history_of. cbn [app repeat fold_left happen go term at_ quit].
  clear K. induction k as [|k IH]; [reflexivity|exact IH].
Qed.

Example C74_example : Forall interrupted [(Fail EINTR, ChildrenLeft); (Fail EINTR, NoSignal)] /\
  Forall errno_kept ([(Fail EINTR, ChildrenLeft); (Fail EINTR, NoSignal)] ++ [(Done 7, NoSignal)]) /\
  attempt ([(Fail EINTR, ChildrenLeft); (Fail EINTR, NoSignal)] ++ [(Done 7, NoSignal)]) = Some (GoOn 7) /\
  at_ (history_of [Go; Go; Wake]) = Serving /\ at_ (history_of [Go; Go; Wake; Term; Go; Go]) = Exited.
Proof. split; [repeat constructor|]. split; [repeat constructor; discriminate|]. vm_compute. auto. Qed.

Print Assumptions C64_read.
Print Assumptions C64_written.
Print Assumptions C64_none_left.
Print Assumptions C64_removed.
Print Assumptions C74_interrupts_partial.
Print Assumptions C74_errno_refuted.
Print Assumptions C74_wait_partial.
Print Assumptions C74_wait_asked_partial.
Print Assumptions C74_terminates_partial.
Print Assumptions C74_missed_refuted.
