(** Properties of tpoll: timers, descriptors and wake-ups. *)
From Verif Require Import Base BaseProof TpollModel TpollSpec TpollProof TpollInv TpollRun TpollSafe.
Open Scope Z_scope.

(** [es] is what was seen in some run, to its present state [s], of an object
    made by tpoll_create (n) whose pipe got descriptor [pipe]: any number of
    threads, any calls, any clock readings and any results of poll(). *)
Definition seen (dbg : bool) (n : Z) (pipe : nat) (s : sys) (es : list event) : Prop :=
  exists s0 acts, start n pipe = Ok s0 /\ Forall act_ok acts /\
    run dbg s0 acts = Some (Ok (s, es)).

Lemma seen_all dbg n pipe s es : seen dbg n pipe s es ->
  inv (table_size n) pipe s es /\ aux (table_size n) pipe s es /\
  every (all_ok pipe) es /\ every new_id es.
Proof.
  intros (s0 & acts & St & Ha & R).
  pose proof (start_inv' _ _ St) as I0. pose proof (start_aux _ _ St) as A0.
  destruct (run_inv _ I0 Ha R) as (I1 & T). pose proof (run_aux _ I0 A0 Ha R) as A1.
  split; [exact I1|]. split; [exact A1|]. split.
  - intros past e rest E. exact (T past e rest E).
  - exact (run_new _ I0 A0 Ha R).
Qed.

(** ** C24 *)

(** A callback is invoked only for a pending timer that is due by the clock as
    last read, in order of due times and, for equal ones, in the order set. *)
Theorem C24_order dbg n pipe s es : seen dbg n pipe s es -> every fire_ok es.
Proof. intros H past e rest E. apply seen_all in H. destruct H as (_ & _ & T & _). apply (T _ _ _ E). Qed.

(** Every invocation is for a timer set earlier, with that function and argument,
    and neither cancelled nor fired since. *)
Theorem C24_at_most_once dbg n pipe s es past id f a rest : seen dbg n pipe s es ->
  es = past ++ EFire id f a :: rest ->
  exists p0 e mid due now, past = p0 ++ e :: mid /\ setting (mkP id f a due) e /\
    (forall x, In x mid -> ~ ending id x) /\ last_clock past = Some now /\ due <= now.
Proof.
  intros H E. destruct (C24_order _ _ _ _ _ H _ _ _ E) as (b & c & due & now & P & C & D & _).
  assert (I1 : In (mkP id f a due) (pending past)) by (rewrite P; apply in_or_app; right; now left).
  apply pending_in in I1. destruct I1 as (p0 & e & mid & -> & S & N).
  exists p0, e, mid, due, now. auto.
Qed.

(** A timer that is due by the last reading of the clock has fired by the time
    the dispatching ends, unless it was cancelled. *)
Theorem C24_at_least_once dbg n pipe s es a e b c p now : seen dbg n pipe s es ->
  es = a ++ e :: b ++ EDispatched :: c -> setting p e ->
  (forall x, In x b -> ending (d_id p) x -> exists f g, x = EFire (d_id p) f g) ->
  last_clock (a ++ e :: b) = Some now -> d_due p <= now ->
  In (EFire (d_id p) (d_fnc p) (d_arg p)) b.
Proof.
  intros H. apply seen_all in H. destruct H as (_ & _ & T & _).
  apply due_fires; intros past x rest E; apply (T _ _ _ E).
Qed.

(** The clock is read after every poll() before the due timers are looked for,
    and no timer that is due is left when the wait begins. *)
Theorem C24_dispatched dbg n pipe s es : seen dbg n pipe s es -> every dispatched_ok es.
Proof. intros H past e rest E. apply seen_all in H. destruct H as (_ & _ & T & _). apply (T _ _ _ E). Qed.

(** The wait is as long as it should be: at most one millisecond too long, never
    too short to reach the time waited for. *)
Theorem C24_wait_partial dbg n pipe s es : seen dbg n pipe s es -> every wait_ok es.
Proof. intros H past e rest E. apply seen_all in H. destruct H as (_ & _ & T & _). apply (T _ _ _ E). Qed.

(** Without the bound on how far ahead the timers lie (24.8 days), this fails: the
    loop does not sleep at all until the timer is within that bound. *)
Theorem C24_far_timer_refuted :
  exists s es past now, seen false 8 3 s es /\ es = past ++ [EWait 0] /\
    last_clock past = Some now /\ called past = Some (-1, now - 1000) /\
    map d_due (pending past) = [now + 1000 * 2147483648] /\ interest past 5 = POLLIN.
Proof.
  set (t0 := mkTv 0 0).
  set (acts := [ACall (CSet 5 POLLIN true); ACall (CAbsolute 1 2 (mkTv 2147483 648000));
                AEnter (-1) t0 t0; AWait t0]).
  destruct (start 8 3) as [s0|] eqn:E0; [|vm_compute in E0; discriminate].
  destruct (run false s0 acts) as [[[s es]|]|] eqn:E1.
  2, 3: vm_compute in E0; injection E0 as <-; vm_compute in E1; discriminate.
  vm_compute in E0; injection E0 as <-. vm_compute in E1. injection E1 as <- <-.
  eexists _, _, [_; _; _; _; _; _], 0. split.
  { eexists _, acts. split; [vm_compute; reflexivity|]. split; [|vm_compute; reflexivity].
    unfold acts, t0. repeat (constructor; [vm_compute; intuition congruence|]). constructor. }
  split; [reflexivity|]. repeat (split; [vm_compute; reflexivity|]). reflexivity.
Qed.

(** ** C25 *)

(** The id returned belongs to no pending timer, and to none set since
    tpoll_zero() last reset the timers; cancelling tells whether it was pending. *)
Theorem C25_ids dbg n pipe s es : seen dbg n pipe s es -> every id_ok es /\ every new_id es.
Proof.
  intros H. apply seen_all in H. destruct H as (_ & _ & T & N). split; [|exact N].
  intros past e rest E. apply (T _ _ _ E).
Qed.

Theorem C25_distinct dbg n pipe s es : seen dbg n pipe s es -> NoDup (map d_id (pending es)).
Proof. intros H. apply pending_nodup. eapply C25_ids; eauto. Qed.

(** A cancelled timer does not fire: a timer of that id that fires later has been
    set again since, which takes a tpoll_zero() in between. *)
Lemma highest_grows m : forall l, (forall how, In (ECall (CZero how) 0) m -> Z.testbit how 1 = false) ->
  highest l <= highest (l ++ m).
Proof.
  induction m as [|e m IH]; intros l H; [rewrite app_nil_r; lia|].
  rewrite cons_snoc. etransitivity; [|apply IH; intros; apply H; now right].
  rewrite highest_snoc. destruct e as [[]| | | | | | | | | |]; cbn [highest1]; try lia.
  destruct (Z.eqb_spec rc 0) as [->|]; cbn [andb]; [|lia].
  rewrite (H how) by now left. lia.
Qed.

Lemma pending_highest es q : In q (pending es) -> d_id q <= highest es.
Proof.
  intros H. apply pending_in in H. destruct H as (a & e & b & -> & S & N).
  rewrite cons_snoc. etransitivity; [|apply highest_grows].
  - rewrite highest_snoc. destruct e as [[]| | | | | | | | | |]; try contradiction;
      destruct S as (-> & _); cbn [highest1 d_id]; lia.
  - intros how Hh. specialize (N _ Hh). cbn [ending] in N.
    destruct (Z.testbit how 1); [exfalso; auto|reflexivity].
Qed.

Theorem C25_cancelled dbg n pipe s es a id rc b f x c : seen dbg n pipe s es ->
  es = a ++ ECall (CCancel id) rc :: b ++ EFire id f x :: c ->
  (exists due e, In e b /\ setting (mkP id f x due) e) /\
  (rc = 1 -> exists how, In (ECall (CZero how) 0) b /\ Z.testbit how 1 = true).
Proof.
  intros H E.
  assert (E' : es = (a ++ ECall (CCancel id) rc :: b) ++ EFire id f x :: c)
    by (rewrite E, <- app_assoc; reflexivity).
  destruct (C24_at_most_once _ _ _ _ _ _ _ _ _ _ H E') as (p0 & e & mid & due & now & P & S & N & _).
  assert (Q : exists b1, b = b1 ++ e :: mid).
  { symmetry in P. pose proof P as P'. apply split_two in P. destruct P as [(r1 & P)|(p2 & P & Q)].
    - exists r1. rewrite P, <- app_assoc in P'. apply app_inv_head in P'.
      cbn [app] in P'. now injection P' as <-.
    - exfalso. destruct p2 as [|y p2]; cbn [app] in Q; injection Q as -> ->.
      + exact S.
      + apply (N (ECall (CCancel id) rc)); [apply in_or_app; right; now left|reflexivity]. }
  destruct Q as (b1 & Eb). split.
  - exists due, e. split; [|exact S]. rewrite Eb. apply in_or_app. right. now left.
  - intros R1. destruct (C25_ids _ _ _ _ _ H) as (HI & HN).
    assert (Hc : 0 < id /\ In id (map d_id (pending a))).
    { pose proof (HI a (ECall (CCancel id) rc) _ E) as (K1 & K2).
      destruct (Z_le_dec id 0) as [L|L]; [specialize (K1 L); lia|].
      specialize (K2 ltac:(lia)). split; [lia|]. apply K2, R1. }
    destruct Hc as (Hid & Hp). apply in_map_iff in Hp. destruct Hp as (q & Eq & Hq).
    apply pending_highest in Hq. rewrite Eq in Hq.
    assert (Ee : es = (a ++ ECall (CCancel id) rc :: b1) ++ e :: mid ++ EFire id f x :: c).
    { rewrite E, Eb, <- !app_assoc. reflexivity. }
    pose proof (HN _ _ _ Ee) as K. pose proof (HI _ _ _ Ee) as K2.
    assert (Hh : highest (a ++ ECall (CCancel id) rc :: b1) < id).
    { destruct e as [[]| | | | | | | | | |]; try contradiction; cbn [setting new_id id_ok] in S, K, K2;
        destruct S as (S & Hrc); injection S; intros; subst;
        (destruct K as [->|K]; [cbn in K2; lia|exact K]). }
    assert (D : (exists how, In (ECall (CZero how) 0) b1 /\ Z.testbit how 1 = true) \/
                (forall how, In (ECall (CZero how) 0) b1 -> Z.testbit how 1 = false)).
    { clear. induction b1 as [|y b1 IH]; [right; intros ? []|].
      destruct IH as [(h & I1 & I2)|IH]; [left; exists h; split; [now right|exact I2]|].
      destruct y as [[]| | | | | | | | | |];
        try (right; intros h [X|X]; [discriminate|auto]; fail).
      destruct (Z.eq_dec rc 0) as [->|Nz].
      - destruct (Z.testbit how 1) eqn:B.
        + left. exists how. split; [now left|exact B].
        + right. intros h [X|X]; [now injection X as <-|auto].
      - right. intros h [X|X]; [injection X as _ X; contradiction|auto]. }
    destruct D as [(how & I1 & I2)|D].
    + exists how. split; [|exact I2]. rewrite Eb. apply in_or_app. now left.
    + exfalso. rewrite cons_snoc in Hh. pose proof (highest_grows b1 (a ++ [ECall (CCancel id) rc]) D).
      rewrite highest_snoc in *. cbn [highest1] in *. lia.
Qed.

(** ** C26 *)

(** poll() is given exactly the descriptors and events set and not cleared since,
    and the pipe; tpoll_is_set() tells exactly the events last returned for the
    descriptor, unless another thread has withdrawn descriptors during a poll(). *)
Theorem C26_interest dbg n pipe s es : seen dbg n pipe s es -> every (poll_ok pipe) es.
Proof. intros H past e rest E. apply seen_all in H. destruct H as (_ & _ & T & _). apply (T _ _ _ E). Qed.

Theorem C26_is_set_partial dbg n pipe s es : seen dbg n pipe s es -> every isset_ok es.
Proof. intros H past e rest E. apply seen_all in H. destruct H as (_ & _ & T & _). apply (T _ _ _ E). Qed.

(** The result of tpoll(): the number of ready descriptors, or 0 only when time is
    up or nothing is left to wait for. *)
Theorem C26_return dbg n pipe s es : seen dbg n pipe s es -> every (return_ok pipe) es.
Proof. intros H past e rest E. apply seen_all in H. destruct H as (_ & _ & T & _). apply (T _ _ _ E). Qed.

(** tpoll_create() works if the table has room for the pipe, and then nothing
    undefined happens as long as the callers are careful. *)
Theorem C26_create n pipe : (pipe < table_size n)%nat -> exists s, start n pipe = Ok s.
Proof. apply start_fine. Qed.
Theorem C26_safe dbg n pipe s es a r : seen dbg n pipe s es -> act_ok a ->
  careful dbg (table_size n) es a -> step dbg s a = Some r -> exists s' xs, r = Ok (s', xs).
Proof.
  intros H Ha Hc St. apply seen_all in H. destruct H as (I0 & A0 & _).
  destruct (step_fine dbg a I0 A0 Ha Hc St) as ([s' xs] & ->). eauto.
Qed.

(** ** C27 *)

(** While poll() is in progress, either the pipe is readable, so that poll() can
    return although nothing else is ready and no time has passed; or what it was
    given is the present interest set, and its timeout suits the timers now
    pending.  The pipe never holds more than a byte, so writing to it does not
    block. *)
Theorem C27_no_lost_wakeup dbg n pipe s es ms tmo now T snap gen :
  seen dbg n pipe s es -> s_ph s = Polling ms tmo now T snap gen ->
  (tp_bytes (s_tp s) <= 1)%nat /\ last_clock es = Some (us now) /\
  ((exists r, step dbg s (APolled 1 (woken pipe snap)) = Some r) \/
   poll_ok pipe es (EPoll (interests snap)) /\
   (near es (us now) -> not_late es (us now) T)).
Proof.
  intros H Ph. apply seen_all in H. destruct H as ((G & P) & A0 & _). rewrite Ph in P.
  destruct s as [tp ph]. cbn [s_tp s_ph] in *. subst ph.
  destruct P as (Ar & C & B & W & Ip & SN). pose proof G as (F & Tm & Sg).
  split; [unfold sig_ok in Sg; destruct (tp_signaled tp); lia|].
  split; [apply C|].
  assert (WK : (0 < tp_bytes tp)%nat ->
    exists r, step dbg (mkSys tp (Polling ms tmo now T snap gen)) (APolled 1 (woken pipe snap)) = Some r).
  { intros K. destruct (tp_bytes tp) as [|bytes] eqn:Eb; [lia|].
    destruct SN as [S1 S2 S3 S4 S5].
    destruct (@woken_ok pipe snap bytes S3 S1 tp (f_pipe F) Eb) as (W1 & W2).
    unfold step. cbn [s_ph s_tp]. rewrite W1, W2. cbn [Z.ltb Z.compare Z.eqb Pos.eqb andb negb].
    eexists. reflexivity. }
  destruct W as [K|W]; [left; auto|]. destruct (sn_same SN) as [K|Sm]; [left; auto|].
  right. split; [exact Sm|]. intros (N1 & N2). unfold not_late.
  destruct Tm as [Th Tn _ _]. unfold timely, fin_near in W.
  destruct (tp_timers tp) as [|t l] eqn:Et; cbn [hd_error] in W.
  - rewrite (proj1 (holds_nil Th) eq_refl). constructor.
  - destruct (holds_head Th Tn) as (b & a & Pe & Fb & Fa & _).
    assert (I1 : In (conv t) (pending es)) by (rewrite Pe; apply in_or_app; right; now left).
    rewrite Forall_forall in N1. specialize (N1 _ I1). cbn [conv d_due] in N1.
    specialize (W N1 N2). rewrite Forall_forall in *. intros q Hq.
    assert (us (t_tv t) <= d_due q).
    { rewrite Pe in Hq. apply in_app_or in Hq. destruct Hq as [Hq|[<-|Hq]].
      - specialize (Fb _ Hq). lia.
      - cbn. lia.
      - now apply Fa. }
    lia.
Qed.

(** ** What goes wrong without care *)

Definition t0 : timeval := mkTv 0 0.
(** A descriptor beyond the table, set by another thread while poll() is in
    progress, makes the kernel write to memory that has been freed. *)
Theorem C26_growth_refuted :
  exists acts s0, start 8 3 = Ok s0 /\ Forall act_ok acts /\
    run false s0 acts = Some (UB UseAfterFree).
Proof.
  exists [ACall (CSet 5 POLLIN true); AEnter (-1) t0 t0; AWait t0; APoll;
          ACall (CSet 8 POLLIN true); APolled 1 [0; 0; 0; 1; 0; 0]].
  eexists. split; [vm_compute; reflexivity|]. split; [|vm_compute; reflexivity].
  repeat (constructor; [vm_compute; intuition congruence|]). constructor.
Qed.

(** A descriptor withdrawn by another thread while poll() is in progress, and
    later added again, is reported with the events of its former life; a debug
    build stops with a failed assertion instead. *)
Theorem C26_is_set_refuted :
  exists acts s0, start 8 3 = Ok s0 /\ Forall act_ok acts /\
    (exists s past, run false s0 acts = Some (Ok (s, past ++ [ECall (CIsSet 5 POLLIN) POLLIN])) /\
       ready past 5 = 0 /\ interest past 5 = POLLIN) /\
    run true s0 acts = Some (UB AssertFail).
Proof.
  exists [ACall (CSet 5 POLLIN true); AEnter (-1) t0 t0; AWait t0; APoll;
          ACall (CClear 5 POLLIN); APolled 2 [0; 0; 0; 1; 0; 1]; ACall (CSet 5 POLLIN true);
          ACall (CIsSet 5 POLLIN)].
  eexists. split; [vm_compute; reflexivity|]. split.
  { repeat (constructor; [vm_compute; intuition congruence|]). constructor. }
  split; [|vm_compute; reflexivity].
  eexists _, [_; _; _; _; _; _; _; _; _]. split; [vm_compute; reflexivity|].
  split; vm_compute; reflexivity.
Qed.

(** A debug build also stops when the only ready descriptor is withdrawn before
    tpoll() looks at the result of poll(), ... *)
Theorem C26_return_refuted :
  exists acts s0, start 8 3 = Ok s0 /\ Forall act_ok acts /\
    run true s0 acts = Some (UB AssertFail).
Proof.
  exists [ACall (CSet 5 POLLIN true); AEnter (-1) t0 t0; AWait t0; APoll;
          APolled 1 [0; 0; 0; 0; 0; 1]; ACall (CClear 5 POLLIN); AAfter t0].
  eexists. split; [vm_compute; reflexivity|]. split; [|vm_compute; reflexivity].
  repeat (constructor; [vm_compute; intuition congruence|]). constructor.
Qed.

(** ... and reads beyond the table when asked about a descriptor that it has no
    room for. *)
Theorem C26_debug_read_refuted :
  exists s0, start 8 3 = Ok s0 /\ run true s0 [ACall (CIsSet 8 POLLIN)] = Some (UB OutOfBounds).
Proof. eexists. split; vm_compute; reflexivity. Qed.

(** tpoll_create() writes beyond a table too small for the pipe's descriptor. *)
Theorem C26_create_refuted n pipe : 0 < n -> n <= Z.of_nat pipe -> start n pipe = UB OutOfBounds.
Proof.
  intros H L. unfold start, tpoll_create, tpoll_init. cbn [tp_alloc].
  destruct (Z.leb_spec n 0); [lia|]. destruct (Nat.ltb_spec 0 (Z.to_nat n)); [|lia].
  cbn [assert_ bind].
  change (Z.land 3 (Z.lnot 3) =? 0) with true. change (has 3 1) with true.
  cbn [assert_ bind tp_pipe]. unfold put, blit. cbn [length]. rewrite repeat_length.
  destruct (Nat.leb_spec (pipe + 1) (Z.to_nat n)); [lia|]. reflexivity.
Qed.

(** The counter behind the timer ids overflows, which C leaves undefined: after
    2^31 - 2 timers set the next one does it. *)
Lemma one_timer tp n : tp_timers tp = [] -> tp_next tp = n -> 0 < n < 2147483647 ->
  tp_blocked tp = false ->
  run false (mkSys tp Idle) [ACall (CAbsolute 1 0 t0); ACall (CCancel n)] =
  Some (Ok (mkSys (set_timers tp [] (n + 1)) Idle, [ECall (CAbsolute 1 0 t0) n; ECall (CCancel n) 1])).
Proof.
  intros E N H B. cbn [run step s_tp s_ph foreign do_call].
  assert (SS : signal_send tp = tp).
  { unfold signal_send. rewrite B. cbn [negb]. now rewrite orb_true_r. }
  unfold timeout_absolute. change (1 =? 0) with false. cbn iota. rewrite N, E. unfold INT_MAX.
  destruct (Z.eqb_spec n 2147483647); [lia|]. destruct (Z.leb_spec (n + 1) 0); [lia|].
  cbn [at_head insert]. rewrite SS. cbn [bind fst snd].
  unfold timeout_cancel. destruct (Z.leb_spec n 0); [lia|].
  cbn [s_tp set_timers tp_timers existsb t_id]. rewrite Z.eqb_refl. cbn [orb head_id t_id remove].
  rewrite Z.eqb_refl.
  assert (S2 : signal_send (set_timers tp [mkTimer n 1 0 t0] (n + 1)) =
               set_timers tp [mkTimer n 1 0 t0] (n + 1)).
  { unfold signal_send. cbn [set_timers tp_signaled tp_blocked]. rewrite B. cbn [negb].
    now rewrite orb_true_r. }
  rewrite S2. reflexivity.
Qed.

Lemma run_app dbg : forall a b s s1 e1, run dbg s a = Some (Ok (s1, e1)) ->
  run dbg s (a ++ b) =
  match run dbg s1 b with Some (Ok (s2, e2)) => Some (Ok (s2, e1 ++ e2)) | x => x end.
Proof.
  induction a as [|x a IH]; intros b s s1 e1; cbn [run app].
  - intros E; injection E as <- <-. destruct (run dbg s b) as [[[? ?]|]|]; reflexivity.
  - destruct (step dbg s x) as [[[s' e']|]|]; try discriminate.
    destruct (run dbg s' a) as [[[s2 e2]|]|] eqn:E2; try discriminate.
    intros E; injection E as <- <-. rewrite (IH _ _ _ _ E2).
    destruct (run dbg s2 b) as [[[? ?]|]|]; try reflexivity. now rewrite app_assoc.
Qed.

Lemma count_up tp : tp_timers tp = [] -> tp_next tp = 1 -> tp_blocked tp = false ->
  forall k, 0 <= k -> k < 2147483647 ->
  exists acts es, Forall act_ok acts /\
    run false (mkSys tp Idle) acts = Some (Ok (mkSys (set_timers tp [] (1 + k)) Idle, es)).
Proof.
  intros E N B. apply (natlike_ind (fun k => k < 2147483647 -> exists acts es, Forall act_ok acts /\
    run false (mkSys tp Idle) acts = Some (Ok (mkSys (set_timers tp [] (1 + k)) Idle, es)))).
  - intros _. exists [], []. split; [constructor|]. cbn [run].
    change (1 + 0) with 1. rewrite <- N, <- E. now destruct tp.
  - intros k Hk IH L. destruct IH as (acts & es & Fa & R); [lia|].
    exists (acts ++ [ACall (CAbsolute 1 0 t0); ACall (CCancel (1 + k))]).
    rewrite (run_app _ _ _ _ _ _ R), one_timer; cbn [set_timers tp_timers tp_next tp_blocked]; auto; try lia.
    eexists. split.
    + apply Forall_app. split; [exact Fa|]. repeat constructor; cbn; lia.
    + replace (1 + k + 1) with (1 + Z.succ k) by lia. reflexivity.
Qed.

(** The counter for timer ids overflows after 2^31 - 2 timers. *)
Theorem C25_overflow_refuted :
  exists acts s0, start 8 3 = Ok s0 /\ Forall act_ok acts /\
    run false s0 acts = Some (UB SignedOverflow).
Proof.
  destruct (start 8 3) as [s0|] eqn:E0; [|vm_compute in E0; discriminate].
  assert (K : tp_timers (s_tp s0) = [] /\ tp_next (s_tp s0) = 1 /\ tp_blocked (s_tp s0) = false /\
    s0 = mkSys (s_tp s0) Idle).
  { vm_compute in E0. injection E0 as <-. repeat split; reflexivity. }
  destruct K as (K1 & K2 & K3 & K4).
  destruct (count_up _ K1 K2 K3 2147483646) as (acts & es & Fa & R); [lia|lia|].
  exists (acts ++ [ACall (CAbsolute 1 0 t0)]), s0. split; [reflexivity|]. split.
  - apply Forall_app. split; [exact Fa|]. repeat constructor; cbn; lia.
  - rewrite <- K4 in R. rewrite (run_app _ _ _ _ _ _ R). reflexivity.
Qed.

(** ** Concrete runs *)

(** Two timers and a descriptor; another thread sets an earlier timer while the
    loop sleeps: it wakes up, fires the timers in order and returns the ready
    descriptor. *)
Definition example_acts : list action :=
  [ ACall (CSet 5 POLLIN true);
    ACall (CRelative 11 1 20 (mkTv 100 0));            (* due at 100.020 *)
    ACall (CRelative 12 2 20 (mkTv 100 0));
    AEnter (-1) (mkTv 100 1000) (mkTv 100 1000);
    AWait (mkTv 100 1500);
    APoll;
    ACall (CRelative 13 3 4 (mkTv 100 2000));          (* due at 100.006 *)
    APolled 1 [0; 0; 0; 1; 0; 0];                      (* woken through the pipe *)
    AAfter (mkTv 100 3000);
    AWait (mkTv 100 3000);
    APoll;
    APolled 0 [0; 0; 0; 0; 0; 0];
    AAfter (mkTv 100 6000);
    AFire;
    AWait (mkTv 100 6000);
    APoll;
    ACall (CCancel 1);
    APolled 2 [0; 0; 0; 1; 0; 1];
    AAfter (mkTv 100 21000);
    ACall (CIsSet 5 POLLIN) ].

Definition example_events : list event :=
  [ ECall (CSet 5 POLLIN true) 0;
    ECall (CRelative 11 1 20 (mkTv 100 0)) 1;
    ECall (CRelative 12 2 20 (mkTv 100 0)) 2;
    EEnter (-1) (mkTv 100 1000); EClock (mkTv 100 1000);
    EDispatched; EClock (mkTv 100 1500); EWait 19;
    EPoll [(3, 1); (5, 1)];
    ECall (CRelative 13 3 4 (mkTv 100 2000)) 3;
    EPolled [(3, 1); (5, 0)];
    EClock (mkTv 100 3000);
    EDispatched; EClock (mkTv 100 3000); EWait 4;
    EPoll [(3, 1); (5, 1)];
    EPolled [(3, 0); (5, 0)];
    EClock (mkTv 100 6000);
    EFire 3 13 3;
    EDispatched; EClock (mkTv 100 6000); EWait 15;
    EPoll [(3, 1); (5, 1)];
    ECall (CCancel 1) 1;
    EPolled [(3, 1); (5, 1)];
    EReturn 1;
    ECall (CIsSet 5 POLLIN) 1 ].

Example C24_example : exists s, seen true 8 3 s example_events /\
  pending example_events = [mkP 2 12 2 100020000] /\ undisturbed example_events = true /\
  steady 8 example_events = true.
Proof.
  eexists. split.
  - eexists _, example_acts. split; [vm_compute; reflexivity|].
    split; [repeat (constructor; [vm_compute; intuition congruence|]); constructor|].
    vm_compute. reflexivity.
  - repeat split; vm_compute; reflexivity.
Qed.

(** the hypotheses of [C24_at_least_once]: the timer set during the sleep *)
Example C24_example_due :
  example_events =
    firstn 9 example_events ++ ECall (CRelative 13 3 4 (mkTv 100 2000)) 3 ::
    firstn 9 (skipn 10 example_events) ++ EDispatched :: skipn 20 example_events /\
  setting (mkP 3 13 3 100006000) (ECall (CRelative 13 3 4 (mkTv 100 2000)) 3).
Proof. split; [vm_compute; reflexivity|]. cbn. split; [reflexivity|lia]. Qed.

(** the wait of the example is within the horizon, and so is not late *)
Example C24_example_near : near (firstn 7 example_events) 100001500.
Proof.
  unfold near.
  replace (pending (firstn 7 example_events)) with [mkP 1 11 1 100020000; mkP 2 12 2 100020000]
    by reflexivity.
  split; [|cbn; lia]. unfold HORIZON. repeat constructor; cbn [d_due]; lia.
Qed.

(** asleep, with a change made by another thread: the pipe is readable *)
Example C27_example : exists s es ms tmo now T snap gen,
  seen true 8 3 s es /\ s_ph s = Polling ms tmo now T snap gen /\
  tp_bytes (s_tp s) = 1%nat /\ woken 3 snap = [0; 0; 0; 1; 0; 0].
Proof.
  do 8 eexists. split; [|split; [|split]].
  - eexists _, (firstn 7 example_acts). split; [vm_compute; reflexivity|].
    split; [repeat (constructor; [vm_compute; intuition congruence|]); constructor|].
    vm_compute. reflexivity.
  - reflexivity.
  - reflexivity.
  - reflexivity.
Qed.

(** careful callers: every action of the example *)
Example C26_example_careful : careful true (table_size 8) (firstn 23 example_events) (ACall (CCancel 1)) /\
  careful true (table_size 8) (firstn 24 example_events) (APolled 2 [0; 0; 0; 1; 0; 1]) /\
  careful false (table_size 8) (firstn 25 example_events) (AAfter (mkTv 100 21000)) /\
  careful true (table_size 8) [] (ACall (CSet 5 POLLIN true)).
Proof. repeat split; vm_compute; intuition congruence. Qed.

Print Assumptions C24_order.
Print Assumptions C24_at_most_once.
Print Assumptions C24_at_least_once.
Print Assumptions C24_dispatched.
Print Assumptions C24_wait_partial.
Print Assumptions C24_far_timer_refuted.
Print Assumptions C25_ids.
Print Assumptions C25_distinct.
Print Assumptions C25_cancelled.
Print Assumptions C25_overflow_refuted.
Print Assumptions C26_interest.
Print Assumptions C26_is_set_partial.
Print Assumptions C26_return.
Print Assumptions C26_create.
Print Assumptions C26_safe.
Print Assumptions C26_growth_refuted.
Print Assumptions C26_is_set_refuted.
Print Assumptions C26_return_refuted.
Print Assumptions C26_debug_read_refuted.
Print Assumptions C26_create_refuted.
Print Assumptions C27_no_lost_wakeup.
