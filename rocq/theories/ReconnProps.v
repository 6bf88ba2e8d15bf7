(** Theorems about opening, losing and reopening consoles (C39, C40, C69-C73). *)
From Verif Require Import Base ReconnModel ReconnSpec ReconnProof ReconnExec ReconnInv ReconnStep ReconnMade ReconnAsked ReconnRace ReconnAlone.
Set Implicit Arguments.
Open Scope Z_scope.

Lemma log_ok_at ks newer t e older : log_ok ks (newer ++ (t, e) :: older) -> justified ks t e older.
Proof. induction newer as [|[t0 e0] newer IH]; cbn; intros [A B]; auto. Qed.

Lemma just_of start ks es w newer t e older : reached start ks es w ->
  w_log w = newer ++ (t, e) :: older -> justified (map fst ks) t e older.
Proof.
  intros R L. destruct (reached_inv R) as (I & K & _). pose proof (i_log I) as J. rewrite K, L in J.
  eapply log_ok_at; eauto.
Qed.

(** ** C39: every retry is scheduled by the back-off rule *)
Theorem C39_backoff start ks es w c k newer t ms older :
  reached start ks es w -> nth_error (map fst ks) c = Some k ->
  w_log w = newer ++ (t, Retry c ms) :: older ->
  ms = (let (f, n) := since c older in delay_after k f n).
Proof. intros R K L. exact (@just_of _ _ _ _ _ _ _ _ R L k K). Qed.

(** The retry delays themselves, without counting: a delay follows the one before
    it by doubling up to the maximum, with the minimum after an immediate retry. *)
Theorem C39_doubles start ks es w c k newer t2 ms2 mid t1 ms1 older :
  reached start ks es w -> nth_error (map fst ks) c = Some k -> k <> Serial ->
  w_log w = newer ++ (t2, Retry c ms2) :: mid ++ (t1, Retry c ms1) :: older ->
  Forall (fun x => snd x <> Stable c /\ snd x <> Asked c /\ forall ms, snd x <> Retry c ms) mid ->
  ms2 = if ms1 =? 0 then 1000 * dmin k else Z.min (2 * ms1) (1000 * dmax k).
Proof.
  intros R K KS L F. pose proof (@C39_backoff _ _ _ _ _ _ _ _ _ _ R K L) as E2.
  assert (w_log w = (newer ++ (t2, Retry c ms2) :: mid) ++ (t1, Retry c ms1) :: older) as L1.
  { rewrite <- app_assoc. exact L. }
  pose proof (@C39_backoff _ _ _ _ _ _ _ _ _ _ R K L1) as E1.
  assert (since c (mid ++ (t1, Retry c ms1) :: older) = since c ((t1, Retry c ms1) :: older)) as S.
  { clear - F. induction F as [|[t e] mid (A & B & C) F IH]; auto. cbn [app since]. cbn [snd] in *.
    destruct e as [x|x|x|x ms|x|x|x|x|x p|x p]; auto.
    - destruct (Nat.eqb_spec x c); [subst; exfalso; eapply C; reflexivity|auto].
    - destruct (Nat.eqb_spec x c); [subst; exfalso; apply A; reflexivity|auto].
    - destruct (Nat.eqb_spec x c); [subst; exfalso; apply B; reflexivity|auto]. }
  rewrite S in E2. cbn [since] in E2. rewrite Nat.eqb_refl in E2. destruct (since c older) as [f n].
  destruct (Z.eqb_spec ms1 0) as [Z0|NZ].
  - subst ms1. symmetry in Z0. destruct (@delay_zero k f n) as (-> & -> & X); auto.
    rewrite E2. destruct X; subst k; reflexivity.
  - rewrite E2, E1. apply delay_S; auto. congruence.
Qed.

(** Delays never exceed the maximum, and fall below the minimum only for the
    first retry after a telnet or process connection that had lasted. *)
Theorem C39_bounds start ks es w c k newer t ms older :
  reached start ks es w -> nth_error (map fst ks) c = Some k -> k <> Serial ->
  w_log w = newer ++ (t, Retry c ms) :: older ->
  ms <= 1000 * dmax k /\
  (1000 * dmin k <= ms \/ ms = 0 /\ since c older = (AfterStable, 0%nat) /\ (k = Telnet \/ k = Process)).
Proof.
  intros R K KS L. pose proof (@C39_backoff _ _ _ _ _ _ _ _ _ _ R K L) as E. destruct (since c older) as [f n].
  pose proof (@delay_bounds k f n KS). split; [lia|].
  destruct (Z.eq_dec ms 0) as [Z0|NZ].
  - right. rewrite Z0 in *. symmetry in E. destruct (@delay_zero k f n) as (-> & -> & X); try congruence; auto.
  - left. assert (forall m, 1000 * dmin k <= doubled k m) as D.
    { intros m. unfold doubled. assert (1 <= 2 ^ Z.of_nat m) by (change 1 with (2 ^ 0); apply Z.pow_le_mono_r; lia).
      destruct k; cbn [dmin dmax]; try congruence; nia || lia. }
    pose proof (D n). pose proof (D (pred n)). destruct k, f, n; cbn [delay_after pred] in *; try congruence; lia.
Qed.

(** The back-off starts afresh by itself only when the connection has been up,
    without a break, for the required time. *)
Theorem C39_stable start ks es w c k newer t older :
  reached start ks es w -> nth_error (map fst ks) c = Some k ->
  w_log w = newer ++ (t, Stable c) :: older ->
  exists t0 recent before, older = recent ++ (t0, Came_up c) :: before
    /\ t0 + 1000 * need k <= t
    /\ Forall (fun x => snd x <> Came_up c /\ snd x <> Went_down c) recent.
Proof.
  intros R K L. destruct (@just_of _ _ _ _ _ _ _ _ R L k K) as (t0 & N & D). cbn [about] in *. clear L R.
  induction older as [|[t1 e] older IH]; cbn [last_notice] in N; [discriminate|].
  assert (last_notice c older = Some (t0, true) -> e <> Came_up c -> e <> Went_down c ->
    exists t0 recent before, (t1, e) :: older = recent ++ (t0, Came_up c) :: before
    /\ t0 + 1000 * need k <= t /\ Forall (fun x => snd x <> Came_up c /\ snd x <> Went_down c) recent) as GO.
  { intros N1 A B. destruct (IH N1) as (t2 & recent & before & -> & X & Y). exists t2, ((t1, e) :: recent), before.
    split; auto. }
  destruct e as [x|x|x|x ms|x|x|x|x|x p|x p]; try (apply GO; auto; discriminate).
  - destruct (Nat.eqb_spec x c) as [->|NE]; [|apply GO; congruence].
    injection N as ->. exists t0, [], older. split; auto. split; [lia|constructor].
  - destruct (Nat.eqb_spec x c) as [->|NE]; [discriminate|apply GO; congruence].
Qed.

(** ... and it does so then: while a connection is up and not yet declared to last, a timer is
    pending that falls due when it has been up for the required time ... *)
Theorem C39_watched start ks es w c d :
  reached start ks es w -> nth_error (w_devs w) c = Some d -> d_kind d <> Serial -> d_st d = Up ->
  steady c (w_log w) = true \/
  exists t t0, In t (w_timers w) /\ t_con t = c /\ t_cb t = Settled
    /\ last_notice c (w_log w) = Some (t0, true) /\ t_due t = t0 + 1000 * need (d_kind d).
Proof.
  intros R HC KS ST. destruct (reached_inv R) as (I & _). destruct (i_tim I c Logic.I HC) as [_ X]. rewrite ST in X.
  assert (Y : steady c (w_log w) = true \/ exists t, In t (own c (w_timers w)) /\ t_cb t = Settled) by (destruct (d_kind d); auto; congruence).
  destruct Y as [Y|(t & T & B)]; [auto|]. right. apply in_own in T as (T & TC). subst c.
  pose proof (@timer_tok _ _ _ _ I Logic.I T HC) as TK. unfold tok in TK. rewrite B in TK. destruct TK as (_ & _ & t0 & N & D).
  exists t, t0. split; [exact T|]. split; [reflexivity|]. split; [exact B|]. split; [exact N|]. lia.
Qed.

(** ... and when it fires the back-off starts afresh. *)
Theorem C39_declared start ks es w t ms o :
  reached start ks es w -> In t (w_timers w) -> t_cb t = Settled -> 0 < ms -> t_due t <= w_now w + ms ->
  exists w', run [Tick ms; Fire (t_id t) o] w = Ok w' /\ w_log w' = (w_now w + ms, Stable (t_con t)) :: w_log w.
Proof.
  intros R T B MS DUE. destruct (reached_inv R) as (I & _).
  cbn [run step bind]. replace (0 <? ms) with true by (symmetry; apply Z.ltb_lt; lia).
  pose proof (@tick_inv all w ms ltac:(lia) I) as I1.
  set (w1 := mkWorld (w_now w + ms) (w_devs w) (w_timers w) (w_next w) (w_log w)) in *.
  unfold fire. destruct (find (fun x => t_id x =? t_id t) (w_timers w1)) as [t1|] eqn:F.
  2: { exfalso. apply (find_none _ _ F t) in T. rewrite Z.eqb_refl in T. discriminate. }
  apply find_timer in F. destruct F as [T1 E1].
  assert (t1 = t) as ->.
  { eapply (one_timer (w := w1)); eauto. destruct (i_own I1 _ T) as (x & X1 & X2). apply (@i_sep _ _ I1 (t_con t) x t1); auto. congruence. }
  replace (w_now w1 <? t_due t) with false by (symmetry; apply Z.ltb_ge; exact DUE).
  destruct (i_own I1 _ T) as (d & HC & _). cbv zeta. rewrite B. unfold dev_of. cbn [w_devs cancel]. rewrite HC. cbn [bind].
  unfold reset_delay, upd, dev_of. cbn [cancel say w_devs]. rewrite HC. cbn [bind]. eexists. split; [reflexivity|]. reflexivity.
Qed.

(** It starts afresh on demand no more often than clients connect to the console or its socket file
    is created. *)
Theorem C39_asked start ks es w c : reached start ks es w -> (asked c (w_log w) <= asks c es)%nat.
Proof. apply asked_reached. Qed.

(** ** C72: an attempt is made only when it is due or somebody asks for it *)
Theorem C72_waits start ks es w e w' c k new t :
  reached start ks es w -> event_ok (length ks) e -> step e w = Ok w' ->
  nth_error (map fst ks) c = Some k ->
  w_log w' = new ++ w_log w -> In (t, Try c) new ->
  prompts k c e \/ exists t0 ms, scheduled c (w_log w) = Some (t0, ms) /\ t0 + ms <= t.
Proof.
  intros R EO S K N T. destruct (reached_inv R) as (I & KE & LE). rewrite <- KE in K. rewrite <- LE in EO.
  rewrite nth_error_map in K. destruct (nth_error (w_devs w) c) as [d|] eqn:HC; [|discriminate].
  injection K as <-. eapply waits; eauto.
Qed.

(** ** C40: one timer per console, and every unconnected console has its retry *)
Theorem C40_one_timer start ks es w t1 t2 :
  reached start ks es w -> In t1 (w_timers w) -> In t2 (w_timers w) -> t_con t1 = t_con t2 -> t1 = t2.
Proof. intros R. destruct (reached_inv R) as (I & _). eapply one_timer; eauto. Qed.

Lemma own_reconnect w c : (exists t, In t (own c (w_timers w)) /\ t_cb t = Reconnect) -> exists t, retry_pending w c t.
Proof. intros (t & T & B). apply in_own in T. exists t. unfold retry_pending. tauto. Qed.

(** A console of a kind other than serial that is not connected has one pending
    retry, at most half an hour ahead; only a telnet console whose connect() is
    under way waits for the operating system instead. *)
Theorem C40_retrying_partial start ks es w c d :
  reached start ks es w -> nth_error (w_devs w) c = Some d -> d_kind d <> Serial -> d_st d <> Up ->
  (d_kind d = Telnet /\ d_st d = Pending /\ 0 <= d_fd d)
  \/ exists t, retry_pending w c t /\ t_due t <= w_now w + 1800 * 1000
       /\ forall t', In t' (w_timers w) -> t_con t' = c -> t' = t.
Proof.
  intros R HC KS ST. destruct (reached_inv R) as (I & _).
  assert ((exists t, retry_pending w c t) -> exists t, retry_pending w c t /\ t_due t <= w_now w + 1800 * 1000
       /\ forall t', In t' (w_timers w) -> t_con t' = c -> t' = t) as GO.
  { intros (t & T & TC & TB). exists t. split; [unfold retry_pending; auto|]. split.
    - rewrite <- TC in HC. pose proof (@timer_tok _ _ _ _ I Logic.I T HC) as TK. unfold tok in TK. rewrite TB in TK.
      destruct TK as (_ & _ & t0 & ms & _ & -> & A & B). lia.
    - intros t' T' TC'. eapply one_timer; eauto. congruence. }
  destruct (i_tim I c Logic.I HC) as [_ X]. destruct (i_pre I _ HC) as (SH & _). unfold shape in SH.
  destruct (d_kind d) eqn:K, (d_st d) eqn:E; try congruence; try tauto; right; apply GO, own_reconnect, X.
Qed.

(** The retry is not lost: as long as no event is addressed to the console, its
    timer stays, until it fires ... *)
Theorem C40_kept start ks es w e w' c t :
  reached start ks es w -> event_ok (length ks) e -> step e w = Ok w' -> retry_pending w c t ->
  retry_pending w' c t \/ addressed c e \/ exists o, e = Fire (t_id t) o.
Proof.
  intros R EO S (T & TC & TB). destruct (reached_inv R) as (I & _ & LE). rewrite <- LE in EO.
  destruct (timer_kept _ t I EO S T) as [X|[X|X]]; auto; [left; unfold retry_pending; auto|].
  subst c. auto.
Qed.

(** ... and when it fires an attempt is made. *)
Theorem C40_attempted start ks es w c d t o ms :
  reached start ks es w -> nth_error (w_devs w) c = Some d -> d_st d = Down ->
  retry_pending w c t -> t_due t <= w_now w + ms -> 0 < ms -> orc_ok o -> o_sock o = true ->
  exists w', run [Tick ms; Fire (t_id t) o] w = Ok w' /\ In (w_now w', Try c) (w_log w').
Proof.
  intros R HC ST RP DUE MS OO OS. destruct (reached_inv R) as (I & _).
  pose proof (@tick_inv all w ms ltac:(lia) I) as I1.
  cbn [run step bind]. replace (0 <? ms) with true by (symmetry; apply Z.ltb_lt; lia).
  set (w1 := mkWorld (w_now w + ms) (w_devs w) (w_timers w) (w_next w) (w_log w)) in *.
  destruct (@fire_tries w1 c d t o I1 HC OO OS ST RP DUE) as (w2 & E & T).
  rewrite E. cbn [bind]. exists w2. split; auto.
  assert (w_now w2 = w_now w1) as ->; auto.
  destruct (@fire_case _ _ _ _ I1 OO E) as [->|(t1 & d1 & _ & _ & _ & _ & _ & S1 & _)]; auto. apply (s_now S1).
Qed.

(** Serial consoles have no timer: one that could not be opened stays so for
    good, whatever happens, unless a client connects to it. *)
Definition ok_orc := mkOrc true true true CDone false true 7 500.
Definition bad_orc := mkOrc true true false CFailed true false 7 500.
Definition dead_serial := mkDev Serial (-1) Down (-1) 0 false (-1) false.

Lemma run_serial es : forall w w' c, inv all w -> Forall (event_ok (length (w_devs w))) es ->
  nth_error (w_devs w) c = Some dead_serial -> Forall (fun e => ~ client_of c e) es -> run es w = Ok w' ->
  nth_error (w_devs w') c = Some dead_serial.
Proof.
  induction es as [|e es IH]; cbn [run]; intros w w' c I F HC NC R; [congruence|].
  inversion F as [|? ? F1 F2]; subst. inversion NC as [|? ? N1 N2]; subst.
  destruct (@step_inv e w I F1) as [[X _]|(w1 & E & I1 & K & _)]; [rewrite X in R; discriminate|].
  rewrite E in R. cbn [bind] in R.
  assert (length (w_devs w1) = length (w_devs w)) as LW by (rewrite <- (map_length d_kind), K, map_length; auto).
  eapply (IH w1); eauto; [rewrite LW; auto|].
  assert (forall c0, c0 <> c -> ran all c0 w (step e w) -> nth_error (w_devs w1) c = Some dead_serial) as OTHER.
  { intros c0 NE (w2 & R2 & _ & S2). assert (w2 = w1) as -> by congruence. rewrite (s_other S2); auto. }
  destruct e as [ms|id o|c0 o mid|c0 o|c0 o|c0 o|c0 o]; cbn [event_ok] in F1; cbn [client_of] in N1.
  - cbn [step] in E. injection E as <-. destruct (0 <? ms); auto.
  - cbn [step] in E. destruct (@fire_case _ _ _ _ I F1 E) as [->|(t1 & d1 & T1 & _ & _ & HC1 & TK & S1 & _)]; auto.
    destruct (Nat.eq_dec (t_con t1) c) as [EC|NE].
    + exfalso. rewrite EC in *. assert (d1 = dead_serial) as -> by congruence. unfold tok in TK.
      destruct (t_cb t1); destruct TK as (_ & X & _); apply X; reflexivity.
    + rewrite (s_other S1); auto.
  - destruct F1 as (L & OO & OM). destruct (Nat.eq_dec c0 c) as [->|NE].
    + cbn [step] in E. unfold hangup, shutdown_obj, dev_of in E. rewrite HC in E. cbn in E. congruence.
    + apply (OTHER c0); auto. apply hangup_ran; auto.
  - destruct F1 as (L & OO). destruct (Nat.eq_dec c0 c) as [->|NE].
    + cbn [step] in E. unfold writable, dev_of in E. rewrite HC in E. cbn in E. congruence.
    + apply (OTHER c0); auto. destruct (@writable_may w c0 o I L OO) as [[X _]|X]; auto. cbn [step] in E. congruence.
  - destruct F1 as (L & OO). apply (OTHER c0); auto.
    destruct (@client_may w c0 o I L OO) as [[X _]|X]; auto. cbn [step] in E. congruence.
  - destruct F1 as (L & OO). destruct (Nat.eq_dec c0 c) as [->|NE].
    + cbn [step] in E. unfold dev_of in E. rewrite HC in E. cbn in E. congruence.
    + apply (OTHER c0); auto. apply created_ran; auto.
  - destruct F1 as (L & OO). destruct (Nat.eq_dec c0 c) as [->|NE].
    + cbn [step] in E. unfold dev_of in E. rewrite HC in E. cbn in E. congruence.
    + apply (OTHER c0); auto. apply engine_ran; auto.
Qed.

(** A serial console whose device cannot be opened has no timer: it stays down until a client connects. *)
Theorem C40_serial_refuted :
  exists start ks w, reached start ks [] w /\ nth_error (map fst ks) 0 = Some Serial /\ w_timers w = []
  /\ forall es w', Forall (event_ok (length ks)) es -> Forall (fun e => ~ client_of 0 e) es ->
     run es w = Ok w' -> exists d, nth_error (w_devs w') 0 = Some d /\ d_st d = Down.
Proof.
  exists 0, [(Serial, bad_orc)]. eexists.
  assert (reached 0 [(Serial, bad_orc)] [] (mkWorld 0 [dead_serial] [] 1 [(0, Try 0)])) as R.
  { split; [repeat constructor; discriminate|]. split; [constructor|]. eexists. split; vm_compute; reflexivity. }
  split; [exact R|]. split; [reflexivity|]. split; [reflexivity|].
  intros es w' F NC E. exists dead_serial. split; [|reflexivity].
  destruct (reached_inv R) as (I & _). eapply run_serial; eauto.
Qed.

(** ** C69: only the console's own child is signalled *)
(** A process that is killed was started for this console, and was not yet
    killed; and a child is started only when there is no other. *)
Theorem C69_own_child_partial start ks es w c newer t p older :
  reached start ks es w -> (c < length ks)%nat ->
  w_log w = newer ++ (t, Killed c p) :: older -> child c older = Some p.
Proof.
  intros R L E. destruct (nth_error (map fst ks) c) as [k|] eqn:K.
  - exact (@just_of _ _ _ _ _ _ _ _ R E k K).
  - exfalso. apply nth_error_None in K. rewrite map_length in K. lia.
Qed.

Theorem C69_one_child start ks es w c newer t p older :
  reached start ks es w -> (c < length ks)%nat ->
  w_log w = newer ++ (t, Forked c p) :: older -> child c older = None.
Proof.
  intros R L E. destruct (nth_error (map fst ks) c) as [k|] eqn:K.
  - exact (proj2 (@just_of _ _ _ _ _ _ _ _ R E k K)).
  - exfalso. apply nth_error_None in K. rewrite map_length in K. lia.
Qed.

(** ** C70: a live connection is given up only when it broke *)
Theorem C70_kept_partial start ks es w e w' c d :
  reached start ks es w -> event_ok (length ks) e -> step e w = Ok w' ->
  nth_error (w_devs w) c = Some d -> d_st d = Up ->
  (exists o mid, e = Hangup c o mid) \/ (d_kind d = Unixsock /\ exists o, e = Created c o)
  \/ exists d', nth_error (w_devs w') c = Some d' /\ d_st d' = Up /\ d_fd d' = d_fd d /\ d_pid d' = d_pid d.
Proof.
  intros R EO S HC ST. destruct (reached_inv R) as (I & _ & LE). rewrite <- LE in EO. eapply up_kept; eauto.
Qed.

(** A UNIX domain socket console is cut off although nothing is wrong with its
    connection, when its socket file is created again. *)
Theorem C70_created_refuted :
  exists start ks w w' d d', reached start ks [] w
  /\ nth_error (w_devs w) 0 = Some d /\ d_kind d = Unixsock /\ d_st d = Up
  /\ step (Created 0 ok_orc) w = Ok w' /\ nth_error (w_devs w') 0 = Some d' /\ d_st d' = Down /\ d_fd d' = -1.
Proof.
  exists 0, [(Unixsock, ok_orc)]. do 4 eexists. split.
  { split; [repeat constructor; discriminate|]. split; [constructor|]. eexists. split; vm_compute; reflexivity. }
  do 6 (split; [vm_compute; reflexivity|]). vm_compute. reflexivity.
Qed.

(** ** C71: connects and disconnects are announced in turn *)
Theorem C71_turns_partial start ks es w c k newer t older up :
  reached start ks es w -> nth_error (map fst ks) c = Some k -> k <> Serial ->
  w_log w = newer ++ (t, if up : bool then Came_up c else Went_down c) :: older ->
  if up then (last_notice c older = None \/ exists t0, last_notice c older = Some (t0, false))
  else exists t0, last_notice c older = Some (t0, true).
Proof.
  intros R K KS L. pose proof (@just_of _ _ _ _ _ _ _ _ R L) as J. unfold justified in J.
  destruct up; cbn [about] in J; specialize (J k K); cbn beta iota in J; specialize (J KS).
  - destruct (last_notice c older) as [[t0 []]|]; [tauto|eauto|auto].
  - exact J.
Qed.

(** The last announcement tells whether the console is connected. *)
Theorem C71_truthful_partial start ks es w c d :
  reached start ks es w -> nth_error (w_devs w) c = Some d -> d_kind d <> Serial ->
  d_st d = Up <-> exists t0, last_notice c (w_log w) = Some (t0, true).
Proof.
  intros R HC KS. destruct (reached_inv R) as (I & _). destruct (i_pre I _ HC) as (_ & _ & N & _). specialize (N KS).
  unfold noticed in N. destruct (d_st d), (last_notice c (w_log w)) as [[t0 []]|]; cbn in N; split; intros X;
    try discriminate; try (destruct X; discriminate); eauto.
Qed.

(** It is announced to be connected only when the connection was made: by an event of this console
    whose system calls all went well. *)
Theorem C71_made start ks es w e w' c :
  reached start ks es w -> step e w = Ok w' -> ups c (w_log w') <> ups c (w_log w) ->
  exists d o, nth_error (w_devs w) c = Some d /\ In o (results e) /\ made d o.
Proof. intros _ S U. destruct (@step_made c e w w' S) as [X|X]; [contradiction | exact X]. Qed.

(** The loss of a serial device is not announced. *)
Theorem C71_serial_refuted :
  exists start ks es w d, reached start ks es w
  /\ nth_error (w_devs w) 0 = Some d /\ d_kind d = Serial /\ d_st d = Down
  /\ exists t0, last_notice 0 (w_log w) = Some (t0, true).
Proof.
  exists 0, [(Serial, ok_orc)], [Hangup 0 bad_orc []]. do 2 eexists. split.
  { split; [repeat constructor; discriminate|]. split; [repeat constructor; discriminate|]. eexists. split; vm_compute; reflexivity. }
  do 3 (split; [vm_compute; reflexivity|]). eexists. vm_compute. reflexivity.
Qed.

(** ** C73: connection trouble does not stop the daemon *)
Theorem C73_survives_partial start ks es :
  Forall (fun k => orc_ok (snd k)) ks -> Forall (event_ok (length ks)) es ->
  Forall (fun k => o_sock (snd k) = true) ks -> Forall sockets_left es ->
  exists w, reached start ks es w.
Proof.
  intros FK FE SK SE. destruct (@boot_safe start ks FK SK) as (w0 & B). destruct (boot_inv _ FK B) as (I0 & K0 & _).
  assert (length (w_devs w0) = length ks) as L0 by (rewrite <- (map_length d_kind (w_devs w0)), K0, map_length; auto).
  destruct (@run_safe es w0 I0) as (w & R); auto; [rewrite L0; auto|]. exists w. split; auto. split; auto. eauto.
Qed.

(** Whatever happens, the only way a step can fail is the daemon ending itself
    because no socket could be created. *)
Theorem C73_only_sockets start ks es w e k :
  reached start ks es w -> event_ok (length ks) e -> step e w = UB k -> k = Fatal /\ ~ sockets_left e.
Proof.
  intros R EO S. destruct (reached_inv R) as (I & _ & LE). rewrite <- LE in EO.
  destruct (@step_inv e w I EO) as [[X (o & OE & OS)]|(w1 & E & _)]; [|congruence].
  split; [congruence|]. destruct e; cbn in *; try discriminate; congruence.
Qed.

Definition no_socket := mkOrc true false true CDone false true 7 500.
(** When socket() fails for a telnet console the daemon ends. *)
Theorem C73_socket_refuted :
  exists start ks w, reached start ks [] w
  /\ exists t, In t (w_timers w) /\ run [Tick 15000; Fire (t_id t) no_socket] w = UB Fatal.
Proof.
  exists 0, [(Telnet, mkOrc true true true CFailed false true 7 500)]. eexists. split.
  { split; [repeat constructor; discriminate|]. split; [constructor|]. eexists. split; vm_compute; reflexivity. }
  eexists. split; [left; reflexivity|]. vm_compute. reflexivity.
Qed.

(** ** C72: an IPMI console that comes up and drops is retried without limit *)
Definition ipmi_up (tm : Z) (lg : list (Z * effect)) : world :=
  mkWorld 0 [mkDev Ipmi 7 Up tm 60 false (-1) true] [mkTimer tm 0 Settled 60000] (tm + 1) lg.
Definition cycle := [Hangup 0 ok_orc []; Engine 0 ok_orc].

Lemma ipmi_cycle tm lg : 0 < tm -> exists lg', run cycle (ipmi_up tm lg) = Ok (ipmi_up (tm + 2) lg')
  /\ tries 0 lg' = S (tries 0 lg) /\ retries 0 lg' = retries 0 lg.
Proof.
  intros T. destruct tm as [|p|p]; try lia. unfold ipmi_up, cycle. eexists. split.
  - lazy -[Pos.eqb Pos.add]. rewrite !Pos.eqb_refl. lazy -[Pos.eqb Pos.add].
    replace (p + 1 + 1)%positive with (p + 2)%positive by lia. reflexivity.
  - split; reflexivity.
Qed.

Lemma run_app a : forall b w w1, run a w = Ok w1 -> run (a ++ b) w = run b w1.
Proof.
  induction a as [|e a IH]; cbn; intros b w w1 R; [congruence|].
  destruct (step e w); cbn [bind] in *; [eauto|discriminate].
Qed.

(** An IPMI console that comes up and drops at once is tried again any number of times without a delay. *)
Theorem C72_ipmi_drop_refuted n :
  exists ks es w, reached 0 ks es w /\ nth_error (map fst ks) 0 = Some Ipmi
  /\ w_now w = 0 /\ (n <= tries 0 (w_log w))%nat /\ retries 0 (w_log w) = 0%nat.
Proof.
  assert (exists lg, (exists w0, boot 0 [(Ipmi, ok_orc)] = Ok w0 /\ run (Engine 0 ok_orc :: concat (repeat cycle n)) w0
     = Ok (ipmi_up (2 + 2 * Z.of_nat n) lg)) /\ (n <= tries 0 lg)%nat /\ retries 0 lg = 0%nat) as (lg & (w0 & B & R) & T & Z0).
  { destruct (boot 0 [(Ipmi, ok_orc)]) as [w0|] eqn:B; vm_compute in B; [|discriminate]. injection B as <-.
    induction n as [|n (lg & (w1 & E1 & R) & T & Z0)].
    - eexists. split; [eexists; split; [reflexivity|vm_compute; reflexivity]|]. split; [apply Nat.le_0_l|reflexivity].
    - injection E1 as <-.
      destruct (@ipmi_cycle (2 + 2 * Z.of_nat n) lg ltac:(lia)) as (lg' & C & T' & Z').
      exists lg'. split; [|split; [lia|congruence]]. eexists. split; [reflexivity|].
      replace (Engine 0 ok_orc :: concat (repeat cycle (S n))) with ((Engine 0 ok_orc :: concat (repeat cycle n)) ++ cycle).
      + rewrite (@run_app _ cycle _ _ R). rewrite C. do 2 f_equal. lia.
      + clear. cbn [app]. f_equal. induction n as [|n IH]; [reflexivity|].
        change (repeat cycle (S (S n))) with (cycle :: repeat cycle (S n)).
        change (repeat cycle (S n)) with (cycle :: repeat cycle n) at 1. cbn [concat]. rewrite <- app_assoc. f_equal. exact IH. }
  exists [(Ipmi, ok_orc)], (Engine 0 ok_orc :: concat (repeat cycle n)). eexists. split.
  - split; [repeat constructor; discriminate|]. split; [|eauto].
    constructor; [split; [cbn; lia|split; cbn; lia]|].
    clear. induction n as [|n IH]; [constructor|]. change (repeat cycle (S n)) with (cycle :: repeat cycle n). cbn [concat].
    apply Forall_app. split; auto. unfold cycle.
    constructor; [|constructor; [|constructor]]; cbn; unfold orc_ok, ok_orc; cbn; repeat split; auto; lia.
  - split; [reflexivity|]. split; [reflexivity|]. auto.
Qed.

(** ** Threads *)
Definition fail_orc := mkOrc true true true CFailed true true 9 501.
(** A thread that works on a console while no other does makes the step of the theorems above: for
    the loss of a process console, a client of one, a client of a telnet console, and the timers of
    both ... *)
Theorem C69_alone start ks es w c d o :
  reached start ks es w -> nth_error (w_devs w) c = Some d -> d_kind d = Process ->
  alone (process_shutdown c o) w = step (Hangup c o []) w /\
  alone (process_client c o) w = step (Client c o) w /\
  forall t, retry_pending w c t -> d_st d = Down -> t_due t <= w_now w -> alone (fired (t_id t) (process_open c o)) w = step (Fire (t_id t) o) w.
Proof.
  intros R HC K. destruct (reached_inv R) as (I & _). split; [|split].
  - eapply alone_hangup_process; eauto.
  - eapply alone_client_process; eauto.
  - intros t (T & TC & TB) ST DUE. eapply alone_fire_process; eauto. apply timer_found; assumption.
Qed.
Theorem C40_alone start ks es w c d o :
  reached start ks es w -> nth_error (w_devs w) c = Some d -> d_kind d = Telnet -> orc_ok o ->
  alone (telnet_client c o) w = step (Client c o) w /\
  forall t, retry_pending w c t -> d_st d <> Up -> t_due t <= w_now w -> alone (fired (t_id t) (telnet_connect c o)) w = step (Fire (t_id t) o) w.
Proof.
  intros R HC K OO. destruct (reached_inv R) as (I & _). split.
  - eapply alone_client_telnet; eauto.
  - intros t (T & TC & TB) ST DUE. eapply alone_fire_telnet; eauto. apply timer_found; assumption.
Qed.

(** ... but the main thread and a client's thread may both find the console up after its connection
    was lost: the second to arrive at the kill() has -1 for the process's number, which is
    every process that the daemon may signal. *)
Theorem C69_race_refuted : exists l w w' p q,
  reached 0 [(Process, ok_orc)] [] w /\
  race l (process_shutdown 0 ok_orc) (process_client 0 ok_orc) w = Ok (w', p, q) /\ In (0, Killed 0 (-1)) (w_log w').
Proof.
  exists ([true; true; true; true] ++ [false; false; false] ++ [true; true; true; true] ++ [false; false; false]).
  do 4 eexists. split; [|split].
  - split; [repeat constructor; discriminate|]. split; [constructor|]. eexists. split; vm_compute; reflexivity.
  - vm_compute. reflexivity.
  - vm_compute. auto.
Qed.

Definition other_orc := mkOrc true true true CDone false true 8 600.
(** Or both may find it down: then two processes are started, and the first is never killed. *)
Theorem C69_two_refuted : exists l w w' d,
  reached 0 [(Process, bad_orc)] [Tick 60000] w /\
  race l (fired 1 (process_open 0 ok_orc)) (process_client 0 other_orc) w = Ok (w', Halt, Halt) /\
  In (60000, Forked 0 500) (w_log w') /\ In (60000, Forked 0 600) (w_log w') /\ (forall t p, ~ In (t, Killed 0 p) (w_log w')) /\
  nth_error (w_devs w') 0 = Some d /\ d_pid d = 600.
Proof.
  exists ([true; true; true] ++ [false; false; false] ++ repeat true 12 ++ repeat false 12).
  do 3 eexists. split; [|split].
  - split; [repeat constructor; discriminate|]. split; [repeat constructor|]. eexists. split; vm_compute; reflexivity.
  - vm_compute. reflexivity.
  - split; [vm_compute; auto 20|]. split; [vm_compute; auto 20|]. split.
    + intros t p X. vm_compute in X. repeat (destruct X as [X|X]; [discriminate|]). exact X.
    + split; vm_compute; reflexivity.
Qed.

(** A telnet console: while the main thread connects it, a client's thread fails to, and leaves a
    timer that is forgotten.  The console has two timers, and when the forgotten one falls due
    the console is connected: the message that should end the daemon lacks its first argument, so
    that the state is taken for the address of a string, and the daemon crashes
    (server-telnet.c:263-266). *)
Theorem C73_race_refuted : exists l w w1 t1 t2,
  reached 0 [(Telnet, fail_orc)] [Tick 15000] w /\
  race l (fired 1 (telnet_connect 0 ok_orc)) (telnet_client 0 fail_orc) w = Ok (w1, Halt, Halt) /\
  In t1 (w_timers w1) /\ In t2 (w_timers w1) /\ t1 <> t2 /\ t_con t1 = 0%nat /\ t_con t2 = 0%nat /\
  exists ms, forall o, run [Tick ms; Fire (t_id t1) o] w1 = UB NullDeref.
Proof.
  exists ([true; true; true] ++ repeat false 16 ++ repeat true 8).
  eexists. eexists. exists (mkTimer 2 0 Reconnect 30000), (mkTimer 3 0 Settled 30000). split; [|split].
  - split; [repeat constructor; discriminate|]. split; [repeat constructor|]. eexists. split; vm_compute; reflexivity.
  - vm_compute. reflexivity.
  - split; [vm_compute; auto|]. split; [vm_compute; auto|]. split; [discriminate|]. split; [reflexivity|]. split; [reflexivity|].
    exists 15000. intros o. vm_compute. reflexivity.
Qed.

(** ** A day in the life of five consoles *)
Definition day : list event :=
  [ Hangup 1 ok_orc []; Tick 15000; Fire 1 fail_orc; Tick 30000; Fire 6 ok_orc; Tick 15000; Fire 7 ok_orc;
    Hangup 0 ok_orc []; Created 2 fail_orc; Engine 3 ok_orc; Client 4 ok_orc ].
Definition house : list (kind * orc) :=
  [(Telnet, fail_orc); (Process, ok_orc); (Unixsock, ok_orc); (Ipmi, ok_orc); (Serial, bad_orc)].

Example C39_example : exists w, reached 0 house day w
  /\ In (60000, Retry 0 0) (w_log w) /\ In (60000, Stable 0) (w_log w) /\ In (45000, Came_up 0) (w_log w)
  /\ In (15000, Retry 0 30000) (w_log w) /\ In (0, Retry 0 15000) (w_log w)
  /\ In (0, Killed 1 500) (w_log w) /\ In (60000, Went_down 2) (w_log w) /\ In (60000, Came_up 3) (w_log w)
  /\ In (60000, Came_up 4) (w_log w).
Proof.
  eexists. split.
  { split; [repeat constructor; discriminate|]. split.
    - unfold day. repeat (apply Forall_cons; [cbn; unfold orc_ok; cbn; repeat split; auto; lia|]). constructor.
    - eexists. split; vm_compute; reflexivity. }
  cbn [w_log In]. repeat split; repeat (first [left; reflexivity | right]).
Qed.

Example C39_asked_example : exists w, reached 0 [(Unixsock, fail_orc)] [Tick 1000; Created 0 fail_orc; Tick 120000; Fire 2 fail_orc] w
  /\ asked 0 (w_log w) = 1%nat.
Proof.
  eexists. split.
  { split; [repeat constructor; discriminate|]. split.
    - repeat (apply Forall_cons; [cbn; unfold orc_ok; cbn; repeat split; auto; lia|]). constructor.
    - eexists. split; vm_compute; reflexivity. }
  vm_compute. reflexivity.
Qed.

Print Assumptions C39_backoff.
Print Assumptions C39_doubles.
Print Assumptions C39_bounds.
Print Assumptions C39_stable.
Print Assumptions C40_one_timer.
Print Assumptions C40_retrying_partial.
Print Assumptions C40_kept.
Print Assumptions C40_attempted.
Print Assumptions C40_serial_refuted.
Print Assumptions C69_own_child_partial.
Print Assumptions C69_one_child.
Print Assumptions C70_kept_partial.
Print Assumptions C70_created_refuted.
Print Assumptions C71_turns_partial.
Print Assumptions C71_truthful_partial.
Print Assumptions C71_serial_refuted.
Print Assumptions C72_waits.
Print Assumptions C72_ipmi_drop_refuted.
Print Assumptions C73_survives_partial.
Print Assumptions C73_only_sockets.
Print Assumptions C73_socket_refuted.
Print Assumptions C39_watched.
Print Assumptions C39_declared.
Print Assumptions C71_made.
Print Assumptions C69_alone.
Print Assumptions C40_alone.
Print Assumptions C69_race_refuted.
Print Assumptions C69_two_refuted.
Print Assumptions C73_race_refuted.
Print Assumptions C39_asked.
