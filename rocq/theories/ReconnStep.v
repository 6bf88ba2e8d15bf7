(** What single events do: attempts, kept connections, kept timers. *)
From Verif Require Import Base ReconnModel ReconnSpec ReconnProof ReconnExec ReconnInv.
Set Implicit Arguments.
Open Scope Z_scope.

Lemma no_new A (new l : list A) : l = new ++ l -> new = [].
Proof. intros E. apply (f_equal (@length A)) in E. rewrite app_length in E. destruct new; auto. cbn in E. lia. Qed.

Lemma log_case w w' c es new t x : w_log w' = stamp (w_now w) es ++ w_log w -> Forall (fun e => about e = c) es ->
  w_log w' = new ++ w_log w -> In (t, x) new -> about x = c /\ t = w_now w /\ In x es.
Proof.
  intros L F N I. rewrite L in N. apply app_inv_tail in N. subst new.
  unfold stamp in I. apply in_map_iff in I. destruct I as (y & E & Y). injection E as <- <-.
  rewrite Forall_forall in F. auto.
Qed.

Ltac logs := cbn [w_log at_ app stamp map]; first
  [ exists []; split; [reflexivity|]; repeat constructor; discriminate
  | eexists [_]; split; [reflexivity|]; repeat constructor; discriminate
  | eexists [_; _]; split; [reflexivity|]; repeat constructor; discriminate
  | eexists [_; _; _]; split; [reflexivity|]; repeat constructor; discriminate
  | eexists [_; _; _; _]; split; [reflexivity|]; repeat constructor; discriminate ].

Definition no_try (r : res world) (w : world) : Prop :=
  forall w', r = Ok w' -> exists es, w_log w' = stamp (w_now w) es ++ w_log w /\ Forall (fun e => forall c, e <> Try c) es.

Lemma writable_quiet P w c o : inv P w -> (c < length (w_devs w))%nat -> no_try (writable c o w) w.
Proof.
  intros I L. destruct (exists_dev _ L) as (d & HC). begin (writable c o).
  destruct d as [k fd st tm dl via pid ctx]. unfold no_try. 
  unfold writable, open_telnet_obj, connect_telnet_obj, disconnect_telnet_obj, telnet_up. 
  rewrite (dev_of_at _ _ HC). cbn [bind]. fcbn.
  destruct (fd <? 0); [intros w' E; injection E as <-; logs|].
  destruct k; try (intros w' E; injection E as <-; logs).
  destruct st; try (intros w' E; injection E as <-; logs). begin2.
  sy HC. destruct (o_sockerr o); sy HC; intros w' E; injection E as <-; logs.
Qed.

Lemma hangup_quiet P w c o mid d : inv P w -> nth_error (w_devs w) c = Some d ->
  d_kind d <> Ipmi -> d_kind d <> Serial -> no_try (hangup c o mid w) w.
Proof.
  intros I HC K1 K2. begin (hangup c o mid).
  destruct d as [k fd st tm dl via pid ctx]. unfold no_try. fcbn.
  destruct k; try congruence; destruct st; begin2; try tauto;
  unfold hangup, shutdown_obj, reopen_obj, open_telnet_obj, disconnect_telnet_obj; sy HC.
  - intros w' E; injection E as <-; logs.
  - intros w' E; injection E as <-; logs.
  - destruct (Z.ltb_spec fd 0); [lia|]. sy HC. intros w' E; injection E as <-; logs.
  - subst fd. cbn. intros w' E; injection E as <-; logs.
  - unfold open_process_obj, disconnect_process_obj. destruct (Z.ltb_spec fd 0); [lia|]. sy HC.
    destruct (Z.ltb_spec 0 pid); [|lia]. sy HC. intros w' E; injection E as <-; logs.
  - subst fd. cbn. intros w' E; injection E as <-; logs.
  - unfold open_unixsock_obj, disconnect_unixsock_obj. destruct (Z.ltb_spec fd 0); [lia|]. sy HC.
    intros w' E; injection E as <-; logs.
Qed.

Lemma quiet_in r w w' new t c : no_try r w -> r = Ok w' -> w_log w' = new ++ w_log w -> In (t, Try c) new -> False.
Proof.
  intros Q E N I. destruct (Q _ E) as (es & L & F). rewrite L in N. apply app_inv_tail in N. subst new.
  unfold stamp in I. apply in_map_iff in I. destruct I as (y & EY & Y). injection EY as _ ->.
  rewrite Forall_forall in F. eapply F; eauto.
Qed.

Lemma reset_log c w w' : reset_delay c w = Ok w' -> w_log w' = (w_now w, Stable c) :: w_log w.
Proof.
  unfold reset_delay, upd. destruct (dev_of w c); cbn [bind]; [|discriminate].
  destruct (dev_of (say (Stable c) w) c); cbn [bind]; [|discriminate]. intros E. injection E as <-. reflexivity.
Qed.

(** a timer that fires, with its consequences *)
Lemma fire_case w id o w' : inv all w -> orc_ok o -> fire id o w = Ok w' ->
  w' = w \/ exists t d, In t (w_timers w) /\ t_id t = id /\ t_due t <= w_now w
    /\ nth_error (w_devs w) (t_con t) = Some d /\ tok (t_con t) (w_now w) d (w_log w) t
    /\ stepped (t_con t) w w' /\ inv all w'
    /\ (t_cb t = Settled -> reset_delay (t_con t) (cancel id w) = Ok w').
Proof.
  intros I OO R. destruct (fire_ran id I OO) as [[X _]|[X|(t & T & E & DUE & (w2 & R2 & I2 & S2))]].
  - congruence.
  - left; congruence.
  - right. destruct (i_own I _ T) as (d & HC & TD). exists t, d.
    assert (w2 = w') as <- by congruence.
    split; auto. split; auto. split; auto. split; auto. split; [apply (@timer_tok _ _ _ _ I Logic.I T HC)|].
    split; auto. split; auto. intros TC. revert R. unfold fire.
    destruct (find (fun t => t_id t =? id) (w_timers w)) as [t1|] eqn:F.
    2: { exfalso. apply (find_none _ _ F t) in T. rewrite E, Z.eqb_refl in T. discriminate. }
    apply find_timer in F. destruct F as [T1 E1].
    assert (t1 = t) as ->.
    { destruct (i_own I _ T1) as (d1 & HC1 & TD1).
      assert (t_con t1 = t_con t) by (apply (@i_sep _ _ I (t_con t) d t1); auto; congruence).
      clear - I T T1 E E1. pose proof (i_nodup I) as ND. revert ND T T1. generalize (w_timers w). intros l.
      induction l as [|a l IH]; cbn; intros ND T T1; [tauto|]. inversion ND as [|? ? NI ND']; subst.
      destruct T as [->|T], T1 as [->|T1]; auto; exfalso; apply NI; apply in_map_iff; eexists; split; try eassumption; congruence. }
    replace (w_now w <? t_due t) with false by (symmetry; apply Z.ltb_ge; lia).
    cbv zeta. destruct (dev_of (cancel id w) (t_con t)); cbn [bind]; [|discriminate]. rewrite TC. auto.
Qed.

Lemma waits w e w' c d new t : inv all w -> event_ok (length (w_devs w)) e -> step e w = Ok w' ->
  nth_error (w_devs w) c = Some d ->
  w_log w' = new ++ w_log w -> In (t, Try c) new ->
  prompts (d_kind d) c e \/ exists t0 ms, scheduled c (w_log w) = Some (t0, ms) /\ t0 + ms <= t.
Proof.
  intros I EO R HC N T.
  assert (forall c0, ran all c0 w (step e w) -> c = c0) as SAME.
  { intros c0 (w2 & R2 & _ & S2). assert (w2 = w') as -> by congruence. destruct (s_log S2) as (es & L & F).
    destruct (@log_case _ _ _ _ _ _ _ L F N T) as (A & _). exact A. }
  destruct e as [ms|id o|c0 o mid|c0 o|c0 o|c0 o|c0 o]; cbn [event_ok] in EO; cbn [prompts].
  - exfalso. cbn [step] in R. injection R as <-.
    assert (new = []) as -> by (apply no_new with (l := w_log w); destruct (0 <? ms); exact N). destruct T.
  - right. cbn [step] in R. destruct (@fire_case _ _ _ _ I EO R) as [->|(t1 & d1 & T1 & E1 & DUE & HC1 & TK & S1 & I1 & SET)].
    { apply no_new in N. subst. destruct T. }
    destruct (s_log S1) as (es & L & F). destruct (@log_case _ _ _ _ _ _ _ L F N T) as (A & B & X). cbn [about] in A. subst t c.
    unfold tok in TK. destruct (t_cb t1).
    + destruct TK as (_ & _ & t0 & ms & SC & DD & _). exists t0, ms. split; auto. lia.
    + exfalso. specialize (SET eq_refl). apply reset_log in SET. cbn in SET. rewrite SET in N.
      change ((w_now w, Stable (t_con t1)) :: w_log w) with ([(w_now w, Stable (t_con t1))] ++ w_log w) in N.
      apply app_inv_tail in N. subst new. destruct T as [T|[]]. discriminate.
  - destruct EO as (L & OO & OM). left.
    assert (c = c0) as <- by (apply SAME; apply hangup_ran; auto). split; auto.
    destruct (d_kind d) eqn:K; auto; exfalso; apply (@quiet_in _ _ _ _ _ _ (@hangup_quiet _ w c o mid d I HC ltac:(congruence) ltac:(congruence)) R N T).
  - destruct EO as (L & OO). exfalso. apply (@quiet_in _ _ _ _ _ _ (@writable_quiet _ w c0 o I L) R N T).
  - destruct EO as (L & OO). left. symmetry. apply SAME. destruct (@client_may w c0 o I L OO) as [[X _]|X]; auto.
    cbn [step] in R. congruence.
  - destruct EO as (L & OO). left.
    assert (c = c0) as <- by (apply SAME; apply created_ran; auto). split; auto.
    cbn [step] in R. unfold dev_of in R. rewrite HC in R. cbn [bind] in R.
    destruct (d_kind d); auto; injection R as <-; apply no_new in N; subst; destruct T.
  - destruct EO as (L & OO). left.
    assert (c = c0) as <- by (apply SAME; apply engine_ran; auto). split; auto.
    cbn [step] in R. unfold dev_of in R. rewrite HC in R. cbn [bind] in R.
    destruct (d_kind d); auto; injection R as <-; apply no_new in N; subst; destruct T.
Qed.

(** ** Connections that are kept *)
Lemma up_kept w e w' c d : inv all w -> event_ok (length (w_devs w)) e -> step e w = Ok w' ->
  nth_error (w_devs w) c = Some d -> d_st d = Up ->
  (exists o mid, e = Hangup c o mid) \/ (d_kind d = Unixsock /\ exists o, e = Created c o)
  \/ exists d', nth_error (w_devs w') c = Some d' /\ d_st d' = Up /\ d_fd d' = d_fd d /\ d_pid d' = d_pid d.
Proof.
  intros I EO R HC ST. destruct (i_pre I _ HC) as (SH & _). unfold shape in SH. rewrite ST in SH.
  assert (0 <= d_fd d) as FD by (destruct (d_kind d); tauto).
  assert (forall c0, ran all c0 w (step e w) -> c0 <> c ->
     exists d', nth_error (w_devs w') c = Some d' /\ d_st d' = Up /\ d_fd d' = d_fd d /\ d_pid d' = d_pid d) as OTHER.
  { intros c0 (w2 & R2 & _ & S2) NE. assert (w2 = w') as -> by congruence. exists d. rewrite (s_other S2) by auto. auto. }
  assert (w' = w -> exists d', nth_error (w_devs w') c = Some d' /\ d_st d' = Up /\ d_fd d' = d_fd d /\ d_pid d' = d_pid d) as SAME.
  { intros ->. exists d. auto. }
  destruct e as [ms|id o|c0 o mid|c0 o|c0 o|c0 o|c0 o]; cbn [event_ok] in EO.
  - right; right. cbn [step] in R. injection R as <-. exists d. destruct (0 <? ms); auto.
  - right; right. cbn [step] in R. destruct (@fire_case _ _ _ _ I EO R) as [->|(t1 & d1 & T1 & E1 & DUE & HC1 & TK & S1 & I1 & SET)]; auto.
    destruct (Nat.eq_dec (t_con t1) c) as [EC|NC].
    2: { exists d. rewrite (s_other S1) by auto. auto. }
    rewrite EC in *. assert (d1 = d) as -> by congruence. unfold tok in TK. rewrite ST in TK.
    destruct (t_cb t1); [destruct TK; discriminate|]. specialize (SET eq_refl). revert SET.
    unfold reset_delay, upd, dev_of. cbn [w_devs cancel say]. rewrite HC. cbn [bind w_devs cancel say]. rewrite ?HC. cbn [bind].
    intros SET. injection SET as <-. eexists. split; [apply (nth_set_same _ _ _ HC)|]. auto.
  - destruct EO as (L & OO & OM). destruct (Nat.eq_dec c0 c) as [->|NC]; [left; eauto|right; right].
    eapply OTHER; eauto. apply hangup_ran; auto.
  - destruct EO as (L & OO). right; right. destruct (Nat.eq_dec c0 c) as [->|NC].
    + apply SAME. cbn [step] in R. unfold writable, dev_of in R. rewrite HC in R. cbn [bind] in R. rewrite ST in R.
      destruct (d_fd d <? 0), (d_kind d); congruence.
    + eapply OTHER; eauto. destruct (@writable_may w c0 o I L OO) as [[X _]|X]; auto. cbn [step] in R. congruence.
  - destruct EO as (L & OO). right; right. destruct (Nat.eq_dec c0 c) as [->|NC].
    + apply SAME. cbn [step] in R. unfold check_console_state, dev_of in R. rewrite HC in R. cbn [bind] in R. rewrite ST in R.
      replace (d_fd d <? 0) with false in R by (symmetry; apply Z.ltb_ge; lia). destruct (d_kind d); congruence.
    + eapply OTHER; eauto. destruct (@client_may w c0 o I L OO) as [[X _]|X]; auto. cbn [step] in R. congruence.
  - destruct EO as (L & OO). right. destruct (Nat.eq_dec c0 c) as [->|NC].
    + cbn [step] in R. unfold dev_of in R. rewrite HC in R. cbn [bind] in R.
      destruct (d_kind d); try (right; apply SAME; congruence). left; eauto.
    + right. eapply OTHER; eauto. apply created_ran; auto.
  - destruct EO as (L & OO). right; right. destruct (Nat.eq_dec c0 c) as [->|NC].
    + apply SAME. cbn [step] in R. unfold dev_of in R. rewrite HC in R. cbn [bind] in R.
      destruct (d_kind d); try congruence. unfold connect_ipmi_obj, dev_of in R. rewrite HC in R. cbn [bind] in R.
      rewrite ST in R. congruence.
    + eapply OTHER; eauto. apply engine_ran; auto.
Qed.

(** ** Timers that are kept *)
Lemma timer_kept w e w' t : inv all w -> event_ok (length (w_devs w)) e -> step e w = Ok w' ->
  In t (w_timers w) -> In t (w_timers w') \/ addressed (t_con t) e \/ exists o, e = Fire (t_id t) o.
Proof.
  intros I EO R T.
  assert (forall c0, ran all c0 w (step e w) -> t_con t <> c0 -> In t (w_timers w')) as OTHER.
  { intros c0 (w2 & R2 & _ & S2) NE. assert (w2 = w') as -> by congruence. apply (s_timers S2); auto. }
  destruct e as [ms|id o|c0 o mid|c0 o|c0 o|c0 o|c0 o]; cbn [event_ok] in EO; cbn [addressed].
  - left. cbn [step] in R. injection R as <-. destruct (0 <? ms); auto.
  - cbn [step] in R. destruct (@fire_case _ _ _ _ I EO R) as [->|(t1 & d1 & T1 & E1 & DUE & HC1 & TK & S1 & I1 & SET)]; auto.
    destruct (Z.eq_dec (t_id t) id) as [<-|NE]; [right; right; eauto|]. left. apply (s_timers S1); auto.
    intros EC. destruct (i_own I _ T1) as (x & X1 & X2), (i_own I _ T) as (y & Y1 & Y2). congruence.
  - destruct EO as (L & OO & OM). destruct (Nat.eq_dec (t_con t) c0) as [->|NC]; auto.
    left. eapply OTHER; eauto. apply hangup_ran; auto.
  - destruct EO as (L & OO). destruct (Nat.eq_dec (t_con t) c0) as [->|NC]; auto.
    left. eapply OTHER; eauto. destruct (@writable_may w c0 o I L OO) as [[X _]|X]; auto. cbn [step] in R. congruence.
  - destruct EO as (L & OO). destruct (Nat.eq_dec (t_con t) c0) as [->|NC]; auto.
    left. eapply OTHER; eauto. destruct (@client_may w c0 o I L OO) as [[X _]|X]; auto. cbn [step] in R. congruence.
  - destruct EO as (L & OO). destruct (Nat.eq_dec (t_con t) c0) as [->|NC]; auto.
    left. eapply OTHER; eauto. apply created_ran; auto.
  - destruct EO as (L & OO). destruct (Nat.eq_dec (t_con t) c0) as [->|NC]; auto.
    left. eapply OTHER; eauto. apply engine_ran; auto.
Qed.

Lemma one_timer P w t1 t2 : inv P w -> In t1 (w_timers w) -> In t2 (w_timers w) -> t_con t1 = t_con t2 -> t1 = t2.
Proof.
  intros I T1 T2 E.
  assert (t_id t1 = t_id t2) as EI.
  { destruct (i_own I _ T1) as (d1 & HC1 & TD1), (i_own I _ T2) as (d2 & HC2 & TD2). congruence. }
  pose proof (i_nodup I) as ND. revert ND T1 T2. generalize (w_timers w). intros l.
  induction l as [|a l IH]; cbn; intros ND T T1; [tauto|]. inversion ND as [|? ? NI ND']; subst.
  destruct T as [->|T], T1 as [->|T1]; auto; exfalso; apply NI; apply in_map_iff; eexists; split; try eassumption; congruence.
Qed.

(** ** The retry timer does its work *)
Ltac tried := eexists; split; [reflexivity|]; cbn [w_log at_ w_now In]; auto 9.
Lemma try_telnet P w c o d : inv P w -> nth_error (w_devs w) c = Some d -> orc_ok o -> o_sock o = true ->
  d_kind d = Telnet -> d_st d = Down -> exists w', connect_telnet_obj c o w = Ok w' /\ In (w_now w, Try c) (w_log w').
Proof.
  intros I HC [OF OP] OS K ST. begin (connect_telnet_obj c o).
  destruct d as [k fd st tm dl via pid ctx]; fcbn; subst k st. begin2.
  unfold connect_telnet_obj, disconnect_telnet_obj, telnet_up. sy HC. rewrite OS.
  destruct (o_name o); [|sy HC; tried]. sy HC. destruct (o_conn o); sy HC; tried.
  Unshelve. all: try exact 0.
Qed.
Lemma try_process P w c o d : inv P w -> nth_error (w_devs w) c = Some d ->
  d_kind d = Process -> d_st d = Down -> exists w', open_process_obj c o w = Ok w' /\ In (w_now w, Try c) (w_log w').
Proof.
  intros I HC K ST. begin (open_process_obj c o).
  destruct d as [k fd st tm dl via pid ctx]; fcbn; subst k st. begin2. subst fd pid.
  unfold open_process_obj, connect_process_obj. sy HC.
  destruct (o_dev o && o_sock o && o_fork o); sy HC; tried.
Qed.
Lemma try_unixsock P w c o d : inv P w -> nth_error (w_devs w) c = Some d -> orc_ok o ->
  d_kind d = Unixsock -> d_st d = Down -> exists w', connect_unixsock_obj c o w = Ok w' /\ In (w_now w, Try c) (w_log w').
Proof.
  intros I HC [OF OP] K ST. begin (connect_unixsock_obj c o).
  destruct d as [k fd st tm dl via pid ctx]; fcbn; subst k st. begin2. subst fd.
  unfold connect_unixsock_obj, disconnect_unixsock_obj. sy HC.
  destruct (o_dev o); sy HC; [|tried]. destruct (o_sock o); sy HC; [|tried].
  destruct (o_conn o); [|destruct via|destruct via]; sy HC; tried.
Qed.
Lemma try_ipmi P w c o d : inv P w -> nth_error (w_devs w) c = Some d -> 
  d_kind d = Ipmi -> d_st d = Down -> exists w', connect_ipmi_obj c o w = Ok w' /\ In (w_now w, Try c) (w_log w').
Proof.
  intros I HC K ST. begin (connect_ipmi_obj c o).
  destruct d as [k fd st tm dl via pid ctx]; fcbn; subst k st. begin2. subst fd.
  unfold connect_ipmi_obj, initiate_ipmi_connect, complete_ipmi_connect, fail_ipmi_connect.
  pose proof (@delay_bounds Ipmi f n ltac:(discriminate)) as B; cbn [dmax] in B;
    assert (60 <= dl <= 1800) as DL by (clear - DE B;
      assert (60000 <= delay_after Ipmi f n) by (destruct f; cbn [delay_after]; unfold doubled; cbn [dmin dmax];
        assert (1 <= 2 ^ Z.of_nat n) by (change 1 with (2 ^ 0); apply Z.pow_le_mono_r; lia); lia); lia);
    assert ((IPMI_MIN_TIMEOUT <=? dl) = true) as B1 by (unfold IPMI_MIN_TIMEOUT; apply Z.leb_le; lia);
    assert ((dl <=? IPMI_MAX_TIMEOUT) = true) as B2 by (unfold IPMI_MAX_TIMEOUT; apply Z.leb_le; lia).
  sy HC. destruct (o_sock o); sy HC; [destruct (o_fork o); sy HC|]; rewrite ?B1, ?B2; sy HC; tried.
Qed.

Lemma fire_tries w c d t o : inv all w -> nth_error (w_devs w) c = Some d -> orc_ok o -> o_sock o = true ->
  d_st d = Down -> retry_pending w c t -> t_due t <= w_now w ->
  exists w', fire (t_id t) o w = Ok w' /\ In (w_now w, Try c) (w_log w').
Proof.
  intros I HC OO OS ST (T & TC & TB) DUE.
  unfold fire. destruct (find (fun x => t_id x =? t_id t) (w_timers w)) as [t1|] eqn:F.
  2: { exfalso. apply (find_none _ _ F t) in T. rewrite Z.eqb_refl in T. discriminate. }
  apply find_timer in F. destruct F as [T1 E1].
  assert (t1 = t) as ->.
  { eapply one_timer; eauto. destruct (i_own I _ T) as (x & X1 & X2). apply (@i_sep _ _ I (t_con t) x t1); auto. congruence. }
  replace (w_now w <? t_due t) with false by (symmetry; apply Z.ltb_ge; lia).
  rewrite <- TC in HC. pose proof (@timer_tok _ _ _ _ I Logic.I T HC) as TK. unfold tok in TK. rewrite TB in TK.
  destruct TK as (_ & KS & _). cbv zeta. rewrite TB. unfold dev_of. cbn [w_devs cancel]. rewrite HC. cbn [bind].
  pose proof (@cancel_inv _ _ _ I T) as I1. rewrite <- TC.
  destruct (d_kind d) eqn:K; try congruence.
  - eapply (try_telnet (w := cancel (t_id t) w)); eauto.
  - eapply (try_process (w := cancel (t_id t) w)); eauto.
  - eapply (try_unixsock (w := cancel (t_id t) w)); eauto.
  - eapply (try_ipmi (w := cancel (t_id t) w)); eauto.
Qed.
