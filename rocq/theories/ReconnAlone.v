(** A thread of ReconnRace that is not disturbed does what the handler of ReconnModel does. *)
From Verif Require Import Base ReconnModel ReconnSpec ReconnProof ReconnExec ReconnInv ReconnStep ReconnRace.
Set Implicit Arguments.
Open Scope Z_scope.

Lemma alone_act f k w : alone (act f k) w = do w1 <- f w; alone k w1.
Proof. cbn. destruct (f w); reflexivity. Qed.
Lemma alone_look c k w : alone (look c k) w = do d <- dev_of w c; alone (k d) w.
Proof. cbn. destruct (dev_of w c); reflexivity. Qed.
Lemma alone_halt w : alone Halt w = Ok w.
Proof. reflexivity. Qed.

Ltac al HC := repeat first [progress sy HC | rewrite alone_act | rewrite alone_look | rewrite alone_halt].

Lemma alone_hangup_process P w c o d : inv P w -> nth_error (w_devs w) c = Some d -> d_kind d = Process ->
  alone (process_shutdown c o) w = hangup c o [] w.
Proof.
  intros I HC K. rewrite (@go w c (alone (process_shutdown c o)) d HC). begin (hangup c o []).
  destruct d as [k fd st tm dl via pid ctx]; fcbn; subst k.
  unfold process_shutdown, process_open, process_retry, close_fd.
  unfold hangup, shutdown_obj, reopen_obj, open_process_obj, disconnect_process_obj.
  destruct st; begin2; [| tauto |].
  - subst fd. al HC. reflexivity.
  - al HC. destruct (Z.ltb_spec fd 0); [lia|]. al HC. destruct (Z.ltb_spec 0 pid); [|lia]. al HC. reflexivity.
Qed.
Lemma alone_client_process P w c o d : inv P w -> nth_error (w_devs w) c = Some d -> d_kind d = Process ->
  alone (process_client c o) w = check_console_state c o w.
Proof.
  intros I HC K. rewrite (@go w c (alone (process_client c o)) d HC). begin (check_console_state c o).
  destruct d as [k fd st tm dl via pid ctx]; fcbn; subst k.
  unfold process_client, process_open, process_retry.
  unfold check_console_state, open_process_obj, connect_process_obj.
  destruct st; begin2; [| tauto |].
  - subst fd pid. al HC. destruct (o_dev o && o_sock o && o_fork o); al HC; reflexivity.
  - al HC. destruct (Z.ltb_spec fd 0); [lia|]. al HC. reflexivity.
Qed.
Lemma alone_fire_process P w c o d t : inv P w -> nth_error (w_devs w) c = Some d -> d_kind d = Process -> d_st d = Down ->
  find (fun x => t_id x =? t_id t) (w_timers w) = Some t -> t_con t = c -> t_cb t = Reconnect -> t_due t <= w_now w ->
  alone (fired (t_id t) (process_open c o)) w = fire (t_id t) o w.
Proof.
  intros I HC K ST F TC TB DUE. unfold fire. rewrite F. replace (w_now w <? t_due t) with false by (symmetry; apply Z.ltb_ge; lia).
  rewrite TC, TB. unfold fired. rewrite alone_act. cbn [bind]. cbv zeta. unfold dev_of at 1. cbn [cancel w_devs]. rewrite HC. cbn [bind]. rewrite K.
  apply find_timer in F as (IT & _). pose proof (@cancel_inv _ _ _ I IT) as I1. set (w1 := cancel (t_id t) w) in *.
  assert (HC1 : nth_error (w_devs w1) c = Some d) by exact HC. clearbody w1. clear I HC IT.
  rename I1 into I. rename HC1 into HC.
  rewrite (@go w1 c (alone (process_open c o)) d HC). begin (open_process_obj c o).
  destruct d as [k fd st tm dl via pid ctx]; fcbn; subst k st.
  unfold process_open, process_retry.
  unfold open_process_obj, connect_process_obj. begin2.
  subst fd pid. al HC. destruct (o_dev o && o_sock o && o_fork o); al HC; reflexivity.
Qed.

Lemma alone_connect_telnet P w c o d : inv P w -> nth_error (w_devs w) c = Some d -> orc_ok o -> d_kind d = Telnet -> d_st d <> Up ->
  alone (telnet_connect c o) w = connect_telnet_obj c o w.
Proof.
  intros I HC [OF OP] K ST. rewrite (@go w c (alone (telnet_connect c o)) d HC). begin (connect_telnet_obj c o).
  destruct d as [k fd st tm dl via pid ctx]; fcbn; subst k.
  unfold telnet_connect, telnet_close, telnet_up_, close_fd.
  unfold connect_telnet_obj, disconnect_telnet_obj, telnet_up.
  destruct st; begin2; [| |congruence].
  - al HC. destruct (o_name o); [|al HC; reflexivity]. destruct (o_sock o); [|al HC; reflexivity].
    al HC. destruct (o_conn o); al HC; try reflexivity.
  - al HC. destruct (o_sockerr o); al HC; reflexivity.
Qed.
Lemma alone_client_telnet P w c o d : inv P w -> nth_error (w_devs w) c = Some d -> orc_ok o -> d_kind d = Telnet ->
  alone (telnet_client c o) w = check_console_state c o w.
Proof.
  intros I HC [OF OP] K. rewrite (@go w c (alone (telnet_client c o)) d HC). begin (check_console_state c o).
  destruct d as [k fd st tm dl via pid ctx]; fcbn; subst k.
  unfold telnet_client, telnet_open, telnet_connect, telnet_close, telnet_up_, close_fd.
  unfold check_console_state, open_telnet_obj, connect_telnet_obj, disconnect_telnet_obj, telnet_up.
  destruct st; begin2.
  - al HC. destruct (o_name o); [|al HC; reflexivity]. destruct (o_sock o); [|al HC; reflexivity].
    al HC. destruct (o_conn o); al HC; try reflexivity.
  - al HC. reflexivity.
  - al HC. reflexivity.
Qed.
Lemma alone_fire_telnet P w c o d t : inv P w -> nth_error (w_devs w) c = Some d -> orc_ok o -> d_kind d = Telnet -> d_st d <> Up ->
  find (fun x => t_id x =? t_id t) (w_timers w) = Some t -> t_con t = c -> t_cb t = Reconnect -> t_due t <= w_now w ->
  alone (fired (t_id t) (telnet_connect c o)) w = fire (t_id t) o w.
Proof.
  intros I HC OO K ST F TC TB DUE. unfold fire. rewrite F. replace (w_now w <? t_due t) with false by (symmetry; apply Z.ltb_ge; lia).
  rewrite TC, TB. unfold fired. rewrite alone_act. cbn [bind]. cbv zeta. unfold dev_of at 1. cbn [cancel w_devs]. rewrite HC. cbn [bind]. rewrite K.
  apply find_timer in F as (IT & _). pose proof (@cancel_inv _ _ _ I IT) as I1. eapply alone_connect_telnet; [exact I1 | exact HC | exact OO | exact K | exact ST].
Qed.
Lemma timer_found w t : inv all w -> In t (w_timers w) -> find (fun x => t_id x =? t_id t) (w_timers w) = Some t.
Proof.
  intros I T. destruct (find (fun x => t_id x =? t_id t) (w_timers w)) as [t1|] eqn:F.
  - apply find_timer in F. destruct F as [T1 E1]. f_equal.
    eapply (one_timer (w := w)); eauto. destruct (i_own I _ T) as (x & X1 & X2). apply (@i_sep _ _ I (t_con t) x t1); auto. congruence.
  - exfalso. apply (find_none _ _ F t) in T. rewrite Z.eqb_refl in T. discriminate.
Qed.
