(** Symbolic execution of the handlers of ReconnModel. *)
From Verif Require Import Base ReconnModel ReconnSpec ReconnProof.
Set Implicit Arguments.
Open Scope Z_scope.

Ltac dcbn := unfold with_fd, with_st, with_timer, with_delay, with_via, with_pid, with_ctx in *;
             cbn [d_kind d_fd d_st d_timer d_delay d_via d_pid d_ctx is_up
                  t_id t_con t_cb t_due length app stamp map about fst snd] in *.
Ltac lcbn := unfold noticed; repeat (progress (cbn [since last_notice scheduled child steady delay_of]; rewrite ?Nat.eqb_refl));
  cbn [since last_notice scheduled child steady delay_of].

Ltac fin := lazymatch goal with |- does _ (Ok (at_ ?w ?c ?D ?TS ?NX ?LG)) ?c ?w ?d =>
   let es := effects LG in let nw := fresh_timers TS in exists D, nw, es; split;
   [ unfold post; cbn [length app stamp map d_timer]; f_equal; f_equal; try lia
   | constructor;
     [ reflexivity
     | first [left; split; reflexivity | right; eexists _, _; split; reflexivity]
     | repeat constructor
     | unfold vpre, shape; dcbn; lcbn; repeat split; intros; try discriminate; try lia; auto
     | let HB := fresh in intros HB; first [discriminate HB | clear HB; unfold tinv; dcbn; split;
       [ first [apply Forall_nil | apply Forall_cons; [|apply Forall_nil]]; unfold tok; dcbn; lcbn; repeat split; try discriminate;
         try (eexists _, _; split; [reflexivity|]; split; [reflexivity|]; split; [lia|]);
         try (eexists; split; [reflexivity|])
       | try exact Logic.I; try reflexivity; try (eexists; split; [left; reflexivity|reflexivity]);
         try (right; eexists; split; [left; reflexivity|reflexivity]); try (left; lcbn; reflexivity) ] ]
     | cbn [justs]; repeat (match goal with |- _ /\ _ => split end); try exact Logic.I; unfold justified; intros ? HKK; dcbn; lcbn;
       match goal with KK : nth_error _ _ = Some _ |- _ => rewrite KK in HKK; injection HKK as <- end;
       try exact Logic.I; intros; try discriminate ] ] end.

Lemma go (w : world) (c : nat) (X : world -> res world) d : nth_error (w_devs w) c = Some d ->
  X w = X (at_ w c d (w_timers w) (w_next w) (w_log w)).
Proof. intros HC. rewrite (@at_start w c d HC). reflexivity. Qed.

Lemma rng P w : inv P w -> Forall (fun t => 0 < t_id t) (w_timers w).
Proof. intros I. eapply Forall_impl; [|exact (i_rng I)]. cbn. lia. Qed.

Lemma drop_pos ts id : Forall (fun t => 0 < t_id t) ts -> Forall (fun t => 0 < t_id t) (drop id ts).
Proof. intros F. rewrite Forall_forall in *. intros t T. apply in_drop in T. apply F. tauto. Qed.

Lemma kind_at w c d : nth_error (w_devs w) c = Some d -> nth_error (map d_kind (w_devs w)) c = Some (d_kind d).
Proof. intros H. apply map_nth_error; auto. Qed.

Ltac close SI DE NO CH := rewrite ?SI; cbn [delay_of]; first
  [ exact DE | reflexivity | lia | exact NO | exact CH | split; [lia | exact CH]
  | apply next_telnet; exact DE
  | apply next_min; [auto | reflexivity | exact DE]
  | apply (@next_zero Process); [auto | exact DE]
  | apply (@delay_max Telnet); discriminate
  | match goal with |- _ /\ _ =>
      let B := fresh in
      match type of DE with _ = delay_after ?k ?f ?n =>
        pose proof (@delay_bounds k f n ltac:(discriminate)) as B;
        pose proof (@delay_max k f n ltac:(discriminate)) end;
      rewrite <- DE in *; unfold RESOLVE_RETRY_TIMEOUT, IPMI_CONNECT_TIMEOUT; cbn [dmax] in B; lia end
  | unfold noticed in NO; destruct (last_notice _ _) as [[? []]|]; first [discriminate | exact Logic.I | eexists; reflexivity]
  | unfold TELNET_MIN_TIMEOUT, UNIXSOCK_MIN_TIMEOUT; lia
  | idtac ].


Lemma with_same_delay d : with_delay (d_delay d) d = d.
Proof. destruct d; reflexivity. Qed.
Lemma upd_if2 w c d0 (HC : nth_error (w_devs w) c = Some d0) (b : bool) x d ts nx lg :
  (if b then upd c (with_delay x) (at_ w c d ts nx lg) else Ok (at_ w c d ts nx lg))
  = Ok (at_ w c (with_delay (if b then x else d_delay d) d) ts nx lg).
Proof. destruct b; [apply (upd_at _ _ HC)|]. rewrite with_same_delay. reflexivity. Qed.
Lemma upd_if3 w c d0 (HC : nth_error (w_devs w) c = Some d0) (a b : bool) x y d ts nx lg :
  (if a then upd c (with_delay x) (at_ w c d ts nx lg)
   else if b then upd c (with_delay y) (at_ w c d ts nx lg) else Ok (at_ w c d ts nx lg))
  = Ok (at_ w c (with_delay (if a then x else if b then y else d_delay d) d) ts nx lg).
Proof. destruct a; [apply (upd_at _ _ HC)|apply (upd_if2 _ _ HC)]. Qed.
Lemma close_fd w c d0 (HC : nth_error (w_devs w) c = Some d0) d ts nx lg : -1 <= d_fd d ->
  (if 0 <=? d_fd d then upd c (with_fd (-1)) (at_ w c d ts nx lg) else Ok (at_ w c d ts nx lg))
  = Ok (at_ w c (with_fd (-1) d) ts nx lg).
Proof.
  intros H. destruct (Z.leb_spec 0 (d_fd d)); [apply (upd_at _ _ HC)|].
  assert (d_fd d = -1) as E by lia. destruct d; cbn in *; subst; reflexivity.
Qed.

Lemma drop_none ts : Forall (fun t => 0 < t_id t) ts -> drop (-1) ts = ts.
Proof. induction 1; cbn; auto. destruct (Z.eqb_spec (t_id x) (-1)); cbn; [lia|]. f_equal; auto. Qed.
Lemma drop_drop id ts : drop id (drop id ts) = drop id ts.
Proof. unfold drop. induction ts as [|t ts IH]; cbn; auto. destruct (t_id t =? id) eqn:E; cbn; rewrite ?E; cbn; congruence. Qed.

Ltac sy HC := repeat first
  [ progress fields
  | progress cbn [bind assert_ Pos.eqb Z.leb Z.ltb Z.compare Z.eqb is_up negb orb andb
                  d_kind d_fd d_st d_timer d_delay d_via d_pid d_ctx]
  | rewrite (upd_if3 _ _ HC) | rewrite (upd_if2 _ _ HC)
  | match goal with |- context [if 0 <=? ?fd then upd _ (with_fd (-1)) (at_ _ _ ?d _ _ _) else _] =>
      let H := fresh in pose proof (close_fd _ _ HC) as H; change (0 <=? fd) with (0 <=? d_fd d);
      rewrite H by (cbn [d_fd]; lia); clear H end
  | rewrite drop_none by assumption
  | rewrite (dev_of_at _ _ HC) | rewrite (upd_at _ _ HC) | rewrite (arm_at _ _ HC) | rewrite say_at
  | rewrite (cancel_at _ _ HC) by (cbn [d_timer]; first [lia | assumption]) ].


Ltac begin X := match goal with
  | I : inv _ ?w, HC : nth_error (w_devs ?w) ?c = Some ?d |- _ =>
    rewrite (@go w c X d HC); destruct (i_pre I _ HC) as (SH & DE & NO & CH);
    pose proof (kind_at _ _ HC) as KK;
    pose proof (rng I) as RG; pose proof (drop_pos (d_timer d) RG) as RG'; destruct (i_dt I _ HC) as [DT1 DT2]
  end.
Ltac fcbn := cbn [d_kind d_fd d_st d_timer d_delay d_via d_pid d_ctx] in *.
Ltac begin2 := unfold shape in *; fcbn;
  repeat match goal with H : _ <> Serial -> _ |- _ => specialize (H ltac:(discriminate)) end;
  repeat match goal with H : Process = Process -> _ |- _ => specialize (H eq_refl) end;
  repeat match goal with H : _ /\ _ |- _ => destruct H end;
  try match goal with H : _ = delay_of _ (since ?c ?l) |- _ =>
    let SI := fresh "SI" in destruct (since c l) as [f n] eqn:SI; cbn [delay_of] in H end.

Lemma connect_telnet_does P w c o d : inv P w -> nth_error (w_devs w) c = Some d -> orc_ok o -> o_sock o = true ->
  d_kind d = Telnet -> d_st d <> Up -> does true (connect_telnet_obj c o w) c w d.
Proof.
  intros I HC [OF OP] OS K ST. begin (connect_telnet_obj c o).
  destruct d as [k fd st tm dl via pid ctx]; fcbn; subst k.
  unfold connect_telnet_obj, disconnect_telnet_obj, telnet_up.
  destruct st; begin2; [| |congruence].
  - sy HC. rewrite OS. destruct (o_name o).
    + sy HC. destruct (o_conn o).
      * sy HC. fin. all: close SI DE NO CH.
      * sy HC. fin. all: close SI DE NO CH.
      * sy HC. fin. all: close SI DE NO CH.
    + sy HC. fin. all: close SI DE NO CH.
  - sy HC. destruct (o_sockerr o).
    + sy HC. fin. all: close SI DE NO CH.
    + sy HC. fin. all: close SI DE NO CH.
Qed.

Lemma open_telnet_does P w c o d : inv P w -> nth_error (w_devs w) c = Some d -> orc_ok o -> o_sock o = true ->
  d_kind d = Telnet -> d_st d <> Up -> does true (open_telnet_obj c o w) c w d.
Proof.
  intros I HC OO OS K ST. unfold open_telnet_obj, dev_of. rewrite HC. cbn [bind].
  destruct (d_st d) eqn:E; [| |congruence]; eapply connect_telnet_does; eauto; congruence.
Qed.

Lemma client_telnet_does P w c o d : inv P w -> nth_error (w_devs w) c = Some d -> orc_ok o -> o_sock o = true ->
  d_kind d = Telnet -> d_st d <> Up ->
  does true (check_console_state c o w) c w d.
Proof.
  intros I HC [OF OP] OS K ST. begin (check_console_state c o).
  destruct d as [k fd st tm dl via pid ctx]; fcbn; subst k.
  unfold check_console_state, open_telnet_obj, connect_telnet_obj, disconnect_telnet_obj, telnet_up.
  destruct st; begin2; [| |congruence].
  - sy HC. rewrite OS. destruct (o_name o).
    + sy HC. destruct (o_conn o).
      * sy HC. fin. all: close SI DE NO CH.
      * sy HC. fin. all: close SI DE NO CH.
      * sy HC. fin. all: close SI DE NO CH.
    + sy HC. fin. all: close SI DE NO CH.
  - subst tm. sy HC. fin. all: close SI DE NO CH. symmetry; apply drop_none; auto.
Qed.

Lemma hangup_telnet_does P w c o mid d : inv P w -> nth_error (w_devs w) c = Some d ->
  d_kind d = Telnet -> d_st d = Up -> does true (hangup c o mid w) c w d.
Proof.
  intros I HC K ST. begin (hangup c o mid).
  destruct d as [k fd st tm dl via pid ctx]; fcbn; subst k st. begin2.
  unfold hangup, shutdown_obj, reopen_obj, open_telnet_obj, disconnect_telnet_obj.
  sy HC. destruct (Z.ltb_spec fd 0); [lia|]. sy HC. fin. all: close SI DE NO CH.
Qed.

Lemma open_process_does P w c o d : inv P w -> nth_error (w_devs w) c = Some d -> orc_ok o ->
  d_kind d = Process -> d_st d = Down -> does true (open_process_obj c o w) c w d.
Proof.
  intros I HC [OF OP] K ST. begin (open_process_obj c o).
  destruct d as [k fd st tm dl via pid ctx]; fcbn; subst k st. begin2. subst fd pid.
  unfold open_process_obj, connect_process_obj.
  sy HC. destruct (o_dev o && o_sock o && o_fork o); sy HC; fin. all: close SI DE NO CH.
Qed.

Lemma hangup_process_does P w c o mid d : inv P w -> nth_error (w_devs w) c = Some d -> orc_ok o ->
  d_kind d = Process -> d_st d = Up -> does true (hangup c o mid w) c w d.
Proof.
  intros I HC [OF OP] K ST. begin (hangup c o mid).
  destruct d as [k fd st tm dl via pid ctx]; fcbn; subst k st. begin2.
  unfold hangup, shutdown_obj, reopen_obj, open_process_obj, disconnect_process_obj.
  sy HC. destruct (Z.ltb_spec fd 0); [lia|]. sy HC.
  destruct (Z.ltb_spec 0 pid); [|lia]. sy HC. fin. all: close SI DE NO CH.
Qed.

Lemma connect_unixsock_does P w c o d : inv P w -> nth_error (w_devs w) c = Some d -> orc_ok o ->
  d_kind d = Unixsock -> d_st d <> Up -> does true (connect_unixsock_obj c o w) c w d.
Proof.
  intros I HC [OF OP] K ST. begin (connect_unixsock_obj c o).
  destruct d as [k fd st tm dl via pid ctx]; fcbn; subst k.
  destruct st; begin2; [|tauto|tauto]. subst fd.
  unfold connect_unixsock_obj, disconnect_unixsock_obj.
  sy HC. destruct (o_dev o); sy HC.
  - destruct (o_sock o); sy HC.
    + destruct (o_conn o); [|destruct via|destruct via]; sy HC; fin. all: close SI DE NO CH.
    + fin. all: close SI DE NO CH.
  - fin. all: close SI DE NO CH.
Qed.

Lemma open_unixsock_does P w c o d : inv P w -> nth_error (w_devs w) c = Some d -> orc_ok o ->
  d_kind d = Unixsock -> d_st d <> Up -> does true (open_unixsock_obj c o w) c w d.
Proof.
  intros I HC OO K ST. unfold open_unixsock_obj, dev_of. rewrite HC. cbn [bind].
  destruct (d_st d) eqn:E; [| |congruence]; eapply connect_unixsock_does; eauto; congruence.
Qed.

Lemma created_unixsock_does P w c o d : inv P w -> nth_error (w_devs w) c = Some d -> orc_ok o ->
  d_kind d = Unixsock -> does true (open_unixsock_obj_via_inotify c o w) c w d.
Proof.
  intros I HC [OF OP] K. begin (open_unixsock_obj_via_inotify c o).
  destruct d as [k fd st tm dl via pid ctx]; fcbn; subst k.
  unfold open_unixsock_obj_via_inotify, open_unixsock_obj, connect_unixsock_obj, disconnect_unixsock_obj.
  destruct st; begin2; [|tauto|].
  - subst fd. sy HC. destruct (o_dev o); sy HC.
    + destruct (o_sock o); sy HC.
      * destruct (o_conn o); sy HC; fin. all: close SI DE NO CH.
      * fin. all: close SI DE NO CH.
    + fin. all: close SI DE NO CH.
  - sy HC. fin. all: close SI DE NO CH.
Qed.

Lemma hangup_unixsock_does P w c o mid d : inv P w -> nth_error (w_devs w) c = Some d ->
  d_kind d = Unixsock -> d_st d = Up -> does true (hangup c o mid w) c w d.
Proof.
  intros I HC K ST. begin (hangup c o mid).
  destruct d as [k fd st tm dl via pid ctx]; fcbn; subst k st. begin2.
  unfold hangup, shutdown_obj, reopen_obj, open_unixsock_obj, disconnect_unixsock_obj.
  sy HC. destruct (Z.ltb_spec fd 0); [lia|]. sy HC. fin. all: close SI DE NO CH.
Qed.

Lemma connect_ipmi_does P w c o d : inv P w -> nth_error (w_devs w) c = Some d -> orc_ok o ->
  d_kind d = Ipmi -> d_st d <> Up -> does true (connect_ipmi_obj c o w) c w d.
Proof.
  intros I HC [OF OP] K ST. begin (connect_ipmi_obj c o).
  destruct d as [k fd st tm dl via pid ctx]; fcbn; subst k.
  unfold connect_ipmi_obj, initiate_ipmi_connect, complete_ipmi_connect, fail_ipmi_connect.
  destruct st; begin2; [| |congruence]; subst fd;
    pose proof (@delay_bounds Ipmi f n ltac:(discriminate)) as B; cbn [dmax] in B;
    assert (60 <= dl <= 1800) as DL by (clear - DE B;
      assert (60000 <= delay_after Ipmi f n) by (destruct f; cbn [delay_after]; unfold doubled; cbn [dmin dmax];
        assert (1 <= 2 ^ Z.of_nat n) by (change 1 with (2 ^ 0); apply Z.pow_le_mono_r; lia); lia); lia);
    assert ((IPMI_MIN_TIMEOUT <=? dl) = true) as B1 by (unfold IPMI_MIN_TIMEOUT; apply Z.leb_le; lia);
    assert ((dl <=? IPMI_MAX_TIMEOUT) = true) as B2 by (unfold IPMI_MAX_TIMEOUT; apply Z.leb_le; lia).
  - sy HC. destruct (o_sock o); sy HC; [destruct (o_fork o); sy HC|]; rewrite ?B1, ?B2; sy HC; fin.
    all: close SI DE NO CH.
  - sy HC. destruct ctx; sy HC; [destruct (o_sockerr o); sy HC|]; rewrite ?B1, ?B2; sy HC; fin.
    all: close SI DE NO CH.
Qed.

Lemma disconnect_ipmi_does P w c d : inv P w -> nth_error (w_devs w) c = Some d ->
  d_kind d = Ipmi -> d_st d = Up ->
  does false (do w <- upd c (with_fd (-1)) w; disconnect_ipmi_obj c w) c w d.
Proof.
  intros I HC K ST. begin (fun w => do w <- upd c (with_fd (-1)) w; disconnect_ipmi_obj c w).
  destruct d as [k fd st tm dl via pid ctx]; fcbn; subst k st. begin2.
  unfold disconnect_ipmi_obj. sy HC. fin. all: close SI DE NO CH.
Qed.

Lemma open_serial_does P w c o d : inv P w -> nth_error (w_devs w) c = Some d -> orc_ok o ->
  d_kind d = Serial -> d_st d = Down -> does true (open_serial_obj c o w) c w d.
Proof.
  intros I HC [OF OP] K ST. begin (open_serial_obj c o).
  destruct d as [k fd st tm dl via pid ctx]; fcbn; subst k st. unfold shape in SH; fcbn. destruct SH; subst fd tm.
  unfold open_serial_obj. sy HC. destruct (o_dev o); sy HC; fin.
  all: try (symmetry; apply drop_none; auto). all: try congruence. all: close SI DE NO CH.
Qed.

Lemma hangup_serial_does P w c o mid d : inv P w -> nth_error (w_devs w) c = Some d -> orc_ok o ->
  d_kind d = Serial -> d_st d = Up -> does true (hangup c o mid w) c w d.
Proof.
  intros I HC [OF OP] K ST. begin (hangup c o mid).
  destruct d as [k fd st tm dl via pid ctx]; fcbn; subst k st. unfold shape in SH; fcbn. destruct SH; subst tm.
  unfold hangup, shutdown_obj, reopen_obj, open_serial_obj.
  sy HC. destruct (Z.ltb_spec fd 0); [lia|]. sy HC. destruct (o_dev o); sy HC; fin.
  all: try (symmetry; apply drop_none; auto). all: try congruence. all: close SI DE NO CH.
Qed.

(** the timer that fired is no longer in the queue *)
Lemma reset_delay_does P w c d t0 : inv P w -> nth_error (w_devs w) c = Some d ->
  d_kind d <> Serial -> d_st d = Up -> drop (d_timer d) (w_timers w) = w_timers w ->
  last_notice c (w_log w) = Some (t0, true) -> t0 + need (d_kind d) * 1000 <= w_now w ->
  does true (reset_delay c w) c w d.
Proof.
  intros I HC KS ST DR LN DUE. begin (reset_delay c).
  destruct d as [k fd st tm dl via pid ctx]; fcbn; subst st. specialize (DE KS). specialize (NO KS).
  unfold reset_delay. sy HC. unfold shape in SH; fcbn.
  destruct k; try congruence; fin.
  all: try (symmetry; exact DR); try exact NO.
  all: try (eexists; split; [exact LN|exact DUE]).
  all: try (destruct SH; auto; lia); auto.
Qed.
