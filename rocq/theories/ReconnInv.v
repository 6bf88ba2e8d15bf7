(** The invariant of ReconnProof holds in every reachable state. *)
From Verif Require Import Base ReconnModel ReconnSpec ReconnProof ReconnExec.
Set Implicit Arguments.
Open Scope Z_scope.

(** what an event about console [c] leaves alone *)
Record stepped (c : nat) (w w' : world) : Prop := mkStepped {
  s_now : w_now w' = w_now w;
  s_kinds : map d_kind (w_devs w') = map d_kind (w_devs w);
  s_other : forall c', c' <> c -> nth_error (w_devs w') c' = nth_error (w_devs w) c';
  s_log : exists es, w_log w' = stamp (w_now w) es ++ w_log w /\ Forall (fun e => about e = c) es;
  s_timers : forall t, t_con t <> c -> In t (w_timers w) -> In t (w_timers w') }.

Lemma stepped_refl c w : stepped c w w.
Proof. constructor; auto. exists []. split; auto. Qed.
Lemma stepped_trans c w1 w2 w3 : stepped c w1 w2 -> stepped c w2 w3 -> stepped c w1 w3.
Proof.
  intros [a1 b1 c1 (e1 & d1 & f1) g1] [a2 b2 c2 (e2 & d2 & f2) g2]. constructor; auto; try congruence.
  - intros x X. rewrite c2, c1; auto.
  - exists (e2 ++ e1). split; [|apply Forall_app; auto]. rewrite d2, d1, a1. unfold stamp. rewrite map_app, app_assoc. reflexivity.
Qed.

Definition ran (P : nat -> Prop) (c : nat) (w : world) (r : res world) : Prop :=
  exists w', r = Ok w' /\ inv P w' /\ stepped c w w'.

Lemma does_ran b (P Q : nat -> Prop) r c w d : inv P w -> nth_error (w_devs w) c = Some d -> does b r c w d ->
  (forall x, Q x -> (P x /\ x <> c) \/ (b = true /\ x = c)) -> ran Q c w r.
Proof.
  intros I HC (d' & new & es & E & F) HQ. exists (post c w d d' new es). split; [exact E|]. split.
  - eapply inv_weaken; [exact HQ|]. eapply inv_post; eauto.
  - constructor; cbn.
    + reflexivity.
    + eapply map_set; eauto. apply (f_kind F).
    + intros x X. apply nth_set_other. auto.
    + exists es. split; [reflexivity|apply (f_about F)].
    + intros t NC T. apply in_app_iff. right. apply in_drop. split; auto. intros X. apply NC.
      eapply (i_sep I); eauto.
Qed.

Lemma does_true P r c w d : inv P w -> nth_error (w_devs w) c = Some d -> does true r c w d -> ran P c w r.
Proof.
  intros I HC D. eapply does_ran; eauto. intros x X. destruct (Nat.eq_dec x c); auto.
Qed.

Lemma stay P c w : inv P w -> ran P c w (Ok w).
Proof. intros. exists w. split; auto. split; auto. apply stepped_refl. Qed.

Lemma ran_weaken (P Q : nat -> Prop) c w r : (forall x, Q x -> P x) -> ran P c w r -> ran Q c w r.
Proof. intros H (w' & E & I & S). exists w'. split; auto. split; auto. eapply inv_weaken; eauto. Qed.

(** ** Removing the timer that fires *)
Lemma cancel_inv P w t : inv P w -> In t (w_timers w) ->
  inv (fun x => P x /\ x <> t_con t) (cancel (t_id t) w).
Proof.
  intros [i1 i2 i3 i4 i5 i6 i7 i8 i9] T. destruct (i3 _ T) as (d & HD & TD).
  constructor; cbn; auto.
  - apply nodup_map_filter; auto.
  - rewrite Forall_forall in *. intros x X. apply filter_In in X. apply i2. tauto.
  - intros x X. apply filter_In in X. apply i3; tauto.
  - intros c d1 x D X. apply filter_In in X. eapply i4; eauto. tauto.
  - intros c d1 [PC NC] D. 
    assert (own c (drop (t_id t) (w_timers w)) = own c (w_timers w)) as O.
    2: { change (tinv c (w_now w) d1 (own c (drop (t_id t) (w_timers w))) (w_log w)). rewrite O. auto. }
    apply own_drop_other.
    intros x X E1 E2. apply NC. 
    destruct (i3 _ X) as (d2 & HD2 & TD2). rewrite <- E1. symmetry. eapply i4; eauto. congruence.
Qed.

Lemma cancel_drop id w : w_timers (cancel id w) = drop id (w_timers w).
Proof. reflexivity. Qed.

Lemma find_timer id ts t : find (fun t => t_id t =? id) ts = Some t -> In t ts /\ t_id t = id.
Proof. intros F. apply find_some in F. rewrite Z.eqb_eq in F. auto. Qed.

Lemma in_own c t ts : In t (own c ts) <-> In t ts /\ t_con t = c.
Proof. unfold own. rewrite filter_In, Nat.eqb_eq. tauto. Qed.

Lemma timer_tok P w t d : inv P w -> P (t_con t) -> In t (w_timers w) -> nth_error (w_devs w) (t_con t) = Some d ->
  tok (t_con t) (w_now w) d (w_log w) t.
Proof.
  intros I PC T D. destruct (i_tim I _ PC D) as [F _]. rewrite Forall_forall in F. apply F. apply in_own. auto.
Qed.

(** ** Telnet consoles when socket() fails *)
Definition may (o : orc) (r : res world) (X : Prop) : Prop := (r = UB Fatal /\ o_sock o = false) \/ X.

Lemma connect_telnet_may P w c o d : inv P w -> nth_error (w_devs w) c = Some d -> orc_ok o ->
  d_kind d = Telnet -> d_st d <> Up -> may o (connect_telnet_obj c o w) (does true (connect_telnet_obj c o w) c w d).
Proof.
  intros I HC OO K ST. destruct (o_sock o) eqn:OS; [right; eapply connect_telnet_does; eauto|].
  set (o' := mkOrc (o_name o) true (o_dev o) (o_conn o) (o_sockerr o) (o_fork o) (o_fd o) (o_pid o)).
  assert (does true (connect_telnet_obj c o' w) c w d) as D.
  { eapply connect_telnet_does; eauto. }
  unfold may. rewrite OS.
  assert (connect_telnet_obj c o w = UB Fatal \/ connect_telnet_obj c o w = connect_telnet_obj c o' w) as [E|E].
  { unfold connect_telnet_obj. destruct (cancel_timer c w); cbn [bind]; auto.
    destruct (dev_of a c); cbn [bind]; auto. destruct (d_st a0); auto. cbn. rewrite OS.
    destruct (o_name o); auto. }
  - auto.
  - right. rewrite E. exact D.
Qed.

Lemma open_telnet_may P w c o d : inv P w -> nth_error (w_devs w) c = Some d -> orc_ok o ->
  d_kind d = Telnet -> d_st d <> Up -> may o (open_telnet_obj c o w) (does true (open_telnet_obj c o w) c w d).
Proof.
  intros I HC OO K ST. unfold open_telnet_obj, dev_of. rewrite HC. cbn [bind].
  destruct (d_st d) eqn:E; [| |congruence]; eapply connect_telnet_may; eauto; congruence.
Qed.

Lemma client_telnet_may P w c o d : inv P w -> nth_error (w_devs w) c = Some d -> orc_ok o ->
  d_kind d = Telnet -> d_st d <> Up -> may o (check_console_state c o w) (does true (check_console_state c o w) c w d).
Proof.
  intros I HC OO K ST. destruct (o_sock o) eqn:OS; [right; eapply client_telnet_does; eauto|].
  set (o' := mkOrc (o_name o) true (o_dev o) (o_conn o) (o_sockerr o) (o_fork o) (o_fd o) (o_pid o)).
  assert (does true (check_console_state c o' w) c w d) as D.
  { eapply client_telnet_does; eauto. }
  unfold may. rewrite OS.
  assert (check_console_state c o w = UB Fatal \/ check_console_state c o w = check_console_state c o' w) as [E|E].
  { unfold check_console_state, dev_of. rewrite HC. cbn [bind]. rewrite K.
    destruct (d_st d); auto. destruct (upd c _ _); cbn [bind]; auto.
    unfold open_telnet_obj. destruct (dev_of a c); cbn [bind]; auto. destruct (d_st a0); auto.
    all: unfold connect_telnet_obj; destruct (cancel_timer c a); cbn [bind]; auto;
      destruct (dev_of a1 c); cbn [bind]; auto; destruct (d_st a2); auto; cbn; rewrite OS;
      destruct (o_name o); auto. }
  - auto.
  - right. rewrite E. exact D.
Qed.

(** ** IPMI consoles *)
Lemma connect_ipmi_ran P w c o d : inv P w -> nth_error (w_devs w) c = Some d -> orc_ok o -> d_kind d = Ipmi ->
  P c \/ d_st d <> Up ->
  ran (fun x => P x \/ x = c) c w (connect_ipmi_obj c o w).
Proof.
  intros I HC OO K PC. destruct (d_st d) eqn:E.
  1,2: eapply does_ran; [eassumption..|eapply connect_ipmi_does; eauto; congruence|];
    intros x X; destruct (Nat.eq_dec x c); auto; tauto.
  destruct PC as [PC|]; [|congruence]. unfold connect_ipmi_obj, dev_of. rewrite HC. cbn [bind]. rewrite E.
  eapply ran_weaken; [|apply stay; eauto]. intros x [X| ->]; auto.
Qed.

Lemma kind_after c w w' d : stepped c w w' -> nth_error (w_devs w) c = Some d ->
  exists d', nth_error (w_devs w') c = Some d' /\ d_kind d' = d_kind d.
Proof.
  intros S HC. pose proof (kind_at _ _ HC) as K. rewrite <- (s_kinds S) in K.
  destruct (nth_error (w_devs w') c) as [d'|] eqn:E.
  - exists d'. split; auto. rewrite (kind_at _ _ E) in K. congruence.
  - exfalso. rewrite nth_error_map, E in K. discriminate.
Qed.

Lemma connects_ipmi_ran os : forall P w c d, inv P w -> nth_error (w_devs w) c = Some d -> Forall orc_ok os -> d_kind d = Ipmi ->
  P c \/ d_st d <> Up ->
  exists w', connects_ipmi c os w = Ok w' /\ stepped c w w' /\
    exists Q : nat -> Prop, inv Q w' /\ (forall x, P x -> Q x)
    /\ (Q c \/ exists d', nth_error (w_devs w') c = Some d' /\ d_st d' <> Up).
Proof.
  induction os as [|o os IH]; cbn; intros P w c d I HC FO K PC.
  - exists w. split; auto. split; [apply stepped_refl|]. exists P. split; auto. split; auto. destruct PC; eauto.
  - inversion FO; subst. destruct (@connect_ipmi_ran _ _ _ o _ I HC) as (w1 & E & I1 & S1); auto. rewrite E. cbn [bind].
    destruct (kind_after S1 HC) as (d1 & D1 & K1).
    destruct (IH _ _ c d1 I1 D1) as (w2 & E2 & S2 & Q & I2 & W & PQ); auto; [congruence|].
    exists w2. split; auto. split; [eapply stepped_trans; eauto|]. exists Q. split; auto.
Qed.

Lemma hangup_ipmi_ran P w c o mid d : inv P w -> nth_error (w_devs w) c = Some d -> orc_ok o -> Forall orc_ok mid ->
  d_kind d = Ipmi -> d_st d = Up -> ran P c w (hangup c o mid w).
Proof.
  intros I HC OO OM K ST.
  assert (hangup c o mid w = do w1 <- (do w <- upd c (with_fd (-1)) w; disconnect_ipmi_obj c w);
           do w2 <- connects_ipmi c mid w1; connect_ipmi_obj c o w2) as E.
  { destruct (i_pre I _ HC) as (SH & _). unfold shape in SH. rewrite K, ST in SH.
    unfold hangup, shutdown_obj, dev_of. rewrite HC. cbn [bind]. rewrite K.
    replace (d_fd d <? 0) with false by (symmetry; apply Z.ltb_ge; lia).
    destruct (upd c (with_fd (-1)) w) eqn:U; cbn [bind]; auto.
    assert (nth_error (w_devs a) c = Some (with_fd (-1) d)) as HA.
    { unfold upd, dev_of in U. rewrite HC in U. cbn [bind] in U. injection U as <-. cbn. apply (nth_set_same _ _ _ HC). }
    unfold reopen_obj, dev_of. rewrite HA. cbn [bind]. change (d_kind (with_fd (-1) d)) with (d_kind d). rewrite K.
    unfold open_ipmi_obj, dev_of. rewrite HA. cbn [bind]. change (d_st (with_fd (-1) d)) with (d_st d). rewrite ST.
    reflexivity. }
  rewrite E. clear E.
  pose proof (@disconnect_ipmi_does _ _ _ _ I HC K ST) as D.
  destruct D as (d1 & new & es & E & F).
  assert (ran (fun x => P x /\ x <> c) c w (do w <- upd c (with_fd (-1)) w; disconnect_ipmi_obj c w)) as (w1 & E1 & I1 & S1).
  { eapply does_ran; eauto. exists d1, new, es. split; eauto. }
  assert (nth_error (w_devs w1) c = Some d1) as HC1.
  { rewrite E in E1. injection E1 as <-. cbn. apply (nth_set_same _ _ _ HC). }
  assert (d_st d1 <> Up) as ST1.
  { clear - E HC K ST. revert E. rewrite (@go w c (fun w => do w <- upd c (with_fd (-1)) w; disconnect_ipmi_obj c w) d HC).
    cbv beta. rewrite (upd_at _ _ HC). cbn [bind]. unfold disconnect_ipmi_obj.
    destruct (cancel_timer c _); cbn [bind]; [|discriminate]. destruct (dev_of a c); cbn [bind]; [|discriminate].
    destruct (if 0 <=? d_fd a0 then _ else _); cbn [bind]; [|discriminate].
    unfold upd, dev_of.
    destruct (nth_error (w_devs match d_st a0 with Up => say (Went_down c) a1 | _ => a1 end) c) eqn:N; cbn [bind]; [|discriminate].
    intros E. apply (f_equal (fun r => match r with Ok w => w_devs w | _ => [] end)) in E.
    cbn [set_dev post at_ w_devs] in E.
    assert (nth_error (set_nth (w_devs match d_st a0 with Up => say (Went_down c) a1 | _ => a1 end) c (with_st Down d0)) c
            = nth_error (set_nth (w_devs w) c d1) c) as X.
    { rewrite E. reflexivity. }
    rewrite (nth_set_same _ _ _ N), (nth_set_same _ _ _ HC) in X. injection X as <-. discriminate. }
  assert (d_kind d1 = Ipmi) as K1 by (destruct F; congruence).
  rewrite E1. cbn [bind].
  destruct (@connects_ipmi_ran _ _ _ _ _ I1 HC1 OM K1) as (w2 & E2 & S2 & Q & I2 & W2 & PQ); auto.
  rewrite E2. cbn [bind].
  destruct (kind_after S2 HC1) as (d2 & HC2 & K2).
  destruct (@connect_ipmi_ran _ _ _ o _ I2 HC2) as (w3 & E3 & I3 & S3); auto; [congruence| |].
  { destruct PQ as [|(d2' & X & Y)]; auto. right. congruence. }
  exists w3. split; auto. split.
  - eapply inv_weaken; [|exact I3]. intros x X. destruct (Nat.eq_dec x c); auto.
  - eapply stepped_trans; [exact S1|]. eapply stepped_trans; eauto.
Qed.

(** ** Events *)
Lemma may_ran (P Q : nat -> Prop) o r c w d : inv P w -> nth_error (w_devs w) c = Some d -> may o r (does true r c w d) ->
  (forall x, Q x -> (P x /\ x <> c) \/ x = c) -> may o r (ran Q c w r).
Proof.
  intros I HC [X|X] W; [left; auto|right]. eapply does_ran; eauto.
  intros x Y. destruct (W x Y); auto.
Qed.

Definition all (_ : nat) : Prop := True.

Lemma fire_ran w id o : inv all w -> orc_ok o ->
  may o (fire id o w) (fire id o w = Ok w \/ exists t, In t (w_timers w) /\ t_id t = id /\ t_due t <= w_now w /\ ran all (t_con t) w (fire id o w)).
Proof.
  intros I OO. unfold fire. destruct (find _ _) as [t|] eqn:F; [|right; auto].
  apply find_timer in F. destruct F as [T E]. subst id.
  destruct (Z.ltb_spec (w_now w) (t_due t)) as [|DUE]; [right; auto|].
  destruct (i_own I _ T) as (d & HC & TD). pose proof (@timer_tok _ _ _ _ I Logic.I T HC) as TK.
  pose proof (@cancel_inv _ _ _ I T) as I1. set (w1 := cancel (t_id t) w) in *.
  assert (nth_error (w_devs w1) (t_con t) = Some d) as HC1 by exact HC.
  assert (drop (d_timer d) (w_timers w1) = w_timers w1) as DR.
  { unfold w1. rewrite cancel_drop, TD. apply drop_drop. }
  assert (stepped (t_con t) w w1) as S1.
  { constructor; auto; [exists []; split; auto|]. intros x NX X. apply filter_In. split; auto.
    apply negb_true_iff, Z.eqb_neq. intros EQ. apply NX. apply (@i_sep _ _ I (t_con t) d x); auto. congruence. }
  assert (forall r, ran all (t_con t) w1 r -> ran all (t_con t) w r) as UP.
  { intros r (w2 & E & I2 & S2). exists w2. split; auto. split; auto. eapply stepped_trans; eauto. }
  assert (forall x, all x -> ((all x /\ x <> t_con t) /\ x <> t_con t) \/ x = t_con t) as W.
  { intros x _. destruct (Nat.eq_dec x (t_con t)); auto. left. unfold all. auto. }
  assert (forall r, may o r (does true r (t_con t) w1 d) -> may o r (ran all (t_con t) w r)) as GO.
  { intros r M. destruct (@may_ran _ _ _ _ _ _ _ I1 HC1 M W) as [|R]; [left; auto|right; auto]. }
  assert (w_log w1 = w_log w) as EL by reflexivity. assert (w_now w1 = w_now w) as EN by reflexivity.
  clearbody w1. cbv zeta. unfold dev_of. rewrite HC1. cbn [bind].
  assert (forall r, may o r (ran all (t_con t) w r) -> may o r (r = Ok w \/ exists t0, In t0 (w_timers w) /\ t_id t0 = t_id t /\ t_due t0 <= w_now w /\ ran all (t_con t0) w r)) as FIN.
  { intros r [M|M]; [left; auto|right; right; exists t; auto]. }
  apply FIN. clear FIN. unfold tok in TK.
  destruct (t_cb t).
  - destruct TK as (ST & KS & _). destruct (i_pre I _ HC) as (SH & _). unfold shape in SH.
    assert (d_st d <> Up) as NU by (destruct (d_st d); cbn in ST; congruence).
    destruct (d_kind d) eqn:K; [| | | |congruence]; apply GO.
    + eapply connect_telnet_may; eauto.
    + right. eapply open_process_does; eauto. destruct (d_st d); tauto || congruence.
    + right. eapply connect_unixsock_does; eauto.
    + right. eapply connect_ipmi_does; eauto.
  - destruct TK as (ST & KS & t0 & LN & TDUE). apply GO. right. eapply reset_delay_does; eauto.
    + destruct (d_st d); cbn in ST; congruence.
    + rewrite EL. exact LN.
    + rewrite EN. lia.
Qed.

Lemma exists_dev w c : (c < length (w_devs w))%nat -> exists d, nth_error (w_devs w) c = Some d.
Proof. intros L. destruct (nth_error (w_devs w) c) eqn:E; eauto. apply nth_error_None in E. lia. Qed.

Lemma may_all o r c w d : inv all w -> nth_error (w_devs w) c = Some d -> may o r (does true r c w d) ->
  may o r (ran all c w r).
Proof.
  intros I HC M. eapply may_ran; eauto. intros x _. destruct (Nat.eq_dec x c); auto. left. split; auto. exact Logic.I.
Qed.

Lemma reopen_down w c o d : inv all w -> nth_error (w_devs w) c = Some d -> orc_ok o -> d_st d = Down ->
  may o (reopen_obj c o [] w) (does true (reopen_obj c o [] w) c w d).
Proof.
  intros I HC OO ST. unfold reopen_obj, dev_of. rewrite HC. cbn [bind]. destruct (d_kind d) eqn:K.
  - eapply open_telnet_may; eauto. congruence.
  - right. eapply open_process_does; eauto.
  - right. eapply open_unixsock_does; eauto. congruence.
  - right. unfold open_ipmi_obj, dev_of. rewrite HC. cbn [bind]. rewrite ST. eapply connect_ipmi_does; eauto. congruence.
  - right. eapply open_serial_does; eauto.
Qed.

Lemma hangup_ran w c o mid : inv all w -> (c < length (w_devs w))%nat -> orc_ok o -> Forall orc_ok mid ->
  ran all c w (hangup c o mid w).
Proof.
  intros I L OO OM. destruct (exists_dev _ L) as (d & HC). destruct (i_pre I _ HC) as (SH & _). unfold shape in SH.
  assert (d_fd d <? 0 = true -> shutdown_obj c o mid w = Ok w) as NOFD.
  { intros N. unfold shutdown_obj, dev_of. rewrite HC. cbn [bind]. rewrite N. reflexivity. }
  assert (d_fd d = -1 -> shutdown_obj c o mid w = Ok w) as NOFD' by (intros X; apply NOFD; rewrite X; reflexivity).
  destruct (d_kind d) eqn:K; destruct (d_st d) eqn:ST; try tauto.
  all: try (eapply does_true; [eassumption..|]; first [now eapply hangup_telnet_does; eauto
     | now eapply hangup_process_does; eauto | now eapply hangup_unixsock_does; eauto | now eapply hangup_serial_does; eauto]).
  all: try (now eapply hangup_ipmi_ran; eauto).
  all: unfold hangup, dev_of; rewrite HC; cbn [bind]; rewrite K, ?ST.
  all: try (rewrite NOFD' by tauto); now apply stay.
Qed.

Lemma writable_may w c o : inv all w -> (c < length (w_devs w))%nat -> orc_ok o ->
  may o (writable c o w) (ran all c w (writable c o w)).
Proof.
  intros I L OO. destruct (exists_dev _ L) as (d & HC). unfold writable, dev_of. rewrite HC. cbn [bind].
  destruct (d_fd d <? 0); [right; now apply stay|].
  destruct (d_kind d) eqn:K; try (right; now apply stay). destruct (d_st d) eqn:ST; try (right; now apply stay).
  eapply may_all; eauto. eapply open_telnet_may; eauto. congruence.
Qed.

Lemma client_may w c o : inv all w -> (c < length (w_devs w))%nat -> orc_ok o ->
  may o (check_console_state c o w) (ran all c w (check_console_state c o w)).
Proof.
  intros I L OO. destruct (exists_dev _ L) as (d & HC).
  destruct (i_pre I _ HC) as (SH & _). unfold shape in SH. 
  destruct (d_kind d) eqn:K.
  - destruct (d_st d) eqn:ST.
    1,2: eapply may_all; eauto; eapply client_telnet_may; eauto; congruence.
    right. unfold check_console_state, dev_of. rewrite HC. cbn [bind]. rewrite K, ST. now apply stay.
  - unfold check_console_state, dev_of. rewrite HC. cbn [bind]. rewrite K. destruct (Z.ltb_spec (d_fd d) 0).
    + eapply may_all; eauto. right. eapply open_process_does; eauto. destruct (d_st d); auto; tauto || lia.
    + right; now apply stay.
  - unfold check_console_state, dev_of. rewrite HC. cbn [bind]. rewrite K. destruct (Z.ltb_spec (d_fd d) 0).
    + assert (d_st d = Down) as ST by (destruct (d_st d); auto; tauto || lia). rewrite ST. cbn [assert_ bind].
      eapply may_all; eauto. right. eapply open_unixsock_does; eauto. congruence.
    + right; now apply stay.
  - unfold check_console_state, dev_of. rewrite HC. cbn [bind]. rewrite K. destruct (d_st d) eqn:ST; try (right; now apply stay).
    unfold open_ipmi_obj, dev_of. rewrite HC. cbn [bind]. rewrite ST.
    eapply may_all; eauto. right. eapply connect_ipmi_does; eauto. congruence.
  - unfold check_console_state, dev_of. rewrite HC. cbn [bind]. rewrite K. destruct (Z.ltb_spec (d_fd d) 0).
    + eapply may_all; eauto. right. eapply open_serial_does; eauto. destruct (d_st d); auto; tauto || lia.
    + right; now apply stay.
Qed.

Lemma created_ran w c o : inv all w -> (c < length (w_devs w))%nat -> orc_ok o ->
  ran all c w (step (Created c o) w).
Proof.
  intros I L OO. destruct (exists_dev _ L) as (d & HC). cbn [step]. unfold dev_of. rewrite HC. cbn [bind].
  destruct (d_kind d) eqn:K; try now apply stay. eapply does_true; eauto. eapply created_unixsock_does; eauto.
Qed.

Lemma engine_ran w c o : inv all w -> (c < length (w_devs w))%nat -> orc_ok o ->
  ran all c w (step (Engine c o) w).
Proof.
  intros I L OO. destruct (exists_dev _ L) as (d & HC). cbn [step]. unfold dev_of. rewrite HC. cbn [bind].
  destruct (d_kind d) eqn:K; try now apply stay.
  eapply ran_weaken; [|eapply connect_ipmi_ran; eauto]; [cbn; intros; exact (or_introl Logic.I)|].
  left; exact Logic.I.
Qed.

Lemma tick_inv P w ms : 0 <= ms -> inv P w -> inv P (mkWorld (w_now w + ms) (w_devs w) (w_timers w) (w_next w) (w_log w)).
Proof.
  intros M [i1 i2 i3 i4 i5 i6 i7 i8 i9]. constructor; cbn; auto. intros c d PC HC. specialize (i8 _ _ PC HC).
  destruct i8 as [A B]. split; auto. eapply Forall_impl; [|exact A]. cbn. unfold tok. intros t.
  destruct (t_cb t); auto. intros (X & Y & t0 & ms0 & Z1 & Z2 & Z3 & Z4). split; auto. split; auto.
  exists t0, ms0. auto with zarith.
Qed.

(** the oracle of an event *)
Definition orc_of (e : event) : option orc :=
  match e with
  | Tick _ => None
  | Fire _ o | Hangup _ o _ | Writable _ o | Client _ o | Created _ o | Engine _ o => Some o
  end.

Lemma step_inv e w : inv all w -> event_ok (length (w_devs w)) e ->
  (step e w = UB Fatal /\ exists o, orc_of e = Some o /\ o_sock o = false)
  \/ exists w', step e w = Ok w' /\ inv all w' /\ map d_kind (w_devs w') = map d_kind (w_devs w) /\ w_now w <= w_now w'
       /\ exists new, w_log w' = new ++ w_log w /\ Forall (fun x => fst x = w_now w) new.
Proof.
  intros I E.
  assert (forall o c r, orc_of e = Some o -> may o r (ran all c w r) ->
    (r = UB Fatal /\ exists o, orc_of e = Some o /\ o_sock o = false)
    \/ exists w', r = Ok w' /\ inv all w' /\ map d_kind (w_devs w') = map d_kind (w_devs w) /\ w_now w <= w_now w'
       /\ exists new, w_log w' = new ++ w_log w /\ Forall (fun x => fst x = w_now w) new) as GO.
  { intros o c r OE [[X Y]|(w' & X & Y & S)]; [left; eauto|right]. exists w'. split; auto. split; auto.
    split; [apply (s_kinds S)|]. split; [rewrite (s_now S); lia|].
    destruct (s_log S) as (es & L & _). exists (stamp (w_now w) es). split; auto.
    unfold stamp. apply Forall_forall. intros x X'. apply in_map_iff in X'. destruct X' as (y & <- & _). reflexivity. }
  destruct e as [ms|id o|c o mid|c o|c o|c o|c o]; cbn [event_ok] in E.
  - right. cbn [step]. eexists. split; [reflexivity|].
    destruct (Z.ltb_spec 0 ms).
    + split; [apply tick_inv; auto; lia|]. cbn. split; auto. split; [lia|]. exists []; split; [reflexivity|constructor].
    + split; auto. split; auto. split; [lia|]. exists []; split; [reflexivity|constructor].
  - cbn [step]. destruct (fire_ran id I E) as [X|[X|(t & T & _ & _ & R)]].
    + left. destruct X. split; auto. exists o. auto.
    + right. exists w. split; auto. split; auto. split; auto. split; [lia|]. exists []; split; [reflexivity|constructor].
    + eapply GO; [reflexivity|right; exact R].
  - destruct E as (L & OO & OM). eapply GO; [reflexivity|]. right. apply hangup_ran; auto.
  - destruct E as (L & OO). eapply GO; [reflexivity|]. apply writable_may; auto.
  - destruct E as (L & OO). eapply GO; [reflexivity|]. apply client_may; auto.
  - destruct E as (L & OO). eapply GO; [reflexivity|]. right. apply created_ran; auto.
  - destruct E as (L & OO). eapply GO; [reflexivity|]. right. apply engine_ran; auto.
Qed.

Lemma run_inv es : forall w w', inv all w -> Forall (event_ok (length (w_devs w))) es -> run es w = Ok w' ->
  inv all w' /\ map d_kind (w_devs w') = map d_kind (w_devs w) /\ w_now w <= w_now w'.
Proof.
  induction es as [|e es IH]; cbn [run]; intros w w' I F R.
  - injection R as <-. split; auto. split; auto. lia.
  - inversion F; subst. destruct (@step_inv e w I) as [[X _]|(w1 & E & I1 & K & N & _)]; auto.
    + rewrite X in R. discriminate.
    + rewrite E in R. cbn [bind] in R. destruct (IH w1 w') as (I2 & K2 & N2); auto.
      { replace (length (w_devs w1)) with (length (w_devs w)); auto. rewrite <- (map_length d_kind), <- K, map_length. reflexivity. }
      split; auto. split; [congruence|lia].
Qed.

Lemma run_safe es : forall w, inv all w -> Forall (event_ok (length (w_devs w))) es -> Forall sockets_left es ->
  exists w', run es w = Ok w'.
Proof.
  induction es as [|e es IH]; cbn [run]; intros w I F S; eauto.
  inversion F; inversion S; subst. destruct (@step_inv e w I) as [[X (o & OE & OS)]|(w1 & E & I1 & K & N & _)]; auto.
  - exfalso. destruct e; cbn in *; try discriminate; congruence.
  - rewrite E. cbn [bind]. apply IH; auto.
    replace (length (w_devs w1)) with (length (w_devs w)); auto. rewrite <- (map_length d_kind), <- K, map_length. reflexivity.
Qed.

(** ** Starting *)
Lemma start_inv now ks : inv (fun _ => False) (mkWorld now (map create ks) [] 1 []).
Proof.
  constructor; cbn; auto using NoDup_nil; try tauto; try lia.
  - intros c d D. apply nth_error_In, in_map_iff in D. destruct D as (k & <- & _). cbn. lia.
  - intros c d D. apply nth_error_In, in_map_iff in D. destruct D as (k & <- & _).
    unfold vpre, shape. destruct k; cbn; repeat split; auto; try congruence.
Qed.

Lemma open_objs_inv os : forall i w w', inv (fun x => (x < i)%nat) w -> Forall orc_ok os ->
  (forall c d, (i <= c)%nat -> nth_error (w_devs w) c = Some d -> d_st d = Down) ->
  (i + length os <= length (w_devs w))%nat ->
  open_objs i os w = Ok w' ->
  inv (fun x => (x < i + length os)%nat) w' /\ map d_kind (w_devs w') = map d_kind (w_devs w) /\ w_now w' = w_now w.
Proof.
  induction os as [|o os IH]; cbn [open_objs length]; intros i w w' I FO DN LE R.
  - injection R as <-. split; auto. eapply inv_weaken; [|exact I]. cbn. lia.
  - inversion FO; subst. destruct (@exists_dev w i) as (d & HC); [lia|].
    assert (d_st d = Down) as ST by (eapply DN; eauto).
    assert (may o (reopen_obj i o [] w) (does true (reopen_obj i o [] w) i w d)) as M.
    { unfold reopen_obj, dev_of. rewrite HC. cbn [bind]. destruct (d_kind d) eqn:K.
      - eapply open_telnet_may; eauto. congruence.
      - right. eapply open_process_does; eauto.
      - right. eapply open_unixsock_does; eauto. congruence.
      - right. unfold open_ipmi_obj, dev_of. rewrite HC. cbn [bind]. rewrite ST. eapply connect_ipmi_does; eauto. congruence.
      - right. eapply open_serial_does; eauto. }
    destruct M as [[X _]|D]; [rewrite X in R; discriminate|].
    assert (ran (fun x => (x < S i)%nat) i w (reopen_obj i o [] w)) as (w1 & E & I1 & S1).
    { eapply does_ran; eauto. cbn. intros x X. destruct (Nat.eq_dec x i); auto. left. split; auto. lia. }
    rewrite E in R. cbn [bind] in R.
    assert (length (w_devs w1) = length (w_devs w)) as LW.
    { rewrite <- (map_length d_kind), (s_kinds S1), map_length. reflexivity. }
    destruct (IH (S i) w1 w') as (I2 & K2 & N2); auto.
    + intros c d1 L D1. rewrite (s_other S1) in D1 by lia. apply (DN c d1); [lia|auto].
    + rewrite LW. lia.
    + split; [|split; [rewrite K2; apply (s_kinds S1)|rewrite N2; apply (s_now S1)]].
      eapply inv_weaken; [|exact I2]. cbn. intros. lia.
Qed.

Lemma beyond P w : inv (fun x => (x < length (w_devs w))%nat) w -> inv P w.
Proof.
  intros [i1 i2 i3 i4 i5 i6 i7 i8 i9]. constructor; auto. intros c d _ HC. apply i8; auto.
  apply nth_error_Some. congruence.
Qed.

Lemma boot_inv now ks w : Forall (fun k => orc_ok (snd k)) ks -> boot now ks = Ok w ->
  inv all w /\ map d_kind (w_devs w) = map fst ks /\ w_now w = now.
Proof.
  intros F B. unfold boot in B.
  assert (map d_kind (map (fun k => create (fst k)) ks) = map fst ks) as KE by (rewrite map_map; reflexivity).
  set (w0 := mkWorld now (map (fun k => create (fst k)) ks) [] 1 []) in *.
  destruct (@open_objs_inv (map snd ks) 0 w0 w) as (I & K & N); auto; unfold w0 in *; clear w0.
  - eapply inv_weaken; [|rewrite <- (map_map fst create); apply start_inv]. intros x X; inversion X.
  - apply Forall_forall. intros o O. apply in_map_iff in O. destruct O as (k & <- & KI).
    rewrite Forall_forall in F. auto.
  - cbn. intros c d _ D. apply nth_error_In, in_map_iff in D. destruct D as (k & <- & _). reflexivity.
  - cbn. rewrite !map_length. lia.
  - cbn [w_devs] in K. rewrite KE in K. split; auto. apply beyond.
    eapply inv_weaken; [|exact I]. cbn.
    replace (length (w_devs w)) with (length ks); [rewrite map_length; auto|].
    rewrite <- (map_length d_kind (w_devs w)), K, map_length. reflexivity.
Qed.

Lemma boot_safe now ks : Forall (fun k => orc_ok (snd k)) ks -> Forall (fun k => o_sock (snd k) = true) ks ->
  exists w, boot now ks = Ok w.
Proof.
  intros F FS. unfold boot.
  assert (forall os i w, inv (fun x => (x < i)%nat) w -> Forall orc_ok os -> Forall (fun o => o_sock o = true) os ->
    (forall c d, (i <= c)%nat -> nth_error (w_devs w) c = Some d -> d_st d = Down) ->
    (i + length os <= length (w_devs w))%nat -> exists w', open_objs i os w = Ok w') as H.
  { induction os as [|o os IH]; cbn [open_objs length]; intros i w I FO SO DN LE; eauto.
    inversion FO; inversion SO; subst. destruct (@exists_dev w i) as (d & HC); [lia|].
    assert (d_st d = Down) as ST by (eapply DN; eauto).
    assert (does true (reopen_obj i o [] w) i w d) as D.
    { unfold reopen_obj, dev_of. rewrite HC. cbn [bind]. destruct (d_kind d) eqn:K.
      - eapply open_telnet_does; eauto. congruence.
      - eapply open_process_does; eauto.
      - eapply open_unixsock_does; eauto. congruence.
      - unfold open_ipmi_obj, dev_of. rewrite HC. cbn [bind]. rewrite ST. eapply connect_ipmi_does; eauto. congruence.
      - eapply open_serial_does; eauto. }
    assert (ran (fun x => (x < S i)%nat) i w (reopen_obj i o [] w)) as (w1 & E & I1 & S1).
    { eapply does_ran; eauto. cbn. intros x X. destruct (Nat.eq_dec x i); auto. left. split; auto. lia. }
    rewrite E. cbn [bind].
    assert (length (w_devs w1) = length (w_devs w)) as LW.
    { rewrite <- (map_length d_kind), (s_kinds S1), map_length. reflexivity. }
    apply IH; auto.
    + intros c d1 L D1. rewrite (s_other S1) in D1 by lia. apply (DN c d1); [lia|auto].
    + rewrite LW. lia. }
  apply H.
  - eapply inv_weaken; [|rewrite <- (map_map fst create); apply start_inv]. intros x X; inversion X.
  - apply Forall_forall. intros o O. apply in_map_iff in O. destruct O as (k & <- & KI). rewrite Forall_forall in F. auto.
  - apply Forall_forall. intros o O. apply in_map_iff in O. destruct O as (k & <- & KI). rewrite Forall_forall in FS. auto.
  - cbn. intros c d _ D. apply nth_error_In, in_map_iff in D. destruct D as (k & <- & _). reflexivity.
  - cbn. rewrite !map_length. lia.
Qed.

Lemma reached_inv start ks es w : reached start ks es w ->
  inv all w /\ map d_kind (w_devs w) = map fst ks /\ length (w_devs w) = length ks.
Proof.
  intros (FK & FE & w0 & B & R). destruct (boot_inv _ FK B) as (I0 & K0 & N0).
  assert (length (w_devs w0) = length ks) as L0 by (rewrite <- (map_length d_kind (w_devs w0)), K0, map_length; auto).
  destruct (@run_inv es w0 w) as (I & K & _); auto; [rewrite L0; auto|].
  split; auto. split; [congruence|]. rewrite <- (map_length d_kind (w_devs w)), K, K0, map_length. reflexivity.
Qed.
