(** A console is announced to be connected only if its connection was made. *)
From Verif Require Import Base ReconnModel ReconnSpec ReconnProof ReconnExec ReconnInv.
Set Implicit Arguments.
Open Scope Z_scope.

Definition stk (w : world) (c : nat) : option (kind * cstate) := option_map (fun d => (d_kind d, d_st d)) (nth_error (w_devs w) c).
Definition only (c : nat) (w : world) (r : res world) (P : Prop) : Prop :=
  forall w', r = Ok w' -> ups c (w_log w') = ups c (w_log w) \/ P.

Lemma only_bind c w r k P : only c w r P -> (forall w1, r = Ok w1 -> only c w1 (k w1) P) -> only c w (do x <- r; k x) P.
Proof.
  intros A B w' E. destruct r as [w1|]; [|discriminate]. cbn [bind] in E.
  destruct (B w1 eq_refl w' E) as [X|X]; [|auto]. destruct (A w1 eq_refl) as [Y|Y]; [left; congruence | auto].
Qed.
Lemma only_ok c w w1 P : ups c (w_log w1) = ups c (w_log w) -> only c w (Ok w1) P.
Proof. intros E w' X. injection X as <-. auto. Qed.
Lemma only_weaken c w r (P Q : Prop) : (P -> Q) -> only c w r P -> only c w r Q.
Proof. intros PQ O w' E. destruct (O w' E); auto. Qed.
Lemma only_say c w r e P : (forall x, e <> Came_up x) -> only c (say e w) r P -> only c w r P.
Proof.
  intros NE O w' E. destruct (O w' E) as [X|X]; [|auto]. left. rewrite X. cbn [say w_log ups]. destruct e; auto. exfalso. eapply NE. reflexivity.
Qed.

(** [w1] has the same announcements, and states, as [w] *)
Definition same (w w1 : world) : Prop := w_log w1 = w_log w /\ forall c, stk w1 c = stk w c.
Lemma stk_set w x d f : nth_error (w_devs w) x = Some d -> d_kind (f d) = d_kind d -> d_st (f d) = d_st d -> forall c, stk (set_dev w x (f d)) c = stk w c.
Proof.
  intros N K S c. unfold stk. cbn [set_dev w_devs]. destruct (Nat.eq_dec x c) as [->|NE].
  - rewrite (nth_set_same _ _ _ N), N. cbn. congruence.
  - rewrite nth_set_other by auto. reflexivity.
Qed.
Lemma upd_same x f w w1 : (forall d, d_kind (f d) = d_kind d /\ d_st (f d) = d_st d) -> upd x f w = Ok w1 -> same w w1.
Proof.
  intros F E. unfold upd, dev_of in E. destruct (nth_error (w_devs w) x) as [d|] eqn:N; [|discriminate]. cbn [bind] in E. injection E as <-.
  split; [reflexivity|]. apply stk_set; [exact N | apply F | apply F].
Qed.
Lemma cancel_same x w w1 : cancel_timer x w = Ok w1 -> same w w1.
Proof.
  unfold cancel_timer. destruct (dev_of w x) as [d|]; [|discriminate]. cbn [bind]. destruct (0 <=? d_timer d); intros E.
  - apply upd_same in E; [|intros d0; destruct d0; auto]. destruct E as (L & S). split; [exact L|]. intros c. rewrite S. reflexivity.
  - injection E as <-. split; auto.
Qed.
Lemma arm_log x cb ms w w1 : arm x cb ms w = Ok w1 -> w_log w1 = w_log w.
Proof.
  unfold arm. destruct (upd x _ w) as [w0|] eqn:U; [|discriminate]. cbn [bind]. intros E. injection E as <-. cbn.
  apply upd_same in U; [apply U | intros d; destruct d; auto].
Qed.
Lemma upd_log x f w w1 : upd x f w = Ok w1 -> w_log w1 = w_log w.
Proof. unfold upd. destruct (dev_of w x); [|discriminate]. cbn [bind]. intros E. injection E as <-. reflexivity. Qed.
Lemma only_upd c x f w P : only c w (upd x f w) P.
Proof. intros w' E. rewrite (upd_log _ _ _ E). auto. Qed.
Lemma only_arm c x cb ms w P : only c w (arm x cb ms w) P.
Proof. intros w' E. rewrite (arm_log _ _ _ _ E). auto. Qed.
Lemma only_cancel c x w P : only c w (cancel_timer x w) P.
Proof. intros w' E. rewrite (proj1 (cancel_same _ _ E)). auto. Qed.
Lemma only_dev c x w (k : dev -> res world) P : (forall d, nth_error (w_devs w) x = Some d -> only c w (k d) P) -> only c w (do d <- dev_of w x; k d) P.
Proof. intros A. unfold dev_of. destruct (nth_error (w_devs w) x) as [d|]; [cbn [bind]; auto|]. intros w' E. discriminate E. Qed.
Lemma only_assert c w b (k : res world) P : only c w k P -> only c w (do _ <- assert_ b; k) P.
Proof. intros A. destruct b; cbn; [exact A | intros w' E; discriminate E]. Qed.

Lemma only_from c w w0 r P : ups c (w_log w0) = ups c (w_log w) -> only c w0 r P -> only c w r P.
Proof. intros E O w' X. destruct (O w' X); [left; congruence | auto]. Qed.
Ltac on1 := first
  [ apply only_cancel | apply only_ok; reflexivity
  | match goal with |- only _ _ ?r _ => match r with context [match d_st ?d with _ => _ end] => destruct (d_st d) eqn:? end end
  | match goal with |- only _ _ (arm _ _ _ ?w) _ => apply only_from with (w0 := w); [reflexivity | apply only_arm] end
  | match goal with |- only _ _ (upd _ _ ?w) _ => apply only_from with (w0 := w); [reflexivity | apply only_upd] end
  | match goal with |- only _ _ (do _ <- assert_ _; _) _ => apply only_assert end
  | match goal with |- only _ _ (do _ <- dev_of _ _; _) _ => apply only_dev; intros ? ? end
  | match goal with |- only _ _ (do _ <- _; _) _ => apply only_bind; [|intros ? ?] end
  | match goal with |- only _ _ (if ?b then _ else _) _ => destruct b eqn:? end ].

Lemma telnet_down c x w P : only c w (disconnect_telnet_obj x w) P.
Proof. unfold disconnect_telnet_obj. cbv zeta. repeat on1. Qed.
Lemma process_down c x w P : only c w (disconnect_process_obj x w) P.
Proof. unfold disconnect_process_obj. cbv zeta. repeat on1. Qed.
Lemma unixsock_down c x w P : only c w (disconnect_unixsock_obj x w) P.
Proof. unfold disconnect_unixsock_obj. cbv zeta. repeat on1. Qed.
Lemma ipmi_down c x w P : only c w (disconnect_ipmi_obj x w) P.
Proof. unfold disconnect_ipmi_obj. cbv zeta. repeat on1. Qed.
Lemma ipmi_failed c x w P : only c w (fail_ipmi_connect x w) P.
Proof. unfold fail_ipmi_connect. cbv zeta. repeat on1. Qed.

(** the announcement itself *)
Lemma up_arm c x cb ms w : only c w (arm x cb ms (say (Came_up x) w)) (x = c).
Proof.
  intros w' E. rewrite (arm_log _ _ _ _ E). cbn [say w_log ups]. destruct (Nat.eqb_spec x c); auto.
Qed.
Lemma up_ok c x w : only c w (Ok (say (Came_up x) w)) (x = c).
Proof. intros w' E. injection E as <-. cbn [say w_log ups]. destruct (Nat.eqb_spec x c); auto. Qed.
Lemma telnet_up_only c x w : only c w (telnet_up x w) (x = c).
Proof. unfold telnet_up. apply only_bind; [apply only_upd|]. intros w1 _. apply up_arm. Qed.

Definition at_st (w : world) (c : nat) (s : cstate) : Prop := exists k, stk w c = Some (k, s).
Lemma at_st_of w c d : nth_error (w_devs w) c = Some d -> at_st w c (d_st d).
Proof. intros N. exists (d_kind d). unfold stk. rewrite N. reflexivity. Qed.
Definition tel (w : world) (c : nat) (o : orc) : Prop :=
  (at_st w c Pending /\ o_sockerr o = false) \/ (at_st w c Down /\ o_name o = true /\ o_sock o = true /\ o_conn o = CDone).

Lemma same_st w w1 c s : same w w1 -> at_st w1 c s -> at_st w c s.
Proof. intros (_ & S) (k & E). exists k. rewrite <- S. exact E. Qed.
Lemma same_tel w w1 c o : same w w1 -> tel w1 c o -> tel w c o.
Proof. intros S [(A & B)|(A & B)]; [left | right]; split; auto; eapply same_st; eauto. Qed.

Lemma telnet_connect c x o w : only c w (connect_telnet_obj x o w) (x = c /\ tel w c o).
Proof.
  unfold connect_telnet_obj. apply only_bind; [apply only_cancel|]. intros w1 E1. pose proof (cancel_same _ _ E1) as S1.
  apply only_dev. intros d N.
  assert (AT : x = c -> at_st w c (d_st d)) by (intros ->; eapply same_st; [exact S1 | exact (at_st_of _ _ N)]).
  cbv zeta. destruct (d_st d).
  - apply only_say with (e := Try x); [intros ?; discriminate|]. destruct (o_name o) eqn:ON; [|repeat on1].
    destruct (o_sock o) eqn:OS; [|intros w' X; discriminate X]. apply only_bind; [apply only_upd|]. intros w2 _.
    destruct (o_conn o) eqn:OC; [|apply only_upd | apply telnet_down].
    eapply only_weaken; [|apply telnet_up_only]. intros X. split; [exact X|]. right. auto.
  - destruct (o_sockerr o) eqn:OE; [apply telnet_down|].
    eapply only_weaken; [|apply telnet_up_only]. intros X. split; [exact X|]. left. auto.
  - intros w' X. discriminate X.
Qed.
Lemma telnet_open c x o w : only c w (open_telnet_obj x o w) (x = c /\ tel w c o).
Proof. unfold open_telnet_obj. apply only_dev. intros d _. destruct (d_st d); [apply telnet_connect | apply telnet_connect | apply telnet_down]. Qed.

Definition only2 (c : nat) (w : world) (r : res (bool * world)) (P : Prop) : Prop :=
  forall b w', r = Ok (b, w') -> ups c (w_log w') = ups c (w_log w) \/ P.
Lemma only2_bind c w r k P : only2 c w r P -> (forall b w1, r = Ok (b, w1) -> only c w1 (k (b, w1)) P) -> only c w (do x <- r; k x) P.
Proof.
  intros A B w' E. destruct r as [(b & w1)|]; [|discriminate]. cbn [bind] in E.
  destruct (B b w1 eq_refl w' E) as [X|X]; [|auto]. destruct (A b w1 eq_refl) as [Y|Y]; [left; congruence | auto].
Qed.

Lemma process_connect c x o w : only2 c w (connect_process_obj x o w) (x = c /\ o_dev o = true /\ o_sock o = true /\ o_fork o = true).
Proof.
  unfold connect_process_obj. intros b w' E. destruct (dev_of w x) as [d|]; [|discriminate]. cbn [bind] in E.
  destruct (d_fd d =? -1); [|discriminate]. destruct (d_pid d =? -1); [|discriminate]. destruct (match d_st d with Up => false | _ => true end); [|discriminate].
  cbn [assert_ bind] in E. cbv zeta in E. destruct (o_dev o), (o_sock o), (o_fork o); cbn [andb] in E; try (injection E as <- <-; left; reflexivity).
  destruct (upd x _ _) as [w1|] eqn:U; [|discriminate]. cbn [bind] in E. destruct (arm x _ _ _) as [w2|] eqn:A; [|discriminate]. cbn [bind] in E.
  injection E as <- <-. apply arm_log in A. apply upd_log in U. cbn [say w_log ups]. rewrite A. cbn [say w_log ups]. rewrite U. cbn [say w_log ups].
  destruct (Nat.eqb_spec x c); auto.
Qed.
Lemma process_open c x o w : only c w (open_process_obj x o w) (x = c /\ o_dev o = true /\ o_sock o = true /\ o_fork o = true).
Proof.
  unfold open_process_obj. apply only_bind; [apply only_cancel|]. intros w1 _. apply only_dev. intros d _. apply only2_bind.
  - destruct (d_st d).
    + apply process_connect.
    + intros b w' E. injection E as <- <-. auto.
    + intros b w' E. destruct (disconnect_process_obj x w1) as [w2|] eqn:D; [|discriminate]. cbn [bind] in E. injection E as <- <-.
      exact (@process_down c x w1 _ w2 D).
  - intros b w2 _. cbv beta iota. destruct b; [apply only_ok; reflexivity|]. repeat on1.
Qed.
Lemma unixsock_connect c x o w : only c w (connect_unixsock_obj x o w) (x = c /\ o_dev o = true /\ o_sock o = true /\ o_conn o = CDone).
Proof.
  unfold connect_unixsock_obj. apply only_dev. intros d _. apply only_assert. cbv zeta. apply only_bind; [apply only_upd|]. intros w1 _.
  apply only_bind; [apply only_cancel|]. intros w2 _. apply only_say with (e := Try x); [intros ?; discriminate|].
  destruct (o_dev o); [|apply unixsock_down]. destruct (o_sock o).
  - apply only_bind; [apply only_upd|]. intros w3 _. destruct (o_conn o).
    + apply only_bind; [apply only_upd|]. intros w4 _. eapply only_weaken; [|apply up_arm]. auto.
    + apply only_bind; [|intros; apply unixsock_down]. repeat on1.
    + apply only_bind; [|intros; apply unixsock_down]. repeat on1.
  - apply only_bind; [apply only_upd|]. intros. apply unixsock_down.
Qed.
Lemma unixsock_open c x o w : only c w (open_unixsock_obj x o w) (x = c /\ o_dev o = true /\ o_sock o = true /\ o_conn o = CDone).
Proof. unfold open_unixsock_obj. apply only_dev. intros d _. destruct (d_st d); [apply unixsock_connect | apply unixsock_connect | apply unixsock_down]. Qed.

Lemma ipmi_start c x o w P : only2 c w (initiate_ipmi_connect x o w) P.
Proof.
  unfold initiate_ipmi_connect. cbv zeta. intros b w' E. destruct (upd x _ _) as [w1|] eqn:U; [|discriminate]. cbn [bind] in E. apply upd_log in U.
  destruct (o_sock o && o_fork o).
  - destruct (upd x (with_st Pending) w1) as [w2|] eqn:U2; [|discriminate]. cbn [bind] in E. destruct (dev_of w2 x); [|discriminate]. cbn [bind] in E.
    destruct (assert_ _); [|discriminate]. cbn [bind] in E. destruct (arm x _ _ _) as [w3|] eqn:A; [|discriminate]. cbn [bind] in E. injection E as <- <-.
    apply arm_log in A. apply upd_log in U2. left. rewrite A. cbn [say w_log ups]. rewrite U2, U. reflexivity.
  - injection E as <- <-. left. rewrite U. reflexivity.
Qed.
Lemma ipmi_complete c x o w : only2 c w (complete_ipmi_connect x o w) (x = c /\ o_sockerr o = false).
Proof.
  unfold complete_ipmi_connect. intros b w' E. destruct (dev_of w x) as [d|]; [|discriminate]. cbn [bind] in E.
  destruct (o_sockerr o); [rewrite orb_true_r in E; injection E as <- <-; auto|]. rewrite orb_false_r in E.
  destruct (negb (d_ctx d)); [injection E as <- <-; auto|].
  destruct (upd x _ _) as [w1|] eqn:U; [|discriminate]. cbn [bind] in E. destruct (assert_ _); [|discriminate]. cbn [bind] in E.
  destruct (arm x _ _ _) as [w2|] eqn:A; [|discriminate]. cbn [bind] in E. injection E as <- <-. cbn [say w_log ups].
  apply arm_log in A. apply upd_log in U. rewrite A, U. destruct (Nat.eqb_spec x c); auto.
Qed.
Lemma ipmi_connect c x o w : only c w (connect_ipmi_obj x o w) (x = c /\ o_sockerr o = false).
Proof.
  unfold connect_ipmi_obj. apply only_dev. intros d _. destruct (d_st d); [| |apply only_ok; reflexivity].
  - apply only_bind; [apply only_cancel|]. intros w1 _. apply only2_bind; [apply ipmi_start|]. intros b w2 _. cbv beta iota.
    destruct b; [apply only_ok; reflexivity | apply ipmi_failed].
  - apply only_bind; [apply only_cancel|]. intros w1 _. apply only2_bind; [apply ipmi_complete|]. intros b w2 _. cbv beta iota.
    destruct b; [apply only_ok; reflexivity | apply ipmi_failed].
Qed.
Lemma ipmi_connects c x os : forall w, only c w (connects_ipmi x os w) (x = c /\ exists o, In o os /\ o_sockerr o = false).
Proof.
  induction os as [|o os IH]; intros w; cbn [connects_ipmi]; [apply only_ok; reflexivity|]. apply only_bind.
  - eapply only_weaken; [|apply ipmi_connect]. intros (X & Y). split; [exact X|]. exists o. cbn; auto.
  - intros w1 _. eapply only_weaken; [|apply IH]. intros (X & o1 & Y & Z). split; [exact X|]. exists o1. cbn; auto.
Qed.
Lemma ipmi_open c x o mid w : only c w (open_ipmi_obj x o mid w) (x = c /\ exists o1, In o1 (o :: mid) /\ o_sockerr o1 = false).
Proof.
  assert (A : forall w, only c w (connect_ipmi_obj x o w) (x = c /\ exists o1, In o1 (o :: mid) /\ o_sockerr o1 = false)).
  { intros w0. eapply only_weaken; [|apply ipmi_connect]. intros (X & Y). split; [exact X|]. exists o. cbn; auto. }
  unfold open_ipmi_obj. apply only_dev. intros d _. destruct (d_st d); [apply A | apply only_ok; reflexivity|].
  apply only_bind; [apply ipmi_down|]. intros w1 _. apply only_bind; [|intros; apply A].
  eapply only_weaken; [|apply ipmi_connects]. intros (X & o1 & Y & Z). split; [exact X|]. exists o1. cbn; auto.
Qed.
Lemma serial_open c x o w : only c w (open_serial_obj x o w) (x = c /\ o_dev o = true).
Proof.
  unfold open_serial_obj. apply only_dev. intros d _. apply only_bind; [repeat on1|]. intros w1 _. apply only_say with (e := Try x); [intros ?; discriminate|].
  destruct (o_dev o); [|apply only_ok; reflexivity]. apply only_bind; [apply only_upd|]. intros w2 _. eapply only_weaken; [|apply up_ok]. auto.
Qed.

(** ** Events *)
Definition announced (w : world) (c : nat) (e : event) : Prop :=
  exists d o, nth_error (w_devs w) c = Some d /\ In o (results e) /\ made d o.

Lemma tel_made w c d o : nth_error (w_devs w) c = Some d -> d_kind d = Telnet -> tel w c o -> made d o.
Proof.
  intros N K T. unfold made. rewrite K. unfold tel, at_st, stk in T. rewrite N in T. cbn in T.
  destruct T as [((k & E) & X)|((k & E) & X)]; injection E as _ E; auto.
Qed.
Lemma stk_kind w w1 c d d1 : (forall x, stk w1 x = stk w x) -> nth_error (w_devs w) c = Some d -> nth_error (w_devs w1) c = Some d1 -> d_kind d1 = d_kind d /\ d_st d1 = d_st d.
Proof. intros S N N1. specialize (S c). unfold stk in S. rewrite N, N1 in S. cbn in S. injection S as -> ->. auto. Qed.

Lemma step_made c e w : only c w (step e w) (announced w c e).
Proof.
  destruct e as [ms|id o|x o mid|x o|x o|x o|x o]; cbn [step].
  - apply only_ok. destruct (0 <? ms); reflexivity.
  - unfold fire. destruct (find _ _) as [t|] eqn:F; [|apply only_ok; reflexivity]. destruct (w_now w <? t_due t); [apply only_ok; reflexivity|].
    cbv zeta. assert (W : forall r P, only c (cancel id w) r P -> only c w r P) by (intros r P O; exact O). apply W. clear W.
    apply only_dev. intros d N. change (nth_error (w_devs w) (t_con t) = Some d) in N. destruct (t_cb t).
    + destruct (d_kind d) eqn:K; [| | | |apply only_ok; reflexivity].
      * eapply only_weaken; [|apply telnet_connect]. intros (X & T). subst c. exists d, o. split; [exact N|]. split; [cbn; auto|]. exact (@tel_made w _ d o N K T).
      * eapply only_weaken; [|apply process_open]. intros (X & T). subst c. exists d, o. split; [exact N|]. split; [cbn; auto|]. unfold made. rewrite K. exact T.
      * eapply only_weaken; [|apply unixsock_connect]. intros (X & T). subst c. exists d, o. split; [exact N|]. split; [cbn; auto|]. unfold made. rewrite K. exact T.
      * eapply only_weaken; [|apply ipmi_connect]. intros (X & T). subst c. exists d, o. split; [exact N|]. split; [cbn; auto|]. unfold made. rewrite K. exact T.
    + unfold reset_delay. repeat on1.
  - unfold hangup. apply only_dev. intros d N.
    assert (W : forall P : Prop, P -> only c w (shutdown_obj x o mid w) (announced w c (Hangup x o mid))).
    { intros _ _. unfold shutdown_obj. apply only_dev. intros d0 N0. rewrite N in N0. injection N0 as <-. destruct (d_fd d <? 0); [apply only_ok; reflexivity|].
      apply only_bind; [apply only_upd|]. intros w1 E1. assert (SM : same w w1) by (eapply upd_same; [|exact E1]; intros y; destruct y; auto); destruct SM as (_ & S1).
      apply only_bind; [destruct (d_kind d); repeat on1|]. intros w2 E2.
      assert (K2 : forall d2, nth_error (w_devs w2) x = Some d2 -> d_kind d2 = d_kind d /\ (d_kind d = Telnet -> d_st d2 = d_st d)).
      { intros d2 N2. destruct (d_kind d) eqn:K.
        1-4: injection E2 as <-; destruct (@stk_kind w w1 x d d2 S1 N N2); split; congruence.
        unfold upd, dev_of in E2. destruct (nth_error (w_devs w1) x) as [d1|] eqn:N1; [|discriminate]. cbn [bind] in E2. injection E2 as <-.
        cbn [set_dev w_devs] in N2. rewrite (nth_set_same _ _ _ N1) in N2. injection N2 as <-. destruct (@stk_kind w w1 x d d1 S1 N N1). cbn. split; congruence. }
      unfold reopen_obj. apply only_dev. intros d2 N2. destruct (K2 d2 N2) as (KK & SS). rewrite KK. destruct (d_kind d) eqn:K.
      - injection E2 as <-. unfold open_telnet_obj. apply only_dev. intros d3 N3. rewrite N2 in N3. injection N3 as <-.
        assert (G : only c w1 (connect_telnet_obj x o w1) (announced w c (Hangup x o mid))).
        { eapply only_weaken; [|apply telnet_connect]. intros (X & T). subst c. exists d, o. split; [exact N|]. split; [cbn; auto|].
          apply (@tel_made w _ d o N K). eapply same_tel; [|exact T]. split; [exact (upd_log _ _ _ E1) | exact S1]. }
        destruct (d_st d2); [exact G | exact G | apply telnet_down].
      - eapply only_weaken; [|apply process_open]. intros (X & T). subst c. exists d, o. split; [exact N|]. split; [cbn; auto|]. unfold made. rewrite K. exact T.
      - eapply only_weaken; [|apply unixsock_open]. intros (X & T). subst c. exists d, o. split; [exact N|]. split; [cbn; auto|]. unfold made. rewrite K. exact T.
      - eapply only_weaken; [|apply ipmi_open]. intros (X & o1 & I & T). subst c. exists d, o1. split; [exact N|]. split; [exact I|]. unfold made. rewrite K. exact T.
      - eapply only_weaken; [|apply serial_open]. intros (X & T). subst c. exists d, o. split; [exact N|]. split; [cbn; auto|]. unfold made. rewrite K. exact T. }
    destruct (d_kind d); try exact (W True Logic.I). destruct (d_st d); try exact (W True Logic.I); apply only_ok; reflexivity.
  - unfold writable. apply only_dev. intros d N. destruct (d_fd d <? 0); [apply only_ok; reflexivity|].
    destruct (d_kind d) eqn:K; try (apply only_ok; reflexivity). destruct (d_st d); try (apply only_ok; reflexivity).
    eapply only_weaken; [|apply telnet_open]. intros (X & T). subst c. exists d, o. split; [exact N|]. split; [cbn; auto|]. exact (@tel_made w _ d o N K T).
  - unfold check_console_state. apply only_dev. intros d N. destruct (d_kind d) eqn:K.
    + destruct (d_st d) eqn:ST; [|repeat on1 | apply only_ok; reflexivity]. apply only_bind; [repeat on1|]. intros w1 E1.
      assert (SM : same (say (Asked x) w) w1) by (eapply upd_same; [|exact E1]; intros y; destruct y; auto); destruct SM as (L1 & S1).
      eapply only_weaken; [|apply telnet_open]. intros (X & T). subst c. exists d, o. split; [exact N|]. split; [cbn; auto|].
      apply (@tel_made w _ d o N K). destruct T as [((k & A) & B)|((k & A) & B)]; [left | right]; (split; [|exact B]); exists k; rewrite <- A, (S1 x); reflexivity.
    + destruct (d_fd d <? 0); [|apply only_ok; reflexivity].
      eapply only_weaken; [|apply process_open]. intros (X & T). subst c. exists d, o. split; [exact N|]. split; [cbn; auto|]. unfold made. rewrite K. exact T.
    + destruct (d_fd d <? 0); [|apply only_ok; reflexivity]. apply only_assert.
      eapply only_weaken; [|apply unixsock_open]. intros (X & T). subst c. exists d, o. split; [exact N|]. split; [cbn; auto|]. unfold made. rewrite K. exact T.
    + destruct (d_st d); try (apply only_ok; reflexivity).
      eapply only_weaken; [|apply ipmi_open]. intros (X & o1 & I & T). subst c. exists d, o1. split; [exact N|]. split; [exact I|]. unfold made. rewrite K. exact T.
    + destruct (d_fd d <? 0); [|apply only_ok; reflexivity].
      eapply only_weaken; [|apply serial_open]. intros (X & T). subst c. exists d, o. split; [exact N|]. split; [cbn; auto|]. unfold made. rewrite K. exact T.
  - apply only_dev. intros d N. destruct (d_kind d) eqn:K; try (apply only_ok; reflexivity).
    unfold open_unixsock_obj_via_inotify. apply only_bind; [apply only_upd|]. intros w1 _.
    eapply only_weaken; [|apply unixsock_open]. intros (X & T). subst c. exists d, o. split; [exact N|]. split; [cbn; auto|]. unfold made. rewrite K. exact T.
  - apply only_dev. intros d N. destruct (d_kind d) eqn:K; try (apply only_ok; reflexivity).
    eapply only_weaken; [|apply ipmi_connect]. intros (X & T). subst c. exists d, o. split; [exact N|]. split; [cbn; auto|]. unfold made. rewrite K. exact T.
Qed.
