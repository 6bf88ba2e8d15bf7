(** The back-off starts afresh on demand only when somebody asks. *)
From Verif Require Import Base ReconnModel ReconnSpec ReconnProof ReconnExec ReconnInv ReconnMade.
Set Implicit Arguments.
Open Scope Z_scope.

Definition flag (c : nat) (w : world) : nat := match nth_error (w_devs w) c with Some d => if d_via d then 1 else 0 | None => 0 end.
Definition M (c : nat) (w : world) : nat := (asked c (w_log w) + flag c w)%nat.
Definition most (c : nat) (w : world) (r : res world) (n : nat) : Prop := forall w', r = Ok w' -> (M c w' <= M c w + n)%nat.

Lemma most_bind c w r k n m : most c w r n -> (forall w1, r = Ok w1 -> most c w1 (k w1) m) -> most c w (do x <- r; k x) (n + m).
Proof.
  intros A B w' E. destruct r as [w1|]; [|discriminate]. cbn [bind] in E. specialize (A w1 eq_refl). specialize (B w1 eq_refl w' E). lia.
Qed.
Lemma most_bind0 c w r k n : most c w r 0 -> (forall w1, r = Ok w1 -> most c w1 (k w1) n) -> most c w (do x <- r; k x) n.
Proof. intros A B. exact (@most_bind c w r k 0 n A B). Qed.
Lemma most_ok c w w1 n : (M c w1 <= M c w + n)%nat -> most c w (Ok w1) n.
Proof. intros E w' X. injection X as <-. exact E. Qed.
Lemma most_weaken c w r n m : (n <= m)%nat -> most c w r n -> most c w r m.
Proof. intros L A w' E. specialize (A w' E). lia. Qed.
Lemma most_from c w w0 r n : (M c w0 <= M c w)%nat -> most c w0 r n -> most c w r n.
Proof. intros L A w' E. specialize (A w' E). lia. Qed.
Lemma most_dev c x w (k : dev -> res world) n : (forall d, nth_error (w_devs w) x = Some d -> most c w (k d) n) -> most c w (do d <- dev_of w x; k d) n.
Proof. intros A. unfold dev_of. destruct (nth_error (w_devs w) x) as [d|]; [cbn [bind]; auto|]. intros w' E. discriminate E. Qed.
Lemma most_assert c w b (k : res world) n : most c w k n -> most c w (do _ <- assert_ b; k) n.
Proof. intros A. destruct b; cbn; [exact A | intros w' E; discriminate E]. Qed.

Lemma M_say c e w : (forall x, e <> Asked x) -> M c (say e w) = M c w.
Proof. intros N. unfold M, flag. cbn [say w_log w_devs asked]. destruct e; auto. exfalso. eapply N. reflexivity. Qed.
Lemma M_upd c x f w w' : (forall d, d_via (f d) = true -> d_via d = true) -> upd x f w = Ok w' -> (M c w' <= M c w)%nat.
Proof.
  intros F E. unfold upd, dev_of in E. destruct (nth_error (w_devs w) x) as [d|] eqn:N; [|discriminate]. cbn [bind] in E. injection E as <-.
  unfold M, flag. cbn [set_dev w_log w_devs]. destruct (Nat.eq_dec x c) as [->|NE].
  - rewrite (nth_set_same _ _ _ N), N. specialize (F d). destruct (d_via (f d)), (d_via d); try lia; discriminate (F eq_refl).
  - rewrite nth_set_other by auto. lia.
Qed.
Lemma most_upd c x f w : (forall d, d_via (f d) = true -> d_via d = true) -> most c w (upd x f w) 0.
Proof. intros F w' E. pose proof (@M_upd c x f w w' F E). lia. Qed.
Lemma most_arm c x cb ms w : most c w (arm x cb ms w) 0.
Proof.
  unfold arm. intros w' E. destruct (upd x _ w) as [w1|] eqn:U; [|discriminate]. cbn [bind] in E. injection E as <-.
  apply (@M_upd c) in U; [|intros d; destruct d; auto]. unfold M, flag in *. cbn [w_log w_devs]. lia.
Qed.
Lemma most_cancel c x w : most c w (cancel_timer x w) 0.
Proof.
  unfold cancel_timer. apply most_dev. intros d _. destruct (0 <=? d_timer d); [|apply most_ok; lia].
  apply most_from with (w0 := cancel (d_timer d) w); [unfold M, flag; cbn; lia|]. apply most_upd. intros y; destruct y; auto.
Qed.
Ltac noask := first [ rewrite !M_say by (intros ?; discriminate); lia | lia ].
Ltac mo1 := first
  [ apply most_cancel | apply most_ok; noask
  | match goal with |- most _ _ ?r _ => match r with context [match d_st ?d with _ => _ end] => destruct (d_st d) eqn:? end end
  | match goal with |- most _ _ (arm _ _ _ ?w) _ => apply most_from with (w0 := w); [noask | apply most_arm] end
  | match goal with |- most _ _ (upd _ _ ?w) _ => apply most_from with (w0 := w); [noask | apply most_upd; let y := fresh in intros y; destruct y; auto] end
  | match goal with |- most _ _ (do _ <- assert_ _; _) _ => apply most_assert end
  | match goal with |- most _ _ (do _ <- dev_of _ _; _) _ => apply most_dev; intros ? ? end
  | match goal with |- most _ _ (do _ <- _; _) _ => apply most_bind0; [|intros ? ?] end
  | match goal with |- most _ _ (if ?b then _ else _) _ => destruct b eqn:? end ].

Lemma a_telnet_down c x w : most c w (disconnect_telnet_obj x w) 0.
Proof. unfold disconnect_telnet_obj. cbv zeta. repeat mo1. Qed.
Lemma a_process_down c x w : most c w (disconnect_process_obj x w) 0.
Proof. unfold disconnect_process_obj. cbv zeta. repeat mo1. Qed.
Lemma a_unixsock_down c x w : most c w (disconnect_unixsock_obj x w) 0.
Proof. unfold disconnect_unixsock_obj. cbv zeta. repeat mo1. Qed.
Lemma a_ipmi_down c x w : most c w (disconnect_ipmi_obj x w) 0.
Proof. unfold disconnect_ipmi_obj. cbv zeta. repeat mo1. Qed.
Lemma a_ipmi_failed c x w : most c w (fail_ipmi_connect x w) 0.
Proof. unfold fail_ipmi_connect. cbv zeta. repeat mo1. Qed.
Lemma a_telnet_up c x w : most c w (telnet_up x w) 0.
Proof. unfold telnet_up. repeat mo1. Qed.
Lemma a_try c x w r n : most c (say (Try x) w) r n -> most c w r n.
Proof. apply most_from. noask. Qed.
Lemma a_telnet_connect c x o w : most c w (connect_telnet_obj x o w) 0.
Proof.
  unfold connect_telnet_obj. apply most_bind0; [apply most_cancel|]. intros w1 _. apply most_dev. intros d _. cbv zeta. destruct (d_st d).
  - apply a_try with (x := x). destruct (o_name o); [|repeat mo1]. destruct (o_sock o); [|intros w' X; discriminate X].
    apply most_bind0; [repeat mo1|]. intros w2 _. destruct (o_conn o); [apply a_telnet_up | repeat mo1 | apply a_telnet_down].
  - destruct (o_sockerr o); [apply a_telnet_down | apply a_telnet_up].
  - intros w' X. discriminate X.
Qed.
Lemma a_telnet_open c x o w : most c w (open_telnet_obj x o w) 0.
Proof. unfold open_telnet_obj. apply most_dev. intros d _. destruct (d_st d); [apply a_telnet_connect | apply a_telnet_connect | apply a_telnet_down]. Qed.

Definition most2 (c : nat) (w : world) (r : res (bool * world)) (n : nat) : Prop := forall b w', r = Ok (b, w') -> (M c w' <= M c w + n)%nat.
Lemma most2_bind c w r k n : most2 c w r 0 -> (forall b w1, r = Ok (b, w1) -> most c w1 (k (b, w1)) n) -> most c w (do x <- r; k x) n.
Proof.
  intros A B w' E. destruct r as [(b & w1)|]; [|discriminate]. cbn [bind] in E. specialize (A b w1 eq_refl). specialize (B b w1 eq_refl w' E). lia.
Qed.
Lemma most2_of c w (r : res world) (g : world -> bool * world) : (forall w1, M c (snd (g w1)) = M c w1) -> most c w r 0 -> most2 c w (do x <- r; Ok (g x)) 0.
Proof.
  intros G A b w' E. destruct r as [w1|]; [|discriminate]. cbn [bind] in E. specialize (A w1 eq_refl). specialize (G w1).
  injection E as E. rewrite E in G. cbn [snd] in G. lia.
Qed.
Lemma a_process_connect c x o w : most2 c w (connect_process_obj x o w) 0.
Proof.
  unfold connect_process_obj. intros b w' E. destruct (dev_of w x) as [d|]; [|discriminate]. cbn [bind] in E.
  destruct (d_fd d =? -1); [|discriminate]. destruct (d_pid d =? -1); [|discriminate]. destruct (match d_st d with Up => false | _ => true end); [|discriminate].
  cbn [assert_ bind] in E. cbv zeta in E. destruct (o_dev o && o_sock o && o_fork o); [|injection E as <- <-; noask].
  destruct (upd x _ _) as [w1|] eqn:U; [|discriminate]. cbn [bind] in E. destruct (arm x _ _ _) as [w2|] eqn:A; [|discriminate]. cbn [bind] in E.
  injection E as <- <-. apply (@most_arm c) in A. apply (@M_upd c) in U; [|intros y; destruct y; auto].
  rewrite M_say in U, A by (intros ?; discriminate). rewrite M_say by (intros ?; discriminate). lia.
Qed.
Lemma a_process_open c x o w : most c w (open_process_obj x o w) 0.
Proof.
  unfold open_process_obj. apply most_bind0; [apply most_cancel|]. intros w1 _. apply most_dev. intros d _. apply most2_bind.
  - destruct (d_st d).
    + apply a_process_connect.
    + intros b w' E. injection E as <- <-. lia.
    + intros b w' E. destruct (disconnect_process_obj x w1) as [w2|] eqn:D; [|discriminate]. cbn [bind] in E. injection E as <- <-.
      exact (@a_process_down c x w1 w2 D).
  - intros b w2 _. cbv beta iota. destruct b; repeat mo1.
Qed.
(** the flag is used up by the attempt *)
Lemma M_clear c x w w' d : nth_error (w_devs w) x = Some d -> upd x (with_via false) w = Ok w' ->
  (M c w' + (if ((x =? c)%nat && d_via d)%bool then 1 else 0) = M c w)%nat.
Proof.
  intros N E. unfold upd, dev_of in E. rewrite N in E. cbn [bind] in E. injection E as <-. unfold M, flag. cbn [set_dev w_log w_devs].
  destruct (Nat.eqb_spec x c) as [->|NE].
  - rewrite (nth_set_same _ _ _ N), N. cbn [with_via d_via andb]. destruct (d_via d); lia.
  - rewrite nth_set_other by auto. cbn [andb]. lia.
Qed.
Lemma M_asked c x w : (M c (say (Asked x) w) = M c w + if (x =? c)%nat then 1 else 0)%nat.
Proof. unfold M, flag. cbn [say w_log w_devs asked]. destruct (Nat.eqb_spec x c); lia. Qed.
Lemma a_unixsock_connect c x o w : most c w (connect_unixsock_obj x o w) 0.
Proof.
  unfold connect_unixsock_obj. apply most_dev. intros d N. apply most_assert. cbv zeta. intros w' E.
  destruct (upd x (with_via false) w) as [w1|] eqn:U; [|discriminate]. cbn [bind] in E. pose proof (@M_clear c x w w1 d N U) as MC.
  assert (G : most c w1 (do w2 <- cancel_timer x w1; (let w2 := say (Try x) w2 in
    if o_dev o then if o_sock o then do w2 <- upd x (with_fd (o_fd o)) w2;
      match o_conn o with
      | CDone => do w2 <- upd x (with_st Up) w2; arm x Settled (MIN_CONNECT_SECS * 1000) (say (Came_up x) w2)
      | _ => do w2 <- (if d_via d then upd x (with_delay UNIXSOCK_MIN_TIMEOUT) (say (Asked x) w2) else Ok w2); disconnect_unixsock_obj x w2
      end
    else do w2 <- upd x (with_fd (-1)) w2; disconnect_unixsock_obj x w2 else disconnect_unixsock_obj x w2))
    (if ((x =? c)%nat && d_via d)%bool then 1 else 0)).
  { apply most_bind0; [apply most_cancel|]. intros w2 _. cbv zeta. apply a_try with (x := x).
    assert (DN : forall w0 n, most c w0 (disconnect_unixsock_obj x w0) n) by (intros; eapply most_weaken; [|apply a_unixsock_down]; lia).
    assert (AS : forall w0, most c w0 (do w2 <- (if d_via d then upd x (with_delay UNIXSOCK_MIN_TIMEOUT) (say (Asked x) w0) else Ok w0); disconnect_unixsock_obj x w2)
       (if ((x =? c)%nat && d_via d)%bool then 1 else 0)).
    { intros w0 w3 E0. destruct (d_via d).
      - destruct (upd x _ (say (Asked x) w0)) as [w4|] eqn:U4; [|discriminate]. cbn [bind] in E0. apply (@M_upd c) in U4; [|intros y; destruct y; auto].
        rewrite M_asked in U4. apply (@a_unixsock_down c) in E0. destruct (x =? c)%nat; cbn [andb]; lia.
      - cbn [bind] in E0. apply (@a_unixsock_down c) in E0. lia. }
    destruct (o_dev o); [|apply DN]. destruct (o_sock o).
    - apply most_bind0; [repeat mo1|]. intros w3 _. destruct (o_conn o); [|apply AS..].
      eapply most_weaken; [|apply most_bind0; [repeat mo1|intros; repeat mo1]]. lia.
    - apply most_bind0; [repeat mo1|]. intros w3 _. apply DN. }
  specialize (G w' E). lia.
Qed.
Lemma a_unixsock_open c x o w : most c w (open_unixsock_obj x o w) 0.
Proof. unfold open_unixsock_obj. apply most_dev. intros d _. destruct (d_st d); [apply a_unixsock_connect | apply a_unixsock_connect | apply a_unixsock_down]. Qed.
Lemma a_ipmi_start c x o w : most2 c w (initiate_ipmi_connect x o w) 0.
Proof.
  unfold initiate_ipmi_connect. cbv zeta. intros b w' E. destruct (upd x _ _) as [w1|] eqn:U; [|discriminate]. cbn [bind] in E.
  apply (@M_upd c) in U; [|intros y; destruct y; auto]. rewrite M_say in U by (intros ?; discriminate).
  destruct (o_sock o && o_fork o); [|injection E as <- <-; lia].
  destruct (upd x (with_st Pending) w1) as [w2|] eqn:U2; [|discriminate]. cbn [bind] in E. destruct (dev_of w2 x); [|discriminate]. cbn [bind] in E.
  destruct (assert_ _); [|discriminate]. cbn [bind] in E. destruct (arm x _ _ _) as [w3|] eqn:A; [|discriminate]. cbn [bind] in E. injection E as <- <-.
  apply (@most_arm c) in A. apply (@M_upd c) in U2; [|intros y; destruct y; auto]. rewrite M_say in A by (intros ?; discriminate). lia.
Qed.
Lemma a_ipmi_complete c x o w : most2 c w (complete_ipmi_connect x o w) 0.
Proof.
  unfold complete_ipmi_connect. intros b w' E. destruct (dev_of w x) as [d|]; [|discriminate]. cbn [bind] in E.
  destruct (negb (d_ctx d) || o_sockerr o); [injection E as <- <-; lia|].
  destruct (upd x _ _) as [w1|] eqn:U; [|discriminate]. cbn [bind] in E. destruct (assert_ _); [|discriminate]. cbn [bind] in E.
  destruct (arm x _ _ _) as [w2|] eqn:A; [|discriminate]. cbn [bind] in E. injection E as <- <-.
  apply (@most_arm c) in A. apply (@M_upd c) in U; [|intros y; destruct y; auto]. rewrite M_say by (intros ?; discriminate). lia.
Qed.
Lemma a_ipmi_connect c x o w : most c w (connect_ipmi_obj x o w) 0.
Proof.
  unfold connect_ipmi_obj. apply most_dev. intros d _. destruct (d_st d); [| |apply most_ok; lia].
  - apply most_bind0; [apply most_cancel|]. intros w1 _. apply most2_bind; [apply a_ipmi_start|]. intros b w2 _. cbv beta iota.
    destruct b; [apply most_ok; lia | apply a_ipmi_failed].
  - apply most_bind0; [apply most_cancel|]. intros w1 _. apply most2_bind; [apply a_ipmi_complete|]. intros b w2 _. cbv beta iota.
    destruct b; [apply most_ok; lia | apply a_ipmi_failed].
Qed.
Lemma a_ipmi_connects c x os : forall w, most c w (connects_ipmi x os w) 0.
Proof.
  induction os as [|o os IH]; intros w; cbn [connects_ipmi]; [apply most_ok; lia|]. apply most_bind0; [apply a_ipmi_connect|]. intros. apply IH.
Qed.
Lemma a_ipmi_open c x o mid w : most c w (open_ipmi_obj x o mid w) 0.
Proof.
  unfold open_ipmi_obj. apply most_dev. intros d _. destruct (d_st d); [apply a_ipmi_connect | apply most_ok; lia|].
  apply most_bind0; [apply a_ipmi_down|]. intros w1 _. apply most_bind0; [apply a_ipmi_connects|]. intros. apply a_ipmi_connect.
Qed.
Lemma a_serial_open c x o w : most c w (open_serial_obj x o w) 0.
Proof.
  unfold open_serial_obj. apply most_dev. intros d _. apply most_bind0; [repeat mo1|]. intros w1 _. apply a_try with (x := x).
  destruct (o_dev o); [|apply most_ok; lia]. apply most_bind0; [repeat mo1|]. intros w2 _. apply most_ok. noask.
Qed.
Lemma a_reopen c x o mid w : most c w (reopen_obj x o mid w) 0.
Proof.
  unfold reopen_obj. apply most_dev. intros d _. destruct (d_kind d);
    [apply a_telnet_open | apply a_process_open | apply a_unixsock_open | apply a_ipmi_open | apply a_serial_open].
Qed.
Lemma a_step c e w : most c w (step e w) (asks c [e]).
Proof.
  destruct e as [ms|id o|x o mid|x o|x o|x o|x o]; cbn [step asks].
  - apply most_ok. destruct (0 <? ms); unfold M, flag; cbn; lia.
  - unfold fire. destruct (find _ _) as [t|]; [|apply most_ok; lia]. destruct (w_now w <? t_due t); [apply most_ok; lia|].
    cbv zeta. apply most_from with (w0 := cancel id w); [unfold M, flag; cbn; lia|]. apply most_dev. intros d _. destruct (t_cb t).
    + destruct (d_kind d); [apply a_telnet_connect | apply a_process_open | apply a_unixsock_connect | apply a_ipmi_connect | apply most_ok; lia].
    + unfold reset_delay. repeat mo1.
  - assert (S : most c w (shutdown_obj x o mid w) 0).
    { unfold shutdown_obj. apply most_dev. intros d _. destruct (d_fd d <? 0); [apply most_ok; lia|].
      apply most_bind0; [repeat mo1|]. intros w1 _. apply most_bind0; [destruct (d_kind d); repeat mo1|]. intros w2 _. apply a_reopen. }
    unfold hangup. apply most_dev. intros d _. destruct (d_kind d); try exact S. destruct (d_st d); try exact S; apply most_ok; lia.
  - unfold writable. apply most_dev. intros d _. destruct (d_fd d <? 0); [apply most_ok; lia|].
    destruct (d_kind d); try (apply most_ok; lia). destruct (d_st d); try (apply most_ok; lia). apply a_telnet_open.
  - unfold check_console_state.
    assert (Z : forall r, most c w r 0 -> most c w r (if (x =? c)%nat then 1 else 0)) by (intros r A; eapply most_weaken; [|exact A]; lia).
    assert (U : most c w (upd x (with_delay TELNET_MIN_TIMEOUT) (say (Asked x) w)) (if (x =? c)%nat then 1 else 0)).
    { intros w' E. apply (@M_upd c) in E; [|intros y; destruct y; auto]. rewrite M_asked in E. lia. }
    apply most_dev. intros d _. destruct (d_kind d).
    + destruct (d_st d); [|exact U | apply Z, most_ok; lia]. eapply most_weaken; [|apply most_bind; [exact U | intros; apply a_telnet_open]]. lia.
    + apply Z. destruct (d_fd d <? 0); [apply a_process_open | apply most_ok; lia].
    + apply Z. destruct (d_fd d <? 0); [apply most_assert, a_unixsock_open | apply most_ok; lia].
    + apply Z. destruct (d_st d); [apply a_ipmi_open | apply most_ok; lia..].
    + apply Z. destruct (d_fd d <? 0); [apply a_serial_open | apply most_ok; lia].
  - apply most_dev. intros d _. destruct (d_kind d); try (apply most_ok; lia).
    unfold open_unixsock_obj_via_inotify. eapply most_weaken; [|apply most_bind with (n := if (x =? c)%nat then 1%nat else 0%nat); [|intros; apply a_unixsock_open]]; [lia|].
    intros w' E. unfold upd, dev_of in E. destruct (nth_error (w_devs w) x) as [d0|] eqn:N; [|discriminate]. cbn [bind] in E. injection E as <-.
    unfold M, flag. cbn [set_dev w_log w_devs]. destruct (Nat.eqb_spec x c) as [->|NE].
    + rewrite (nth_set_same _ _ _ N), N. cbn. destruct (d_via d0); lia.
    + rewrite nth_set_other by auto. lia.
  - apply most_dev. intros d _. destruct (d_kind d); try (apply most_ok; lia). apply a_ipmi_connect.
Qed.
Lemma asks_cons c e es : asks c (e :: es) = (asks c [e] + asks c es)%nat.
Proof. destruct e; cbn [asks]; auto; destruct (_ =? _)%nat; lia. Qed.
Lemma a_run c es : forall w, most c w (run es w) (asks c es).
Proof.
  induction es as [|e es IH]; intros w; cbn [run]; [apply most_ok; lia|]. rewrite asks_cons. apply most_bind; [apply a_step | intros; apply IH].
Qed.
Lemma a_open_objs c os : forall x w, most c w (open_objs x os w) 0.
Proof. induction os as [|o os IH]; intros x w; cbn [open_objs]; [apply most_ok; lia|]. apply most_bind0; [apply a_reopen | intros; apply IH]. Qed.
Lemma asked_reached start ks es w c : reached start ks es w -> (asked c (w_log w) <= asks c es)%nat.
Proof.
  intros (_ & _ & w0 & B & R). unfold boot in B. apply (@a_open_objs c) in B. apply (@a_run c) in R.
  assert (Z : M c (mkWorld start (map (fun k => create (fst k)) ks) [] 1 []) = 0%nat).
  { unfold M, flag. cbn [w_log w_devs asked]. rewrite nth_error_map. destruct (nth_error ks c) as [[k o]|]; cbn; [destruct k; reflexivity | reflexivity]. }
  unfold M in *. lia.
Qed.
