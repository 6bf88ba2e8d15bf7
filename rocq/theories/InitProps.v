(** C102-C106: a child's end, listening, limits, the summary, and the signals of started programs. *)
From Coq Require Import String Lia.
From Verif Require Import Base Chars Fmt InitModel InitSpec InitProof.
Local Open Scope Z_scope.

(** ** C102 *)
(** However many children have ended for one SIGCHLD: all of them are waited for, and no other. *)
Theorem C102_reaped : forall cs e, exists e', sig_chld_handler cs e = Ok (filter runs cs, e').
Proof. intros cs e. rewrite handler_ok. eauto. Qed.

(** While some child goes on running, ends of others, between a call that failed and the tests of
    why it failed, change nothing of what the daemon makes of it. *)
Theorem C102_calm_partial : forall cs e dss p, In (p, false) cs -> (forall ds, In ds dss -> ~ In p ds) ->
  exists cs' e', delivered cs e dss = Ok (cs', e') /\
    (forall s r, after_poll s r e' = after_poll s r e) /\ after_read e' = after_read e /\
    after_writev e' = after_writev e /\ after_accept e' = after_accept e.
Proof. intros cs e dss p H Hd. destruct (calm p dss cs e H Hd) as (cs' & E & _). exists cs', e. auto. Qed.

(** When the last child ends at such a moment, errno is no longer that of the call: an interrupted
    poll() or an accept() with nothing to accept ends the daemon, and a read or a write that would
    have been repeated later is taken for a broken connection. *)
Theorem C102_last_child_refuted : forall cs ds e, (forall c, In c cs -> In (fst c) ds) -> exists e',
  delivered cs e [ds] = Ok ([], e') /\
  (forall s r, after_poll s r EINTR <> PollDie /\ after_poll s r e' = PollDie) /\
  (after_read EAGAIN = IoLater /\ after_read e' = IoLost) /\
  (after_writev EAGAIN = IoLater /\ after_writev e' = IoLost) /\
  (after_accept EAGAIN = AccLater /\ after_accept e' = AccDie).
Proof.
  intros cs ds e H. exists ECHILD. cbn [delivered]. rewrite handler_ok, (all_end ds cs H). cbn [bind fst snd].
  split; [reflexivity|]. split; [|repeat split; reflexivity]. intros s r. split; [destruct s, r; discriminate|reflexivity].
Qed.

Example C102_example :
  delivered [(10, false); (11, true); (12, false); (13, false)]%nat EINTR [[12]; [13; 14]]%nat = Ok ([(10, false)]%nat, EINTR) /\
  delivered [(10, false); (11, true)]%nat EINTR [[10]]%nat = Ok ([], ECHILD).
Proof. vm_compute. auto. Qed.

(** What the daemon makes of each failure: a call that was interrupted is repeated - poll() not if
    the signal asked for something -, one that would have waited is repeated later, a connection
    that was given up before it was accepted is forgotten, and any other failure is the end of
    that connection, or of the daemon if it is the failure of poll() or accept(). *)
Theorem C102_reactions : forall e,
  (forall stop reconfig, after_poll stop reconfig e =
     if e =? EINTR then (if stop then PollServe else if reconfig then PollServe else PollAgain) else PollDie) /\
  (after_read e = IoAgain <-> e = EINTR) /\ (after_read e = IoLater <-> e = EAGAIN) /\ after_writev e = after_read e /\
  (after_accept e = AccAgain <-> e = EINTR) /\ (after_accept e = AccLater <-> e = EAGAIN \/ e = ECONNABORTED).
Proof.
  intros e. unfold after_poll, after_read, after_writev, after_accept.
  destruct (Z.eqb_spec e EINTR) as [->|N1]; [|destruct (Z.eqb_spec e EAGAIN) as [->|N2]; [|destruct (Z.eqb_spec e ECONNABORTED) as [->|N3]]];
    cbn [negb]; (split; [intros [|] [|]; reflexivity|]); unfold EINTR, EAGAIN, ECONNABORTED in *; intuition (congruence || lia).
Qed.

(** ** C103 *)
(** With a port number that exists, or 0: the daemon listens on the loopback address only if it
    is told to, else on all; on the port that it is told, or with 0 on some port; and the number
    it announces is that of the port. *)
Theorem C103_listens_partial : forall port loopback bind announced a p, bind_ok bind -> 0 <= port <= 65535 ->
  create_listen_socket port loopback bind = Ok (announced, (a, p)) ->
  (a = Loopback <-> loopback = true) /\ (port <> 0 -> p = port) /\ announced = p /\ 1 <= p <= 65535.
Proof.
  intros port loopback bind announced a p Hb Hp H. unfold create_listen_socket in H.
  set (b := if loopback then Loopback else Any) in *.
  destruct (bind b (htons port)) as [q|] eqn:E; [|discriminate]. injection H as <- <- <-.
  unfold htons in E. rewrite Z.mod_small in E by lia. destruct (Hb _ _ _ E) as [H1 H2].
  split; [unfold b; destruct loopback; split; congruence|]. split; [exact H2|]. split; [|exact H1].
  destruct (Z.eqb_spec port 0); [reflexivity|]. symmetry. now apply H2.
Qed.

(** It ends rather than run without listening. *)
Theorem C103_or_ends : forall port loopback bind, (forall a p, bind a p = None) -> create_listen_socket port loopback bind = UB Fatal.
Proof. intros port loopback bind H. unfold create_listen_socket. now rewrite H. Qed.

(** Greater numbers are accepted too; the daemon announces them and listens on another port, with
    65536 on an arbitrary one. *)
Theorem C103_port_refuted : forall port loopback bind announced a p, bind_ok bind -> 65535 < port <= INT_MAX ->
  port_accepted port = true /\
  (create_listen_socket port loopback bind = Ok (announced, (a, p)) -> announced = port /\ p <> announced).
Proof.
  intros port loopback bind announced a p Hb Hp. split.
  { unfold port_accepted. destruct (Z.ltb_spec port 0); [lia|reflexivity]. }
  unfold create_listen_socket. destruct (bind _ _) as [q|] eqn:E; [|discriminate]. intros [= <- <- <-].
  destruct (Hb _ _ _ E) as [H1 _]. destruct (Z.eqb_spec port 0); lia.
Qed.

Definition ex_bind (a : addr) (p : Z) : option Z := if p =? 22 then None else Some (if p =? 0 then 40000 else p).
Example C103_example : bind_ok (fun a p => if (0 <=? p) && (p <=? 65535) then ex_bind a p else None) /\
  create_listen_socket 7890 true ex_bind = Ok (7890, (Loopback, 7890)) /\
  create_listen_socket 0 false ex_bind = Ok (40000, (Any, 40000)) /\
  create_listen_socket 22 false ex_bind = UB Fatal /\
  create_listen_socket 73426 false ex_bind = Ok (73426, (Any, 7890)).
Proof.
  split; [|vm_compute; auto]. intros a p q. unfold ex_bind.
  destruct (Z.leb_spec 0 p), (Z.leb_spec p 65535); cbn [andb]; try discriminate.
  destruct (Z.eqb_spec p 22); [discriminate|]. destruct (Z.eqb_spec p 0); intros [= <-]; lia.
Qed.

(** ** C104 *)
(** NOFILE: with 0 the limit stays, with a positive number that is the soft limit and the hard one
    is not lowered, with -1 the soft limit is the hard one. *)
Theorem C104_nofile : forall privileged most n l l' told, limit_ok l ->
  setup_nofile_limit privileged most n l = Ok (l', told) ->
  (n = 0 -> l' = l) /\ (0 < n -> rlim_cur l' = n /\ rlim_max l' = Z.max n (rlim_max l)) /\
  (n = -1 -> rlim_cur l' = rlim_max l /\ rlim_max l' = rlim_max l).
Proof.
  intros privileged most n l l' told Hl H. unfold setup_nofile_limit in H.
  destruct (Z.eqb_spec n 0) as [->|Hn].
  - injection H as <- _. repeat split; auto; lia.
  - destruct (setrlimit _ _ _ _) as [x|] eqn:E; [|discriminate]. injection H as <- _.
    unfold setrlimit in E. destruct (_ <? _); [discriminate|]. destruct (_ && _); [discriminate|]. destruct (_ <? _); [discriminate|].
    injection E as <-. destruct (Z.ltb_spec 0 n).
    + cbn [rlim_cur rlim_max]. destruct (Z.ltb_spec (rlim_max l) n); repeat split; try lia.
    + destruct (Z.ltb_spec n 0); [|lia]. cbn [rlim_cur rlim_max]. repeat split; lia.
Qed.

(** The limit is set whenever the daemon is allowed to set it, and else the daemon ends. *)
Theorem C104_allowed : forall privileged most n l, limit_ok l -> rlim_max l <= most -> (n <= rlim_max l \/ privileged = true /\ n <= most) ->
  exists r, setup_nofile_limit privileged most n l = Ok r.
Proof.
  intros privileged most n l [Hl _] Hm H. unfold setup_nofile_limit. destruct (Z.eqb_spec n 0); [eauto|].
  unfold setrlimit. destruct (Z.ltb_spec 0 n).
  - cbn [rlim_cur rlim_max]. destruct (Z.ltb_spec (rlim_max l) n) as [H1|H1].
    + destruct H as [H|[-> H]]; [lia|]. rewrite Z.ltb_irrefl. cbn [negb]. rewrite Bool.andb_false_r.
      destruct (Z.ltb_spec most n); [lia|]. eauto.
    + destruct (Z.ltb_spec (rlim_max l) n); [lia|]. rewrite Z.ltb_irrefl. cbn [andb].
      destruct (Z.ltb_spec most (rlim_max l)); [lia|]. eauto.
  - destruct (Z.ltb_spec n 0); [|lia]. cbn [rlim_cur rlim_max]. rewrite !Z.ltb_irrefl. cbn [andb].
    destruct (Z.ltb_spec most (rlim_max l)); [lia|]. eauto.
Qed.

(** A number that an unprivileged daemon may not have ends it.  By then conmand has already
    reported success (server.c:148, 155). *)
Theorem C104_late_refuted : forall most n l, 0 < n -> rlim_max l < n -> setup_nofile_limit false most n l = UB Fatal.
Proof.
  intros most n l Hn Hl. unfold setup_nofile_limit. destruct (Z.eqb_spec n 0); [lia|]. destruct (Z.ltb_spec 0 n); [|lia].
  destruct (Z.ltb_spec (rlim_max l) n); [|lia]. unfold setrlimit. cbn [rlim_cur rlim_max]. rewrite Z.ltb_irrefl.
  destruct (Z.ltb_spec (rlim_max l) n); [reflexivity|lia].
Qed.

(** Every other negative number means the same as -1. *)
Theorem C104_negative_refuted : forall privileged most n l, n < 0 ->
  setup_nofile_limit privileged most n l = setup_nofile_limit privileged most (-1) l.
Proof.
  intros privileged most n l H. unfold setup_nofile_limit. destruct (Z.eqb_spec n 0); [lia|].
  destruct (Z.ltb_spec 0 n); [lia|]. destruct (Z.ltb_spec n 0); [reflexivity|lia].
Qed.

(** The number in the message is the limit when it fits an int. *)
Theorem C104_told_partial : forall privileged most n l l' told, limit_ok l -> n <= INT_MAX ->
  setup_nofile_limit privileged most n l = Ok (l', told) -> rlim_cur l' <= INT_MAX -> told = rlim_cur l'.
Proof.
  intros privileged most n l l' told [Hl _] Hn H Hi. unfold INT_MAX in *.
  assert (L : forall x, 0 <= x <= 2147483647 -> low_int x = x).
  { intros x Hx. unfold low_int. rewrite Z.mod_small by lia. cbn zeta. destruct (Z.ltb_spec x 2147483648); lia. }
  unfold setup_nofile_limit in H. destruct (Z.eqb_spec n 0) as [->|Hz].
  - injection H as <- <-. cbn. apply L. lia.
  - destruct (setrlimit _ _ _ _) as [x|] eqn:E; [|discriminate]. injection H as <- <-.
    unfold setrlimit in E. destruct (_ <? _); [discriminate|]. destruct (_ && _); [discriminate|]. destruct (_ <? _); [discriminate|].
    injection E as <-. apply L. split; [|exact Hi]. destruct (Z.ltb_spec 0 n); [cbn; lia|].
    destruct (Z.ltb_spec n 0); cbn; lia.
Qed.

(** No limit is reported as -1. *)
Theorem C104_told_refuted : forall privileged l, rlim_max l = RLIM_INFINITY ->
  setup_nofile_limit privileged RLIM_INFINITY (-1) l = Ok (mkLim RLIM_INFINITY RLIM_INFINITY, -1).
Proof.
  intros privileged l H. unfold setup_nofile_limit, setrlimit. cbn [Z.eqb Z.ltb Z.compare]. rewrite H. cbn [rlim_cur rlim_max].
  rewrite !Z.ltb_irrefl. reflexivity.
Qed.

(** COREDUMP: off, no core can be written and no program that the daemon starts can change that
    without privilege; on, cores of any size can be written, and go to the directory that was
    given. *)
Theorem C104_core_off : forall privileged dir cwd l, limit_ok l ->
  setup_coredump privileged false dir cwd l = Ok (mkLim 0 0, (false, [])) /\
  (forall most new l', setrlimit false most (mkLim 0 0) new = Some l' -> rlim_cur l' <= 0) /\
  (forall here chdir signum, coredump_handler false [] here chdir signum = (here, zs "Terminating on signal=" ++ fmt_d signum)%list).
Proof.
  intros privileged dir cwd l [[H1 H2] H3]. split; [|split; [|intros here chdir signum; unfold coredump_handler; cbv zeta; cbn [andb]; rewrite app_nil_r; reflexivity]].
  - unfold setup_coredump, setrlimit. cbn [rlim_cur rlim_max]. rewrite Z.ltb_irrefl.
    destruct (Z.ltb_spec (rlim_max l) 0); [lia|]. cbn [andb]. reflexivity.
  - intros most new l' H. unfold setrlimit in H. destruct (Z.ltb_spec (rlim_max new) (rlim_cur new)); [discriminate|].
    cbn [rlim_max negb] in H. rewrite Bool.andb_true_r in H. destruct (Z.ltb_spec 0 (rlim_max new)); [discriminate|].
    destruct (_ <? _); [discriminate|]. injection H as <-. lia.
Qed.
Theorem C104_core_on : forall privileged dir cwd l l' core wanted_in, limit_ok l ->
  setup_coredump privileged true dir cwd l = Ok (l', (core, wanted_in)) ->
  rlim_cur l' = RLIM_INFINITY /\
  (forall d here signum, dir = Some d -> d <> [] -> fst (coredump_handler core wanted_in here true signum) = d).
Proof.
  intros privileged dir cwd l l' core wanted_in Hl H. unfold setup_coredump in H.
  destruct (setrlimit _ _ _ _) as [x|] eqn:E; [|discriminate]. injection H as <- <- <-.
  unfold setrlimit in E. destruct (_ <? _); [discriminate|]. destruct (_ && _); [discriminate|].
  injection E as <-. split; [reflexivity|]. intros d here signum -> Hd. unfold coredump_handler.
  destruct d; [now elim Hd|]. reflexivity.
Qed.

(** COREDUMP=on does not start at all without privilege, if the hard limit is finite. *)
Theorem C104_core_refuted : forall dir cwd l, rlim_max l < RLIM_INFINITY -> setup_coredump false true dir cwd l = UB Fatal.
Proof.
  intros dir cwd l H. unfold setup_coredump, setrlimit. cbn [rlim_cur rlim_max]. rewrite Z.ltb_irrefl.
  destruct (Z.ltb_spec (rlim_max l) RLIM_INFINITY); [reflexivity|lia].
Qed.

Example C104_example :
  limit_ok (mkLim 1024 4096) /\
  setup_nofile_limit false 1048576 2000 (mkLim 1024 4096) = Ok (mkLim 2000 4096, 2000) /\
  setup_nofile_limit true 1048576 8000 (mkLim 1024 4096) = Ok (mkLim 8000 8000, 8000) /\
  setup_nofile_limit false 1048576 8000 (mkLim 1024 4096) = UB Fatal /\
  setup_nofile_limit false 1048576 (-1) (mkLim 1024 4096) = Ok (mkLim 4096 4096, 4096) /\
  setup_coredump true true (Some (zs "/var/crash")) (zs "/") (mkLim 0 4096) = Ok (mkLim RLIM_INFINITY RLIM_INFINITY, (true, zs "/var/crash")).
Proof. split; [unfold limit_ok, RLIM_INFINITY; cbn; lia|]. vm_compute. auto 10. Qed.

(** ** C105 *)
(** The summary names the options that are set and no others, or says None, and the number of
    consoles. *)
Theorem C105_shows : forall c, display_configuration c =
  ((zs "Configuration: " ++ s_name c) ++ 10 :: (zs "Options:" ++ flat_map (fun w => 32 :: w) (shown c)) ++ 10 ::
   (zs "Monitoring " ++ fmt_d (Z.of_nat (consoles c)) ++ zs " console" ++ if Z.of_nat (consoles c) =? 1 then [] else zs "s") ++ [10; 10])%list.
Proof. exact display_lines. Qed.

(** Daemons with the same summary agree in everything it is about. *)
Theorem C105_tells : forall c d, ~ In 10 (s_name c) -> ~ In 10 (s_name d) ->
  display_configuration c = display_configuration d -> same c d.
Proof.
  intros c d Hc Hd E. rewrite !display_lines in E. apply cut_inj in E; [|intros H; apply in_app_or in H; destruct H as [H|H]; [cbn in H; lia|tauto]..].
  destruct E as [E1 E]. apply app_inv_head in E1.
  apply cut_inj in E; [|intros H; apply in_app_or in H; destruct H as [H|H]; [cbn in H; lia|revert H; apply flat_no10, plain_shown]..].
  destruct E as [E2 E]. apply app_inv_head in E2. apply flat_inj in E2; [|apply plain_shown..].
  change [10; 10] with (10 :: [10]) in E. apply cut_inj in E; [|apply count_no10..]. destruct E as [E3 _].
  apply count_line_inj in E3; [|lia..]. apply Nat2Z.inj in E3.
  assert (HW : forall w, w <> zs "None" -> (exists b, In (w, b) (words c) /\ b = true) <-> (exists b, In (w, b) (words d) /\ b = true)).
  { intros w Hw. rewrite <- !shown_in by exact Hw. now rewrite E2. }
  assert (HB : forall w (f : summary -> bool), w <> zs "None" -> (forall x, In (w, f x) (words x)) ->
     (forall x b, In (w, b) (words x) -> b = f x) -> f c = f d).
  { intros w f Hw Hin Huniq. apply eq_true. specialize (HW w Hw). split; intros Ht.
    - destruct (proj1 HW (ex_intro _ (f c) (conj (Hin c) Ht))) as (b & Hb & ->). symmetry. now apply Huniq.
    - destruct (proj2 HW (ex_intro _ (f d) (conj (Hin d) Ht))) as (b & Hb & ->). symmetry. now apply Huniq. }
  assert (B1 : s_core c = s_core d) by (apply (HB (zs "CoreDump") s_core); [discriminate|intros x; unfold words; cbn [In]; tauto|intros x b H; word_case H; reflexivity]).
  assert (B2 : s_keep c = s_keep d) by (apply (HB (zs "KeepAlive") s_keep); [discriminate|intros x; unfold words; cbn [In]; tauto|intros x b H; word_case H; reflexivity]).
  assert (B3 : match s_log c with Some _ => true | None => false end = match s_log d with Some _ => true | None => false end)
    by (apply (HB (zs "LogFile") (fun x => match s_log x with Some _ => true | None => false end)); [discriminate|intros x; unfold words; cbn [In]; tauto|intros x b H; word_case H; reflexivity]).
  assert (B4 : s_loop c = s_loop d) by (apply (HB (zs "LoopBack") s_loop); [discriminate|intros x; unfold words; cbn [In]; tauto|intros x b H; word_case H; reflexivity]).
  assert (B5 : match s_reset c with Some _ => true | None => false end = match s_reset d with Some _ => true | None => false end)
    by (apply (HB (zs "ResetCmd") (fun x => match s_reset x with Some _ => true | None => false end)); [discriminate|intros x; unfold words; cbn [In]; tauto|intros x b H; word_case H; reflexivity]).
  assert (B6 : negb (s_syslog c <? 0) = negb (s_syslog d <? 0))
    by (apply (HB (zs "SysLog") (fun x => negb (s_syslog x <? 0))); [discriminate|intros x; unfold words; cbn [In]; tauto|intros x b H; word_case H; reflexivity]).
  assert (B7 : s_wrap c = s_wrap d) by (apply (HB (zs "TCP-Wrappers") s_wrap); [discriminate|intros x; unfold words; cbn [In]; tauto|intros x b H; word_case H; reflexivity]).
  assert (B8 : s_zero c = s_zero d) by (apply (HB (zs "ZeroLogs") s_zero); [discriminate|intros x; unfold words; cbn [In]; tauto|intros x b H; word_case H; reflexivity]).
  assert (HS : forall x y, (forall w, w <> zs "None" -> (exists b, In (w, b) (words x) /\ b = true) -> (exists b, In (w, b) (words y) /\ b = true)) ->
     0 < s_stamp x -> s_stamp x = s_stamp y).
  { clear. intros x y H Hx.
    destruct (H (zs "TimeStamp=" ++ fmt_d (s_stamp x) ++ zs "m")%list) as (b & Hb & ->); [discriminate| |].
    - exists (negb (s_stamp x <=? 0)). split; [unfold words; cbn [In]; tauto|]. destruct (Z.leb_spec (s_stamp x) 0); [lia|reflexivity].
    - unfold words in Hb. cbn [In] in Hb. repeat match type of Hb with _ \/ _ => destruct Hb as [Hb|Hb] end; try contradiction;
        apply pair_equal_spec in Hb; destruct Hb as [Hb Hs]; try discriminate Hb.
      destruct (Z.leb_spec (s_stamp y) 0) as [|Hy]; [discriminate|].
      apply app_inv_head in Hb. apply app_inv_tail in Hb. symmetry. apply fmt_d_inj; auto; lia. }
  unfold same. split; [exact E1|]. split; [exact B1|]. split; [exact B2|].
  split; [destruct (s_log c), (s_log d); split; congruence|]. split; [exact B4|].
  split; [destruct (s_reset c), (s_reset d); split; congruence|].
  split; [destruct (Z.ltb_spec (s_syslog c) 0), (Z.ltb_spec (s_syslog d) 0); try discriminate; lia|].
  split; [exact B7|]. split; [|split; [exact B8|exact E3]].
  intros [H|H]; [apply (HS c d); auto; intros w Hw; apply (HW w Hw)|symmetry; apply (HS d c); auto; intros w Hw; apply (HW w Hw)].
Qed.

(** A facility is used when it is shown, unless the daemon runs in the foreground or the facility
    is that of the kernel: SYSLOG="kern" is accepted and shown, but nothing is written to syslog. *)
Theorem C105_syslog_partial : forall facility, facility <> 0 -> uses_syslog false facility = negb (facility <? 0).
Proof. intros f H. unfold uses_syslog. cbn [negb andb]. destruct (Z.ltb_spec 0 f), (Z.ltb_spec f 0); try reflexivity; lia. Qed.
(** SYSLOG="kern" is accepted and shown, but nothing is written to syslog. *)
Theorem C105_syslog_refuted : forall c foreground, s_syslog c = 0 ->
  In (zs "SysLog") (shown c) /\ uses_syslog foreground (s_syslog c) = false.
Proof.
  intros c fg H. split.
  - apply shown_in; [discriminate|]. exists true. split; [|reflexivity]. unfold words. rewrite H. cbn [Z.ltb Z.compare negb In]. tauto.
  - unfold uses_syslog. rewrite H. destruct fg; reflexivity.
Qed.

Definition ex_sum : summary := mkSum (zs "/etc/conman.conf") false true None true None (-1) false 60 false [true; false; true].
Example C105_example : ~ In 10 (s_name ex_sum) /\ display_configuration ex_sum =
  (zs "Configuration: /etc/conman.conf" ++ [10] ++ zs "Options: KeepAlive LoopBack TimeStamp=60m" ++ [10] ++
   zs "Monitoring 2 consoles" ++ [10; 10])%list.
Proof. split; [cbn; lia|]. vm_compute. reflexivity. Qed.

(** ** C106 *)
(** A program that the daemon starts has default handling of all signals but SIGPIPE, and but
    those that were ignored when the daemon itself was started and that the daemon does not set. *)
Theorem C106_signals_partial : forall t detached s, started_program t detached s = Ign <-> s = SIGPIPE \/ (t s = Ign /\ ~ In s own_signals).
Proof.
  intros t detached s. unfold started_program, execve, setup_signals, posix_signal, own_signals.
  unfold SIGHUP, SIGINT, SIGQUIT, SIGILL, SIGABRT, SIGBUS, SIGFPE, SIGSEGV, SIGPIPE, SIGTERM, SIGCHLD.
  destruct (Z.eqb_spec s 11); [subst; split; [discriminate|intros [|[_ H]]; [discriminate|elim H; cbn; tauto]]|].
  destruct (Z.eqb_spec s 3); [subst; split; [discriminate|intros [|[_ H]]; [discriminate|elim H; cbn; tauto]]|].
  destruct (Z.eqb_spec s 4); [subst; split; [discriminate|intros [|[_ H]]; [discriminate|elim H; cbn; tauto]]|].
  destruct (Z.eqb_spec s 8); [subst; split; [discriminate|intros [|[_ H]]; [discriminate|elim H; cbn; tauto]]|].
  destruct (Z.eqb_spec s 7); [subst; split; [discriminate|intros [|[_ H]]; [discriminate|elim H; cbn; tauto]]|].
  destruct (Z.eqb_spec s 6); [subst; split; [discriminate|intros [|[_ H]]; [discriminate|elim H; cbn; tauto]]|].
  destruct (Z.eqb_spec s 15); [subst; split; [discriminate|intros [|[_ H]]; [discriminate|elim H; cbn; tauto]]|].
  destruct (Z.eqb_spec s 13); [tauto|].
  destruct (Z.eqb_spec s 2); [subst; split; [discriminate|intros [|[_ H]]; [discriminate|elim H; cbn; tauto]]|].
  destruct (Z.eqb_spec s 1); [subst; split; [discriminate|intros [|[_ H]]; [discriminate|elim H; cbn; tauto]]|].
  destruct (Z.eqb_spec s 17); [subst; split; [discriminate|intros [|[_ H]]; [discriminate|elim H; cbn; tauto]]|].
  assert (K : match t s with Handler => Dfl | d => d end = Ign <-> s = 13 \/ t s = Ign /\ ~ In s [1; 2; 3; 4; 6; 7; 8; 11; 15; 17]).
  { split.
    - intros H. right. split; [destruct (t s); congruence|]. cbn [In]. lia.
    - intros [->|[-> _]]; [lia|reflexivity]. }
  destruct detached; [|exact K]. destruct (Z.eqb_spec s 1); [contradiction|exact K].
Qed.

(** SIGPIPE is ignored in all of them: a pipeline in a console's program or in a reset command whose
    reader has ended goes on, instead of being ended by its first write. *)
Theorem C106_pipe_refuted : forall t detached, started_program t detached SIGPIPE = Ign.
Proof. intros t detached. apply C106_signals_partial. now left. Qed.

Example C106_example :
  let t s := if s =? 1 then Ign else if s =? 22 then Ign else Dfl in
  map (started_program t true) [1; 13; 15; 17; 22] = [Dfl; Ign; Dfl; Dfl; Ign].
Proof. reflexivity. Qed.

Print Assumptions C102_reaped. Print Assumptions C102_reactions. Print Assumptions C102_calm_partial. Print Assumptions C102_last_child_refuted.
Print Assumptions C103_listens_partial. Print Assumptions C103_or_ends. Print Assumptions C103_port_refuted.
Print Assumptions C104_nofile. Print Assumptions C104_allowed. Print Assumptions C104_late_refuted. Print Assumptions C104_negative_refuted.
Print Assumptions C104_told_partial. Print Assumptions C104_told_refuted. Print Assumptions C104_core_off. Print Assumptions C104_core_on.
Print Assumptions C104_core_refuted. Print Assumptions C105_shows. Print Assumptions C105_tells. Print Assumptions C105_syslog_partial.
Print Assumptions C105_syslog_refuted. Print Assumptions C106_signals_partial. Print Assumptions C106_pipe_refuted.
