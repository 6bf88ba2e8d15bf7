(** Theorems about where the daemon's messages go. *)
From Coq Require Import String.
From Verif Require Import Base BaseProof Chars MsgModel MsgSpec DiagModel DiagSpec DiagProof.
From Coq Require Import Permutation.
Local Open Scope Z_scope.

(** ** C109: the daemon's messages *)
(** Whatever is said, opens, fails or is asked for: a message is never written to a stream that
    was closed, none is closed twice, and at most one log is open, that in use. *)
Theorem C109_safe dbg fg fac level name before l : msgs_ok before -> name_fine name -> Forall op_ok l ->
  exists s, life dbg fg fac level name before l = Ok s /\ (List.length (g_open s) <= 1)%nat /\
    (forall n, g_fp s = Some (File n) -> g_open s = [n]).
Proof.
  intros H1 H2 H3. destruct (life_ok dbg fg fac level name before l H1 H2 H3) as (s0 & s1 & s2 & _ & _ & _ & _ & _ & [A B _ _] & E).
  exists s2. split; [exact E|]. rewrite A. unfold opens. split.
  - destruct (g_ptr s2); cbn [List.length]; lia.
  - intros n F. rewrite (B n F). reflexivity.
Qed.
Print Assumptions C109_safe.

(** From its opening a log gets every message that is important enough, one line each, with the
    time, in order, and nothing else; other logs and the terminal get nothing.  First the log that
    is opened at the start. *)
Theorem C109_file dbg fac level before ms : msgs_ok before -> Forall msg_ok ms ->
  exists n s, life dbg false fac level (Some Opened) before (says ms) = Ok s /\
    g_text s n = map dated (due (Z.max 0 level) ms) /\ g_open s = [n] /\ g_fp s = Some (File n) /\ (forall k, k <> n -> g_text s k = []).
Proof.
  intros H1 H2. assert (H3 : Forall op_ok (says ms)) by (apply Forall_map; exact H2).
  destruct (life_ok dbg false fac level (Some Opened) before (says ms) H1 I H3) as (s0 & s1 & s2 & E0 & I0 & E1 & I1 & E2 & [A B _ _] & E).
  assert (N0 : g_new s0 = 0%nat /\ forall k, g_text s0 k = []).
  { clear - E0 H1. cbv zeta in E0. change (first dbg) with (first dbg) in E0.
    assert (G : g_new (first dbg) = 0%nat /\ (forall n, g_fp (first dbg) <> Some (File n)) /\ forall k, g_text (first dbg) k = []) by (split; [reflexivity|]; split; [discriminate|reflexivity]).
    pose proof (first_inv dbg) as I. revert E0 G I. generalize (first dbg). induction H1 as [|[m ok] b M1 M2 IH]; intros s E G I; cbn [map run step fst snd] in E.
    - injection E as <-. destruct G as (G1 & _ & G2). auto.
    - destruct (log_msg_ok m ok s M1 (inv_usable s I)) as (s' & E' & Y). rewrite E' in E. cbn [bind] in E.
      apply (IH s' E); [|exact (says_inv _ _ _ _ I Y)]. destruct G as (G1 & G2 & G3). split; [rewrite (y_new _ _ _ _ Y); exact G1|]. split.
      + intros n. rewrite (y_fp _ _ _ _ Y). destruct (sees s m && negb ok); [discriminate|apply G2].
      + intros k. rewrite (y_text _ _ _ _ Y), G3. destruct (sees s m && ok); [|reflexivity]. destruct (g_fp s) as [[|n]|] eqn:F; try reflexivity. destruct (G2 n eq_refl). }
  destruct N0 as (N0 & T0).
  unfold settle in E1. set (sx := if 0 <? fac then _ else _) in E1.
  assert (X : inv sx /\ g_new sx = 0%nat /\ (forall k, g_text sx k = []) /\ pre_of None sx = []).
  { unfold sx. destruct (0 <? fac); [destruct I0; split; [split; auto|auto]|auto]; unfold pre_of; cbn [g_ptr]; destruct (g_ptr s0); auto. }
  destruct X as (X1 & X2 & X3 & X4).
  destruct (opened_ok level None sx X1) as (s1' & E1' & _ & O); [intros x; discriminate|]. rewrite E1' in E1. injection E1 as ->.
  pose proof (o_fp _ _ _ _ O (or_introl eq_refl)) as F1. rewrite X2 in F1.
  destruct (says_file false true level 0 ms s1 I1 H2 F1 (o_time _ _ _ _ O)) as (s2' & E2' & T & U & _ & F & _).
  cbv zeta in E2. rewrite E2' in E2. injection E2 as ->. exists 0%nat, s2. split; [exact E|]. split; [|split; [|split; [exact F|]]].
  - rewrite T. pose proof (o_here _ _ _ _ O (or_introl eq_refl)) as HH. rewrite X2 in HH. rewrite HH, X4. cbn [map due filter app].
    rewrite (o_level _ _ _ _ O). reflexivity.
  - rewrite A. unfold opens. rewrite (B _ F). reflexivity.
  - intros k Hk. rewrite (U k Hk), (o_text _ _ _ _ O) by (rewrite X2; exact Hk). apply X3.
Qed.
Print Assumptions C109_file.

(** Then one that is opened on request, after any history: those before stay as they are.  [pre]:
    a warning that the one before could not be closed. *)
Theorem C109_reopened dbg fac level o before l w ms : msgs_ok before -> name_fine (Some o) -> Forall op_ok l -> op_ok (Reopen Opened w) -> Forall msg_ok ms ->
  (w = None \/ exists m, w = Some (m, true)) ->
  exists n s0 s pre, life dbg false fac level (Some o) before l = Ok s0 /\
    life dbg false fac level (Some o) before (l ++ Reopen Opened w :: says ms) = Ok s /\
    g_text s0 n = [] /\ ~ In n (g_open s0) /\
    g_text s n = map dated (due (Z.max 0 level) (pre ++ ms)) /\ (forall m, In m pre -> w = Some (m, true)) /\
    g_open s = [n] /\ g_fp s = Some (File n) /\ (forall k, k <> n -> g_text s k = g_text s0 k) /\ g_err s = g_err s0.
Proof.
  intros H1 H2 H3 H4 H5 HW.
  destruct (life_ok dbg false fac level (Some o) before l H1 H2 H3) as (sa & sb & s0 & EA & IA & EB & IB & EC & IC & E).
  destruct (op_parts _ _ H4) as (_ & W).
  destruct (opened_ok level w s0 IC W) as (s1 & E1 & I1 & O). pose proof (o_fp _ _ _ _ O HW) as F1.
  destruct (says_file false true level (g_new s0) ms s1 I1 H5 F1 (o_time _ _ _ _ O)) as (s2 & E2 & T & U & R & F & [A2 B2 _ _]).
  exists (g_new s0), s0, s2, (map fst (pre_of w s0)). split; [exact E|]. split.
  { unfold life. cbv zeta in *. rewrite EA. cbn [bind]. rewrite EB. cbn [bind]. rewrite run_app, EC. cbn [bind run step andb negb]. rewrite E1. cbn [bind]. exact E2. }
  pose proof IC as [A B C D]. split; [apply D; lia|]. split.
  { rewrite A. unfold opens. destruct (g_ptr s0) as [k|] eqn:P; [|intros []]. intros [->|[]]. specialize (C _ eq_refl). lia. }
  split; [|split; [|split; [|split; [exact F|split]]]].
  - rewrite T, (o_here _ _ _ _ O HW), (o_level _ _ _ _ O). unfold due. rewrite <- map_app, <- filter_app. reflexivity.
  - intros m Hm. unfold pre_of in Hm. destruct (g_ptr s0); [|destruct Hm]. destruct HW as [->|[m' ->]]; [destruct Hm|]. destruct Hm as [<-|[]]. reflexivity.
  - rewrite A2. unfold opens. rewrite (B2 _ F). reflexivity.
  - intros k Hk. rewrite (U k Hk). apply (o_text _ _ _ _ O). exact Hk.
  - rewrite R. apply (o_err _ _ _ _ O).
Qed.
Print Assumptions C109_reopened.

(** In the foreground all go to the terminal, without the time, from the first message on; a
    request to reopen changes nothing, and there are no logs. *)
Theorem C109_terminal dbg fac level name before l : msgs_ok before -> (forall x, In x before -> snd x = true) -> Forall op_ok l -> writable l ->
  exists s, life dbg true fac level name before l = Ok s /\
    g_err s = map undated (due (if dbg then LOG_DEBUG else LOG_INFO) (map fst before ++ spoken l)) /\
    (forall k, g_text s k = []) /\ g_sys s = [] /\ g_open s = [].
Proof.
  intros H1 H2 H3 H4. unfold life. set (named := match name with Some _ => true | None => false end).
  assert (SB : spoken (map (fun x => Msg (fst x) (snd x)) before) = map fst before).
  { clear. induction before as [|x b IH]; [reflexivity|]. unfold spoken in *. cbn [map flat_map app fst]. rewrite IH. reflexivity. }
  assert (WB : writable (map (fun x => Msg (fst x) (snd x)) before)).
  { intros m H. apply in_map_iff in H. destruct H as ([m' ok] & Q & Hin). cbn [fst snd] in Q. injection Q as -> ->. specialize (H2 _ Hin). discriminate. }
  destruct (says_terminal named level _ (first dbg) (first_inv dbg) (msgs_ops _ H1) WB eq_refl eq_refl eq_refl) as (s1 & E1 & A & B & C & D & T & S & L & O).
  rewrite E1. cbn [bind settle].
  destruct (run_ok true named level _ (first dbg) (first_inv dbg) (msgs_ops _ H1)) as (s1' & E1' & I1). rewrite E1 in E1'. injection E1' as <-.
  destruct (says_terminal named level l s1 I1 H3 H4 D T S) as (s2 & E2 & A2 & B2 & C2 & _ & _ & _ & _ & O2).
  exists s2. split; [exact E2|]. rewrite A2, A, L, SB, C2, C, O2, O. split; [|split; [|auto]].
  - replace (g_level (first dbg)) with (if dbg then LOG_DEBUG else LOG_INFO) by (destruct dbg; reflexivity).
    cbn [first log_set_file g_err app]. unfold due. rewrite filter_app, map_app. reflexivity.
  - intros k. rewrite B2, B. reflexivity.
Qed.
Print Assumptions C109_terminal.

(** With SYSLOG set the system's log gets every message from the moment the daemon is set up, of any
    priority, in order, with its text only, whatever becomes of the log files; else none. *)
Theorem C109_syslog dbg fac level name before l : msgs_ok before -> name_fine name -> Forall op_ok l -> closable l -> name <> None \/ unasked l ->
  exists s, life dbg false fac level name before l = Ok s /\
    reported (g_sys s) = if 0 <? fac then map entry (started name ++ said l) else [].
Proof.
  intros H1 H2 H3 H4 H5. unfold life. set (named := match name with Some _ => true | None => false end).
  assert (UB : unasked (map (fun x => Msg (fst x) (snd x)) before)).
  { intros o w H. apply in_map_iff in H. destruct H as (x & Q & _). discriminate. }
  assert (CB : closable (map (fun x => Msg (fst x) (snd x)) before)) by (intros o w H; destruct (UB o w H)).
  destruct (run_syslog false named level _ (first dbg) (first_inv dbg) (msgs_ops _ H1) CB (or_intror UB)) as (s1 & E1 & A & B).
  rewrite E1. cbn [bind].
  destruct (run_ok false named level _ (first dbg) (first_inv dbg) (msgs_ops _ H1)) as (s1' & E1' & I1). rewrite E1 in E1'. injection E1' as <-.
  assert (B0 : reported (g_sys s1) = []) by (rewrite B; reflexivity). assert (A0 : g_syslog s1 = false) by (rewrite A; reflexivity).
  assert (ST : exists s2, settle false fac level name s1 = Ok s2 /\ inv s2 /\ g_syslog s2 = (0 <? fac) /\ reported (g_sys s2) = wants (0 <? fac) (started name)).
  { unfold settle. set (sx := if 0 <? fac then _ else _).
    assert (X : inv sx /\ g_syslog sx = (0 <? fac) /\ reported (g_sys sx) = []).
    { unfold sx. destruct (0 <? fac); [destruct I1; split; [split; auto|auto]|auto]. }
    destruct X as (X1 & X2 & X3). destruct name as [o|].
    - assert (OK : op_ok (Reopen o None)) by (destruct o; cbn in *; try split; auto; discriminate).
      assert (CL : closable [Reopen o None]) by (intros o' w' [[= _ <-]|[]]; reflexivity).
      destruct (step_syslog false true level sx (Reopen o None) X1 OK CL eq_refl) as (s2 & E2 & I2 & A2 & B2). cbn [step andb negb] in E2.
      exists s2. split; [exact E2|]. split; [exact I2|]. split; [congruence|]. rewrite B2, X3, X2. unfold said. cbn [flat_map app]. rewrite app_nil_r. reflexivity.
    - eexists. split; [reflexivity|]. split; [pose proof X1 as [P1 P2 P3 P4]; split; auto; discriminate|]. split; [exact X2|].
      cbn [started log_set_file g_sys]. rewrite X3. unfold wants. destruct (0 <? fac); reflexivity. }
  destruct ST as (s2 & E2 & I2 & A2 & B2). rewrite E2. cbn [bind].
  destruct (run_syslog false named level l s2 I2 H3 H4) as (s3 & E3 & _ & B3).
  { unfold named. destruct name; [left; reflexivity|]. destruct H5 as [H5|H5]; [congruence|right; exact H5]. }
  exists s3. split; [exact E3|]. rewrite B3, A2, B2, <- wants_app. reflexivity.
Qed.
Print Assumptions C109_syslog.

(** One write to the log that fails, as on a full disk, ends it: later messages are in no log,
    however important and though writing would work again, until somebody asks the daemon to
    reopen; and the system's log is told of it, though that is not where messages were to go. *)
Theorem C109_failed_write_refuted dbg level before ms m l : msgs_ok before -> Forall msg_ok ms -> msg_ok m -> m_prio m <= level -> 0 < level -> Forall op_ok l -> unasked l ->
  exists n s, life dbg false 0 level (Some Opened) before (says ms ++ Msg m false :: l) = Ok s /\
    g_text s n = map dated (due level ms) /\ (forall k, k <> n -> g_text s k = []) /\ g_fp s = None /\
    (before = [] -> ms = [] -> l = [] -> g_sys s = [(LOG_CRIT, stopped)]).
Proof.
  intros H1 H2 HM HP HL H3 HU.
  destruct (C109_file dbg 0 level before ms H1 H2) as (n & s0 & E0 & T0 & O0 & F0 & K0).
  assert (I0 : inv s0 /\ g_level s0 = level).
  { assert (H4 : Forall op_ok (says ms)) by (apply Forall_map; exact H2).
    destruct (life_ok dbg false 0 level (Some Opened) before (says ms) H1 I H4) as (sa & sb & sc & EA & IA & EB & IB & EC & IC & E).
    rewrite E0 in E. injection E as <-. split; [exact IC|]. 
    destruct (opened_ok level None sa IA) as (s1' & E1' & _ & O); [intros x; discriminate|].
    unfold settle in EB. change (0 <? 0) with false in EB. cbv iota in EB. rewrite E1' in EB. injection EB as <-.
    assert (L : g_level s1' = level) by (rewrite (o_level _ _ _ _ O); lia). clear - EC L H2 IB.
    cbv zeta in EC. revert s1' EC L IB. induction H2 as [|m ms M1 M2 IH]; intros s E L I; unfold says in E; cbn [map run step] in E.
    - injection E as <-. exact L.
    - destruct (log_msg_ok m true s M1 (inv_usable s I)) as (s' & E' & Y). rewrite E' in E. cbn [bind] in E.
      apply (IH s' E); [rewrite (y_level _ _ _ _ Y); exact L|exact (says_inv _ _ _ _ I Y)]. }
  destruct I0 as (I0 & L0).
  destruct (log_msg_ok m false s0 HM (inv_usable s0 I0)) as (s1 & E1 & Y).
  assert (SE : sees s0 m = true) by (unfold sees; rewrite F0, L0; apply Z.leb_le; exact HP).
  assert (F1 : g_fp s1 = None) by (rewrite (y_fp _ _ _ _ Y), SE; reflexivity).
  destruct (run_silent false true level l s1 (says_inv _ _ _ _ I0 Y) H3 HU F1) as (s2 & E2 & T2 & _ & F2).
  exists n, s2. split.
  { unfold life in E0 |- *. destruct (run false true level (first dbg) (map (fun x => Msg (fst x) (snd x)) before)) as [sa|]; [|discriminate]. cbn [bind] in *.
    destruct (settle false 0 level (Some Opened) sa) as [sb|]; [|discriminate]. cbn [bind] in *. rewrite run_app, E0. cbn [bind run step]. rewrite E1. cbn [bind]. exact E2. }
  split; [rewrite T2, (y_text _ _ _ _ Y), andb_false_r, app_nil_r, T0; f_equal; f_equal; lia|].
  split; [intros k Hk; rewrite T2, (y_text _ _ _ _ Y), andb_false_r, app_nil_r; apply K0, Hk|].
  split; [exact F2|].
  intros -> -> ->. injection E2 as <-. rewrite (y_sys _ _ _ _ Y), SE.
  assert (Q : g_sys s0 = [] /\ g_syslog s0 = false) by (clear - E0; destruct dbg; cbv in E0; injection E0 as <-; split; reflexivity).
  destruct Q as (-> & ->). reflexivity.
Qed.
Print Assumptions C109_failed_write_refuted.

(** A log that can not be opened again, though it may be for a moment only: the daemon gives up
    the one it has, and its messages are in no log until the next request. *)
Theorem C109_failed_reopen_refuted dbg fac level before l0 m w l o : msgs_ok before -> Forall op_ok l0 -> op_ok (Reopen o w) -> o = NoFile m true \/ o = NoUse m true ->
  Forall op_ok l -> unasked l ->
  exists s0 s, life dbg false fac level (Some Opened) before l0 = Ok s0 /\
    life dbg false fac level (Some Opened) before (l0 ++ Reopen o w :: l) = Ok s /\
    (forall k, g_text s k = g_text s0 k \/ g_fp s0 = Some (File k) /\ exists t, g_text s k = g_text s0 k ++ [t]) /\ g_fp s = None.
Proof.
  intros H1 H2 H3 HO H4 HU.
  destruct (life_ok dbg false fac level (Some Opened) before l0 H1 I H2) as (sa & sb & s0 & EA & IA & EB & IB & EC & IC & E).
  destruct (op_parts _ _ H3) as (OO & W). assert (M : msg_ok m) by (destruct HO as [->| ->]; exact OO).
  destruct (failed_ok level o m true w s0 HO IC M W) as (s1 & E1 & I1 & Y).
  destruct (run_silent false true level l s1 I1 H4 HU (f_fp _ _ _ _ _ Y)) as (s2 & E2 & T2 & _ & F2).
  exists s0, s2. split; [exact E|]. split.
  { unfold life. cbv zeta in *. rewrite EA. cbn [bind]. rewrite EB. cbn [bind]. rewrite run_app, EC. cbn [bind run step andb negb]. rewrite E1. cbn [bind]. exact E2. }
  split; [|exact F2]. intros k. rewrite T2, (f_text _ _ _ _ _ Y). destruct (sees s0 m && true); [|left; apply app_nil_r].
  destruct (g_fp s0) as [[|n]|] eqn:F; try (left; apply app_nil_r). destruct (Nat.eqb_spec k n) as [->|]; [|left; apply app_nil_r].
  right. split; [reflexivity|]. eexists. reflexivity.
Qed.
Print Assumptions C109_failed_reopen_refuted.

(** Any number of threads with a message each, in any order of their steps, while nothing is opened
    again: each message that is important enough is in the log once when all are through. *)
Theorem C109_threads_partial level n (N : nat) (ms : nat -> msg) s l : g_fp s = Some (File n) -> In n (g_open s) -> g_level s = level -> g_time s = true ->
  (forall t, (t < N)%nat -> msg_ok (ms t)) -> (forall t, ~ In (Thread t false) l) ->
  let w := mkW s (fun t => if (t <? N)%nat then Ready (ms t) else Done) [] in
  exists w', turns level w l = Ok w' /\
    ((forall t, w_th w' t = Done) -> Permutation (g_text (w_lg w') n) (g_text s n ++ map dated (due level (map ms (seq 0 N))))).
Proof.
  intros F O L T M OK w.
  assert (PA : pending_all level N (w_th w) = map dated (due level (map ms (seq 0 N)))).
  { unfold pending_all, due. assert (X : forall k, In k (seq 0 N) -> (k < N)%nat) by (intros k H; apply in_seq in H; lia). revert X.
    generalize (seq 0 N). induction l0 as [|k l0 IH]; intros X; [reflexivity|]. cbn [flat_map map filter].
    rewrite IH by (intros j Hj; apply X; right; exact Hj). unfold w. cbn [w_th].
    rewrite (proj2 (Nat.ltb_lt k N) (X k (or_introl eq_refl))). cbn [pending]. destruct (m_prio (ms k) <=? level); reflexivity. }
  assert (C : calm level N n (g_text s n) (map dated (due level (map ms (seq 0 N)))) w).
  { split; unfold w; cbn [w_lg w_th w_main]; auto.
    - intros t m. destruct (Nat.ltb_spec t N) as [H|H]; intros [Q|[Q|[d Q]]]; try discriminate. injection Q as <-. auto.
    - intros t m d. destruct (t <? N)%nat; discriminate.
    - unfold w in PA. cbn [w_th] in PA. rewrite PA. apply Permutation_refl. }
  destruct (turns_calm level N n _ _ l w C OK) as (w' & E & C'). exists w'. split; [exact E|]. intros D.
  pose proof (c_text _ _ _ _ _ _ C') as P. replace (pending_all level N (w_th w')) with (@nil (list Z)) in P; [rewrite app_nil_r in P; exact P|].
  unfold pending_all. symmetry. clear - D. induction (seq 0 N) as [|k r IH]; [reflexivity|]. cbn [flat_map]. rewrite D, IH. reflexivity.
Qed.
Print Assumptions C109_threads_partial.

(** The main thread alone, in its own steps, does what opening the log does. *)
Theorem C109_alone dbg fac level name before l s th : msgs_ok before -> name_fine name -> Forall op_ok l -> life dbg false fac level name before l = Ok s ->
  let w := halfway true th s in
  exists s1, turns level w (repeat Main (List.length (w_main w))) = Ok (mkW s1 th []) /\
    open_daemon_logfile level Opened None s = Ok (set_ptr (Some (g_new s)) s1).
Proof.
  intros H1 H2 H3 HE w. destruct (life_ok dbg false fac level name before l H1 H2 H3) as (? & ? & s' & _ & _ & _ & _ & _ & I & E).
  rewrite HE in E. injection E as <-. pose proof I as [A B C D]. unfold w, halfway, open_daemon_logfile, close_old.
  destruct (g_ptr s) as [old|] eqn:P; cbn [w_main List.length repeat turns turn_step bind w_lg w_th log_set_file g_ptr].
  - unfold fclose. cbn [g_open g_fp g_level g_time g_syslog g_ptr g_new g_text g_err g_sys].
    replace (isin old (g_new s :: g_open s)) with true by (symmetry; apply isin_spec; right; rewrite A; unfold opens; rewrite P; left; reflexivity).
    cbn [bind]. eexists. split; reflexivity.
  - eexists. split; reflexivity.
Qed.
Print Assumptions C109_alone.

(** ** Examples and refutations by execution *)
Definition msg_of (p : Z) (t : list Z) : msg := mkMsg p (zs "2026-11-17 03:00:00 ") (zs "%s") t (repeat 7 (Z.to_nat 1024)).
Definition here : msg := msg_of LOG_INFO (zs "Client <ann@host:1> connected").
Definition bad : msg := msg_of LOG_WARNING (zs "Unable to lock daemon logfile ""/var/log/conman""").
Lemma msg_of_ok p t : chars_ok t -> Z.of_nat (List.length t) <= 900 -> msg_ok (msg_of p t).
Proof.
  intros C L. split; [apply repeat_length|]. split; [repeat (apply Forall_cons; [cbv; split; discriminate || reflexivity|]); apply Forall_nil|].
  split; [exact C|]. split; [discriminate|]. split; [discriminate|]. cbn [m_stamp m_text msg_of]. change (Z.of_nat (List.length (zs "2026-11-17 03:00:00 "))) with 20. lia.
Qed.
Lemma here_ok : msg_ok here.
Proof. apply msg_of_ok; [repeat (apply Forall_cons; [cbv; split; discriminate || reflexivity|]); apply Forall_nil|cbv; discriminate]. Qed.
Lemma bad_ok : msg_ok bad.
Proof. apply msg_of_ok; [repeat (apply Forall_cons; [cbv; split; discriminate || reflexivity|]); apply Forall_nil|cbv; discriminate]. Qed.

(** A daemon with a log and SYSLOG, a message, a request that opens the log anew, a message, one
    that can not, and a message that only the system's log has. *)
Example C109_example :
  op_ok (Reopen (NoUse bad true) None) /\ msg_ok here /\
  exists s, life false false 24 LOG_INFO (Some Opened) [(here, true)] [Msg here true; Reopen Opened None; Msg bad true; Msg (msg_of LOG_DEBUG (zs "x")) true; Reopen (NoUse bad true) None; Msg here true] = Ok s /\
    g_err s = [undated here] /\ g_text s 0%nat = [dated here] /\ g_text s 1%nat = [dated bad; dated bad] /\ g_open s = [] /\
    g_sys s = map entry [here; bad; msg_of LOG_DEBUG (zs "x"); bad; here].
Proof.
  split; [split; [exact bad_ok|discriminate]|]. split; [exact here_ok|].
  eexists. split; [vm_compute; reflexivity|]. vm_compute. repeat split.
Qed.

(** A client is served, or turned away, while the daemon is asked to reopen its log: the thread has
    read which stream to write to, the main thread closes it, and the thread writes to what
    has been freed. *)
Theorem C109_threads_refuted : exists s, life false false 0 LOG_INFO (Some Opened) [] [] = Ok s /\ msg_ok here /\
  let w := halfway true (fun t => if (t =? 0)%nat then Ready here else Done) s in
  turns LOG_INFO w [Thread 0 true; Thread 0 true; Main; Main; Thread 0 true] = UB UseAfterFree.
Proof. eexists. split; [vm_compute; reflexivity|]. split; [exact here_ok|]. vm_compute. reflexivity. Qed.
Print Assumptions C109_threads_refuted.

(** Or the log can not be opened again: the thread has found that there is a log, the main thread
    takes it away, and the thread writes to no stream at all. *)
Theorem C109_threads_null_refuted : exists s, life false false 0 LOG_INFO (Some Opened) [] [] = Ok s /\ msg_ok here /\
  let w := halfway false (fun t => if (t =? 0)%nat then Ready here else Done) s in
  turns LOG_INFO w [Thread 0 true; Main; Main; Thread 0 true; Thread 0 true] = UB NullDeref.
Proof. eexists. split; [vm_compute; reflexivity|]. split; [exact here_ok|]. vm_compute. reflexivity. Qed.
Print Assumptions C109_threads_null_refuted.

(** Two threads that are not disturbed. *)
Example C109_threads_example : exists s w', life false false 0 LOG_INFO (Some Opened) [] [] = Ok s /\
  turns LOG_INFO (mkW s (fun t => if (t <? 2)%nat then Ready (if (t =? 0)%nat then here else bad) else Done) [])
    [Thread 0 true; Thread 1 true; Thread 1 true; Thread 0 true; Thread 1 true; Main; Thread 0 true] = Ok w' /\
  g_text (w_lg w') 0%nat = [dated bad; dated here].
Proof. do 2 eexists. split; [vm_compute; reflexivity|]. split; [vm_compute; reflexivity|]. vm_compute. reflexivity. Qed.
