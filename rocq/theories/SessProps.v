(** Theorems about sessions (C28-C34, C55-C57, C68). *)
From Verif Require Import Base BaseProof RingModel RingSpec RingProof LogModel LogSpec LogProof
  TelnetModel TelnetSpec TelnetProof EscModel EscSpec EscProof SessModel SessSpec SessInv SessLink SessStep SessWorld SessThread
  SessFacts SessMux SessMode.
Set Implicit Arguments.

Lemma reach_WWF E w : env_ok E -> reachable E w -> WWF E w.
Proof.
  intros HE (cs & w0 & es & A & B & C). destruct (boot_ok HE cs) as (w1 & A1 & W). rewrite A in A1. injection A1 as <-.
  exact (@run_WWF E HE es w0 w W B C).
Qed.
Lemma run_app E es' : forall es w w1, run E w es = Ok w1 -> run E w (es ++ es') = run E w1 es'.
Proof.
  induction es as [|e es IH]; intros w w1 H; cbn [run app] in *; [injection H as ->; reflexivity|].
  apply bind_ok in H. destruct H as (r & A & B). rewrite A. cbn [bind]. exact (IH _ _ B).
Qed.
Lemma reach_run E w es w' : reachable E w -> Forall event_ok es -> run E w es = Ok w' -> reachable E w'.
Proof.
  intros (cs & w0 & es0 & A & B & C) F H. exists cs, w0, (es0 ++ es). split; [exact A|]. split; [apply Forall_app; auto|].
  rewrite (run_app E es es0 w0 C). exact H.
Qed.
Lemma reach_step E w e r : reachable E w -> event_ok e -> step E w e = Ok r -> reachable E (fst r).
Proof.
  intros R He H. apply (@reach_run E w [e] (fst r) R); [auto|]. cbn [run]. rewrite H. reflexivity.
Qed.
Lemma gone_detached h v : gone h v <-> detached h v.
Proof.
  unfold gone, detached, unlinked. split.
  - intros (o & A & B & (C & D) & F). exists o. rewrite client_b_cls. auto 9.
  - intros (o & A & B & C & D & F). exists o. rewrite client_b_cls in B. auto 9.
Qed.

(** ** C28: links *)
Theorem C28_links_consistent E w : env_ok E -> reachable E w ->
  links_symmetric (w_heap w) /\ links_once (w_heap w) /\ links_typed (w_heap w).
Proof.
  intros HE R. pose proof (ww_hok (reach_WWF HE R)) as HK. split; [|split].
  - intros a b. split.
    + intros (o & A & B). destruct (read_live a b HK A B) as (ob & X & Y & _). exists ob. auto.
    + intros (o & A & B). destruct (write_live b a HK A B) as (ob & X & Y & _). exists ob. auto.
  - intros a o A. exact (wg_nd (proj1 HK) a (G_of _ _ A)).
  - intros a b (o & A & B). destruct (read_live a b HK A B) as (ob & X & Y & T).
    unfold is_client_id, is_console_id, is_log_id.
    destruct (cls_of o) eqn:C1, (cls_of ob) eqn:C2; try discriminate.
    + left. split; [exists o; rewrite client_b_cls; auto|exists ob; rewrite console_b_cls; auto].
    + right. split; [exists o; rewrite console_b_cls; auto|left; exists ob; rewrite client_b_cls; auto].
    + right. split; [exists o; rewrite console_b_cls; auto|right; exists ob; rewrite log_b_cls; auto].
Qed.
Print Assumptions C28_links_consistent.

(** The daemon starts with any number of consoles, logged or not. *)
Theorem C28_starts E cs : env_ok E -> exists w, boot E cs = Ok w /\ reachable E w /\
  length (w_objs w) = length cs + length (filter (fun c => match snd c with Some _ => true | None => false end) cs).
Proof.
  intros HE. destruct (boot_ok HE cs) as (w & A & _). exists w. split; [exact A|]. split.
  - exists cs, w, []. auto.
  - assert (X : forall cs w w', boot_from E w cs = Ok w' -> length (w_objs w') = length (w_objs w) + length cs +
      length (filter (fun c : console_conf => match snd c with Some _ => true | None => false end) cs)).
    { clear. induction cs as [|[t [p|]] cs IH]; intros w w' H; cbn [boot_from add_console filter snd] in H |- *.
      - injection H as <-. cbn. lia.
      - destruct (link_objs E _ _ _) as [h1|]; [|discriminate]. cbn [bind] in H. apply IH in H. cbn [w_objs] in H.
        rewrite app_length in H. cbn [length] in *. lia.
      - cbn [bind] in H. apply IH in H. cbn [w_objs] in H. rewrite app_length in H. cbn [length] in *. lia. }
    exact (X cs _ w A).
Qed.
Print Assumptions C28_starts.

(** ** C29: exclusive access *)

(** A request handled without interruption: if it fails nothing changes; if it
    succeeds the new client writes to every console that matched, and unless force
    or join was given none of them had a writer. *)
Theorem C29_request_partial E w t q m ros : env_ok E -> reachable E w ->
  nth_error (w_thr w) t = Some (TStart q m) -> r_cmd q = CmdConnect ->
  3 + 3 * length (w_objs w) <= length ros ->
  exists w' e, run E w (alone t ros) = Ok w' /\ nth_error (w_thr w') t = Some (TEnd e) /\
    (e <> ERR_NONE -> w_heap w' = w_heap w /\ w_objs w' = w_objs w) /\
    (e = ERR_NONE -> forall k, matching w m k ->
       exists ok ok', w_heap w k = Some ok /\ w_heap w' k = Some ok' /\
         s_writers ok' = (if r_force q then [] else s_writers ok) ++ [w_next w] /\
         (r_force q = false -> r_join q = false -> s_writers ok = [])).
Proof.
  intros HE R Ht Hq L. destruct (connect_alone HE t ros (reach_WWF HE R) Ht Hq L) as (w' & e & A & B & C & D).
  exists w', e. split; [exact A|]. split; [exact B|]. split; [exact C|]. intros He k Hk.
  destruct (D He k Hk) as (ok & ok' & X1 & X2 & X3 & _ & X5). exists ok, ok'. auto.
Qed.
Print Assumptions C29_request_partial.

(** In any interleaving, only a client that asked for it gets a link: a console
    gets a new writer only through that writer's own request or command. *)
Theorem C29_only_by_asking E w e w' s : env_ok E -> reachable E w -> event_ok e -> step E w e = Ok (w', s) ->
  forall c k, is_client_id (w_heap w') c -> (feeds (w_heap w') c k /\ ~ feeds (w_heap w) c k) \/
    (feeds (w_heap w') k c /\ ~ feeds (w_heap w) k c) -> asks w e c.
Proof.
  intros HE R He H c k (o' & Ho' & CB) X. pose proof (reach_WWF HE R) as W.
  pose proof (step_ok HE e W He) as SO. rewrite H in SO. cbn [chk fst] in SO. destruct SO as [W' GA].
  assert (DEC : asks w e c \/ ~ asks w e c).
  { destruct e as [q m|t sent ro|i rd wr ro rst|k0 ro|l m|l ok m]; cbn [asks]; auto.
    - destruct (nth_error (w_thr w) t) as [[q m|q sel|c' [|x todo]|e]|] eqn:Ht;
        try (right; intros (x & todo' & Y); discriminate).
      destruct (Nat.eq_dec c' c) as [->|]; [left; eauto|]. right. intros (y & todo' & Y). congruence.
    - destruct rd as [[| | |d]|]; auto. destruct (Nat.eq_dec i c) as [->|N]; [|right; intros [Y _]; contradiction].
      destruct (w_heap w c) as [o|] eqn:Hc; [|right; intros (_ & o & x & Y & _); discriminate].
      destruct (existsb switches (stream_cmds (pre (s_esc o) d))) eqn:SW.
      + apply existsb_exists in SW. destruct SW as (x & S1 & S2). left. split; [reflexivity|]. exists o, x. auto.
      + right. intros (_ & o2 & x & Y & S1 & S2). injection Y as <-.
        assert (existsb switches (stream_cmds (pre (s_esc o) d)) = true) by (apply existsb_exists; eauto). congruence. }
  destruct DEC as [|N]; [assumption|exfalso].
  destruct (w_heap w c) as [o|] eqn:Hc.
  - destruct (GA c o o' Hc Ho') as [CL IN].
    assert (CBo : client_b o = true) by (rewrite client_b_eq, <- CL, <- client_b_eq; exact CB).
    destruct (IN N CBo) as [I1 I2].
    destruct X as [[(o1 & A & B) NF]|[(ok & A & B) NF]].
    + rewrite Ho' in A. injection A as <-. apply NF. exists o. auto.
    + destruct (read_live k c (ww_hok W') A B) as (o1 & A1 & B1 & _). rewrite Ho' in A1. injection A1 as <-.
      apply NF. apply I2 in B1. destruct (write_live c k (ww_hok W) Hc B1) as (ok0 & Y & Z & _). exists ok0. auto.
  - (* newly created: no links *)
    assert (NL : s_readers o' = [] /\ s_writers o' = []).
    { destruct (step_new E w e H) as (_ & NO & _). cbn [fst] in NO.
      assert (IN : In c (w_objs w')) by (apply (ww_live W'), live_some; eauto).
      destruct (NO c IN) as [Y|Y].
      { apply (ww_live W), live_some in Y. destruct Y as (o & Y). congruence. }
      destruct e as [q m|t sent ro|i rd wr ro rst|k0 ro|l m|l ok m]; cbn [step] in H.
      - injection H as <- _. cbn in Ho'. congruence.
      - destruct (nth_error (w_thr w) t) as [[q m|q sel|c' [|x todo]|e]|] eqn:Ht.
        + destruct (admit _ _ _ _); [|discriminate]. cbn in H. injection H as <- _. cbn in Ho'. congruence.
        + destruct sent; cbn [negb] in H; injection H as <- _; cbn in Ho'; [|congruence].
          rewrite Y, upd_same in Ho'. injection Ho' as <-. auto.
        + injection H as <- _. cbn in Ho'. congruence.
        + destruct (do_tstep E (w_heap w) c' x ro) as [h1|] eqn:T; [|discriminate]. cbn in H. injection H as <- _. cbn in IN.
          exfalso. apply (ww_live W), live_some in IN. destruct IN as (o & Z). congruence.
        + injection H as <- _. congruence.
        + injection H as <- _. congruence.
      - exfalso. assert (Z : In c (w_objs w)).
        { destruct (negb (mem i (w_objs w))); [injection H as <- _; exact IN|].
          apply bind_ok in H. destruct H as (r1 & _ & H). destruct (snd r1); [injection H as <- _; cbn in IN; apply del_In in IN; tauto|].
          destruct wr; [|injection H as <- _; exact IN]. apply bind_ok in H. destruct H as ([[h2 s2] d2] & _ & H).
          injection H as <- _. destruct d2; cbn in IN; [apply del_In in IN; tauto|exact IN]. }
        apply (ww_live W), live_some in Z. destruct Z as (o & Z). congruence.
      - exfalso. assert (Z : In c (w_objs w)).
        { destruct (negb (mem k0 (w_objs w))); [injection H as <- _; exact IN|]. apply bind_ok in H. destruct H as (o & _ & H).
          destruct (console_b o); [|injection H as <- _; exact IN]. apply bind_ok in H. destruct H as (h1 & _ & H). injection H as <- _. exact IN. }
        apply (ww_live W), live_some in Z. destruct Z as (o & Z). congruence.
      - exfalso. assert (Z : In c (w_objs w)).
        { destruct (negb (mem l (w_objs w))); [injection H as <- _; exact IN|]. apply bind_ok in H. destruct H as (o & _ & H).
          destruct (log_b o); [|injection H as <- _; exact IN]. apply bind_ok in H. destruct H as (h1 & _ & H). injection H as <- _. exact IN. }
        apply (ww_live W), live_some in Z. destruct Z as (o & Z). congruence.
      - exfalso. assert (Z : In c (w_objs w)).
        { destruct (negb (mem l (w_objs w))); [injection H as <- _; exact IN|]. apply bind_ok in H. destruct H as (o & _ & H).
          destruct (log_b o); [|injection H as <- _; exact IN]. destruct ok; [|injection H as <- _; exact IN].
          apply bind_ok in H. destruct H as (h1 & _ & H). apply bind_ok in H. destruct H as (h2 & _ & H). injection H as <- _. exact IN. }
        apply (ww_live W), live_some in Z. destruct Z as (o & Z). congruence. }
    destruct NL as [NL1 NL2]. destruct X as [[(o1 & A & B) NF]|[(ok & A & B) NF]].
    + rewrite Ho' in A. injection A as <-. rewrite NL1 in B. exact B.
    + destruct (read_live k c (ww_hok W') A B) as (o1 & A1 & B1 & _). rewrite Ho' in A1. injection A1 as <-. rewrite NL2 in B1. exact B1.
Qed.
Print Assumptions C29_only_by_asking.

(** ** C30: stealing *)

(** A forced connect, handled without interruption. *)
Theorem C30_forced_connect_partial E w t q m ros : env_ok E -> reachable E w ->
  nth_error (w_thr w) t = Some (TStart q m) -> r_cmd q = CmdConnect -> r_force q = true ->
  3 + 3 * length (w_objs w) <= length ros ->
  exists w' e, run E w (alone t ros) = Ok w' /\ nth_error (w_thr w') t = Some (TEnd e) /\
    (e <> ERR_NONE -> w_heap w' = w_heap w) /\
    (e = ERR_NONE -> forall k, matching w m k ->
       (exists ok', w_heap w' k = Some ok' /\ s_writers ok' = [w_next w]) /\
       (forall v, fed_by (w_heap w) k v -> detached (w_heap w') v)).
Proof.
  intros HE R Ht Hq Hf L. destruct (connect_alone HE t ros (reach_WWF HE R) Ht Hq L) as (w' & e & A & B & C & D).
  exists w', e. split; [exact A|]. split; [exact B|]. split; [intros X; apply C, X|]. intros He k Hk.
  destruct (D He k Hk) as (ok & ok' & X1 & X2 & X3 & X4 & X5). rewrite Hf in X3. split; [eauto|].
  intros v (o & Y1 & Y2). rewrite X1 in Y1. injection Y1 as <-. apply gone_detached. auto.
Qed.
Print Assumptions C30_forced_connect_partial.

(** Whatever else goes on: at the moment the forcing client is linked to a
    console it is its only writer, and everybody who was writing to it has lost
    all links; unless they had ended or were in quiet mode they have the
    announcement pending, and the main loop will flush it (unless suspended). *)
Theorem C30_steal_any_time_partial E w t c k todo oc ok ro : env_ok E -> reachable E w ->
  nth_error (w_thr w) t = Some (TRun c (ToConsole k :: todo)) ->
  w_heap w c = Some oc -> r_force (s_req oc) = true -> w_heap w k = Some ok ->
  exists w', step E w (EvThread t true ro) = Ok (w', []) /\
    (exists ok', w_heap w' k = Some ok' /\ s_writers ok' = [c]) /\
    (forall v ov, In v (s_writers ok) -> w_heap w v = Some ov -> detached (w_heap w') v /\
       (o_eof (s_ring ov) = false -> is_quiet (s_ring ov) = false -> e_txt E (NArrived c k true) <> [] ->
        exists ov' p, w_heap w' v = Some ov' /\ iov (e_sz E) (s_ring ov') = Ok p /\ p <> [] /\
          (is_suspended (s_ring ov) = false -> o_pollout (s_ring ov') = true))).
Proof.
  intros HE R Ht Hc Hf Hk. destruct (steal_step HE t ro (reach_WWF HE R) Ht Hc Hf Hk) as (h1 & A & B & C).
  exists (set_thr (set_heap w h1) t (TRun c todo)). split; [exact A|]. split; [exact B|]. intros v ov Hv Hov.
  destruct (C v ov Hv Hov) as [D F]. split; [apply gone_detached, D|exact F].
Qed.
Print Assumptions C30_steal_any_time_partial.

(** ** C31: monitoring *)

(** A client from a granted monitor request, over any further history in which
    it does not switch: it never writes to a console, and nothing it sends, nor
    the loss of its connection, puts anything into anybody's buffer but its own. *)
Lemma mon_run E c : env_ok E -> forall es w w', WWF E w -> Forall event_ok es -> run E w es = Ok w' -> mon c w ->
  ~ ever_switches E c w es -> mon c w'.
Proof.
  intros HE. induction es as [|e es IH]; intros w w' W F H M NS; cbn [run] in H; [injection H as <-; exact M|].
  inversion F as [|? ? F1 F2]; subst. apply bind_ok in H. destruct H as (r & A & H).
  cbn [ever_switches] in NS. rewrite A in NS.
  pose proof (step_ok HE e W F1) as SO. rewrite A in SO. destruct SO as [W' _].
  eapply IH; [exact W'|exact F2|exact H| |intros X; apply NS; now right].
  apply (@mon_step E HE c w e r W F1 A M). intros X. apply NS. left. unfold asks_write, sends_switch in *.
  destruct e as [| |i rd wr ro rst| | |]; try contradiction. destruct rd as [[| | |d]|]; try contradiction.
  destruct X as (-> & o & Y & Z). split; [reflexivity|]. apply existsb_exists in Z. destruct Z as (x & Z1 & Z2). exists o, x. auto.
Qed.
Theorem C31_read_only_partial E w t q sel ro0 w1 s1 es w2 : env_ok E -> reachable E w ->
  nth_error (w_thr w) t = Some (TGranted q sel) -> r_cmd q = CmdMonitor ->
  step E w (EvThread t true ro0) = Ok (w1, s1) ->
  Forall event_ok es -> run E w1 es = Ok w2 -> ~ ever_switches E (w_next w) w1 es ->
  let c := w_next w in
  (forall k, ~ feeds (w_heap w2) c k) /\
  (forall rd wr ro rst w3 s3, let e := EvMux c rd wr ro rst in
     event_ok e -> ~ sends_switch w2 e c -> step E w2 e = Ok (w3, s3) ->
     forall j o, j <> c -> w_heap w2 j = Some o -> exists o', w_heap w3 j = Some o' /\ s_ring o' = s_ring o).
Proof.
  intros HE R Ht Hq H F RN NS c. pose proof (reach_WWF HE R) as W.
  assert (R1 : reachable E w1) by (exact (reach_step (EvThread t true ro0) R I H)).
  assert (M1 : mon c w1).
  { cbn [step] in H. rewrite Ht in H. cbn [negb] in H. injection H as <- _. unfold mon. cbn [set_thr w_next w_heap w_thr].
    fold c. split; [lia|]. split; [|split].
    - intros o X. rewrite upd_same in X. injection X as <-. reflexivity.
    - intros o X. rewrite upd_same in X. injection X as <-. reflexivity.
    - intros t' todo k X IN. set (wa := mkW (upd (w_heap w) c (Some (new_client E q))) (S c) (w_objs w ++ [c]) (w_thr w)) in *.
      assert (Ht1 : nth_error (w_thr wa) t = Some (TGranted q sel)) by exact Ht.
      change (nth_error (w_thr (set_thr wa t (TRun c (program (r_cmd q) sel)))) t' = Some (TRun c todo)) in X.
      rewrite (set_thr_nth E _ _ _ _ Ht1) in X. destruct (t' =? t).
      + injection X as <-. rewrite Hq in IN. destruct sel; cbn in IN; [exact IN|]. destruct IN as [Y|[Y|[]]]; discriminate.
      + destruct (ww_thr W t' X) as (LT & _). unfold c in LT. lia. }
  assert (R2 : reachable E w2 /\ WWF E w2).
  { pose proof (@reach_run E w1 es w2 R1 F RN) as R2. split; [exact R2|exact (reach_WWF HE R2)]. }
  destruct R2 as [R2 W2]. pose proof (@mon_run E c HE es w1 w2 (reach_WWF HE R1) F RN M1 NS) as M2.
  destruct M2 as (_ & RO & CL & _). split.
  - intros k (o & A & B). rewrite (RO o A) in B. exact B.
  - intros rd wr ro rst w3 s3 e He N HS. destruct (w_heap w2 c) as [o|] eqn:Hc.
    + pose proof (@ro_mux E HE w2 c o rd wr ro rst (w3, s3) W2 He Hc (CL o eq_refl) (RO o Hc)) as X. cbn [fst] in X.
      assert (Y : rings c (w_heap w2) (w_heap w3)).
      { apply X.
        - intros o2 d -> Ho2. destruct (existsb _ _) eqn:Z; [|reflexivity]. exfalso. apply N. cbn. split; [reflexivity|].
          apply existsb_exists in Z. destruct Z as (x & Z1 & Z2). exists o2, x. auto.
        - exact HS. }
      exact Y.
    + unfold e in HS. cbn [step] in HS. assert (NI : mem c (w_objs w2) = false).
      { apply mem_not. intros X. apply (ww_live W2), live_some in X. destruct X as (o & X). congruence. }
      rewrite NI in HS. cbn in HS. injection HS as <- _. intros j o _ Hj. eauto.
Qed.
Print Assumptions C31_read_only_partial.

(** ** C32: broadcast *)
Theorem C32_hears_nothing E w c o : env_ok E -> reachable E w -> w_heap w c = Some o -> client_b o = true ->
  r_bcast (s_req o) = true -> forall k, ~ feeds (w_heap w) k c.
Proof. intros HE R Hc CB Hb k. exact (bcast_hears_nobody (reach_WWF HE R) Hc CB Hb). Qed.
Print Assumptions C32_hears_nothing.

(** Input without commands is queued, once and in order, for each of the
    consoles the client writes to, and for nobody else. *)
Theorem C32_input_to_each E w c o d ro rst : env_ok E -> reachable E w -> w_heap w c = Some o -> client_b o = true ->
  bytes_ok d -> stream_cmds (pre (s_esc o) d) = [] -> stream_data (pre (s_esc o) d) <> [] ->
  exists w', step E w (EvMux c (Some (RdData d)) None ro rst) = Ok (w', []) /\
    forall j p, j <> c -> w_heap w j = Some p -> exists p', w_heap w' j = Some p' /\
      (feeds (w_heap w) c j -> gets E (stream_data (pre (s_esc o) d)) false p p') /\
      (~ feeds (w_heap w) c j -> p' = p).
Proof.
  intros HE R Hc CB Bd NC ND. destruct (input_step HE c ro rst (reach_WWF HE R) Hc CB Bd NC ND) as (w' & A & _ & B).
  exists w'. split; [exact A|]. intros j p Hj Hp. destruct (B j p Hj Hp) as (p' & X & Y). exists p'. split; [exact X|].
  destruct (mem j (s_readers o)) eqn:M; split.
  - auto.
  - intros N. exfalso. apply N. exists o. split; [exact Hc|]. now apply mem_In.
  - intros (o2 & A2 & B2). rewrite Hc in A2. injection A2 as <-. apply mem_In in B2. congruence.
  - auto.
Qed.
Print Assumptions C32_input_to_each.

(** ** C33: survival *)
Theorem C33_survives_partial E w e : env_ok E -> reachable E w -> event_ok e -> ~ fragile E w e ->
  exists r, step E w e = Ok r.
Proof.
  intros HE R He N. pose proof (step_ok HE e (reach_WWF HE R) He) as SO.
  destruct (step E w e) as [r|k]; [eauto|]. exfalso. apply N. cbn [chk] in SO. unfold danger, fragile in *.
  destruct e as [q m|t sent ro|i rd wr ro rst|k0 ro|l m|l ok m]; try contradiction.
  destruct rd as [ev|]; [|exact SO]. destruct SO as (o & d & x & A & B & -> & D & F). exists o, x.
  unfold cmd_danger, no_console in F. split; [exact A|]. split; [exact B|]. split; [exact D|].
    destruct F as [[F1 [F2 F3]]|F]; [left; auto|right; auto].
Qed.
Print Assumptions C33_survives_partial.

(** ** C34: cleaning up *)
Theorem C34_no_dangling E w : env_ok E -> reachable E w ->
  NoDup (w_objs w) /\ (forall i, In i (w_objs w) <-> live (w_heap w) i) /\
  (forall i o j, w_heap w i = Some o -> In j (s_readers o) \/ In j (s_writers o) -> In j (w_objs w)).
Proof.
  intros HE R. pose proof (reach_WWF HE R) as W. split; [exact (ww_nd W)|]. split; [exact (ww_live W)|].
  intros i o j A B. apply (ww_live W), live_some. destruct B as [B|B].
  - destruct (read_live i j (ww_hok W) A B) as (p & X & _). eauto.
  - destruct (write_live i j (ww_hok W) A B) as (p & X & _). eauto.
Qed.
Print Assumptions C34_no_dangling.

(** A client that has no links any more is marked for disconnection (or its
    session is still being set up). *)
Theorem C34_marked E w c o : env_ok E -> reachable E w -> w_heap w c = Some o -> client_b o = true ->
  s_readers o = [] -> s_writers o = [] -> detached (w_heap w) c \/ being_set_up w c.
Proof.
  intros HE R A B C D. destruct (ww_eof (reach_WWF HE R) c A B (conj C D)) as [X|(t & todo & X & Y)].
  - left. exists o. auto.
  - right. exists t, todo. apply existsb_exists in Y. destruct Y as ([k|k|k] & Y1 & Y2); [exists k; auto|exists k; auto|discriminate].
Qed.
Print Assumptions C34_marked.

(** A client at end of file whose pending output has all been sent is removed. *)
Theorem C34_flushed_then_removed E w v ov p rs ro rst r : env_ok E -> reachable E w ->
  w_heap w v = Some ov -> client_b ov = true -> o_eof (s_ring ov) = true -> iov (e_sz E) (s_ring ov) = Ok p ->
  step E w (EvMux v None (Some rs) ro rst) = Ok (r, p) -> removed r v.
Proof. intros HE R A B C D F. exact (drain_step HE v rs ro rst (reach_WWF HE R) A B C D F). Qed.
Print Assumptions C34_flushed_then_removed.

(** A client that closes its connection, with nothing pending, is removed at once. *)
Theorem C34_closed_then_removed E w v ov wr ro rst : env_ok E -> reachable E w ->
  w_heap w v = Some ov -> client_b ov = true -> iov (e_sz E) (s_ring ov) = Ok [] ->
  exists r, step E w (EvMux v (Some RdEof) wr ro rst) = Ok (r, []) /\ removed r v.
Proof. intros HE R A B C. exact (eof_step HE v wr ro rst (reach_WWF HE R) A B C). Qed.
Print Assumptions C34_closed_then_removed.

(** ** C55: which requests are granted *)
Theorem C55_verdict E w t q m sent ro : env_ok E -> reachable E w -> nth_error (w_thr w) t = Some (TStart q m) ->
  exists w' x sel, step E w (EvThread t sent ro) = Ok (w', []) /\ nth_error (w_thr w') t = Some x /\
    w_heap w' = w_heap w /\ w_objs w' = w_objs w /\
    NoDup sel /\ (forall k, In k sel <-> matching w m k) /\ verdict w q sel x.
Proof.
  intros HE R Ht. pose proof (reach_WWF HE R) as W.
  destruct (@query_ok E (w_heap w) m (w_objs w)) as (sel & Q & ND & IN); [intros i Hi; apply (ww_live W); exact Hi|exact (ww_nd W)|].
  assert (CO : forall k, In k sel -> exists o, w_heap w k = Some o /\ console_b o = true).
  { intros k Hk. apply IN in Hk. tauto. }
  destruct (@any_busy_ok E (w_heap w) (ww_hok W) sel CO) as (b & AB & BB).
  assert (FB : b = false <-> forall k, In k sel -> ~ busy (w_heap w) k).
  { split.
    - intros -> k Hk (o & X & Y). assert (false = true) by (apply BB; exists k, o; auto). discriminate.
    - intros F. destruct b; [|reflexivity]. destruct (proj1 BB eq_refl) as (k & o & X & Y & Z). exfalso. apply (F k X). exists o. auto. }
  cbn [step]. rewrite Ht. unfold admit. rewrite Q. cbn [bind].
  set (q1 := if length sel =? 1 then _ else q).
  assert (Q1 : r_cmd q1 = r_cmd q /\ r_force q1 = r_force q /\ r_join q1 = r_join q /\ r_quiet q1 = r_quiet q /\
    r_bcast q1 = (if length sel =? 1 then false else r_bcast q)) by (unfold q1; destruct (length sel =? 1); auto 9).
  assert (QA : sel <> [] -> q1 = mkReq (r_cmd q) (r_force q) (r_join q) (r_bcast q && (1 <? length sel)) (r_quiet q)).
  { intros NE. destruct q1 as [c1 f1 j1 b1 u1]. cbn in Q1. destruct Q1 as (-> & -> & -> & -> & ->). f_equal.
    destruct sel as [|k0 [|k1 sel']]; [contradiction|cbn; symmetry; apply andb_false_r|cbn; symmetry; apply andb_true_r]. }
  clearbody q1. destruct Q1 as (Q1 & Q2 & Q3 & Q4 & Q5). rewrite Q1, Q2, Q3, Q5.
  assert (FIN : forall x, verdict w q sel x -> exists w' x0 sel0,
    @Ok (world * list Z) (set_thr w t x, []) = Ok (w', []) /\ nth_error (w_thr w') t = Some x0 /\
    w_heap w' = w_heap w /\ w_objs w' = w_objs w /\
    NoDup sel0 /\ (forall k, In k sel0 <-> matching w m k) /\ verdict w q sel0 x0).
  { intros x V. exists (set_thr w t x), x, sel. split; [reflexivity|]. split; [rewrite (set_thr_nth E _ _ _ _ Ht), Nat.eqb_refl; reflexivity|].
    split; [reflexivity|]. split; [reflexivity|]. split; [exact ND|]. split; [exact IN|exact V]. }
  destruct sel as [|k0 sel0].
  { cbn [length Nat.eqb]. apply FIN. unfold verdict. cbn [length]. 
    split; [auto|]. split; [contradiction|]. split; [intros; lia|]. split; [intros; lia|]. split; [intros; lia|]. intros [X|[X _]]; lia. }
  specialize (QA ltac:(discriminate)).
  change (length (k0 :: sel0) =? 0) with false. cbn match. destruct (r_cmd q) eqn:QC.
  - (* connect *)
    destruct ((length (k0 :: sel0) =? 1) || (if length (k0 :: sel0) =? 1 then false else r_bcast q)) eqn:OK1.
    + assert (X : length (k0 :: sel0) = 1 \/ (1 < length (k0 :: sel0) /\ r_bcast q = true)).
      { destruct (Nat.eqb_spec (length (k0 :: sel0)) 1); [auto|]. right. cbn [length orb] in *. split; [lia|exact OK1]. }
      destruct (r_force q || r_join q) eqn:FJ.
      * cbn [bind]. apply FIN. unfold verdict. rewrite QC, QA. split; [discriminate|]. split; [discriminate|]. split; [discriminate|].
        split; [intros A _ B; exfalso; destruct X as [X|[X Y]]; [lia|congruence]|]. split; [discriminate|]. intros _ _. split; [auto|].
        intros Y Z. rewrite Y, Z in FJ. discriminate.
      * apply orb_false_iff in FJ. destruct FJ as [F1 F2]. rewrite AB. cbn [bind]. destruct b; apply FIN; unfold verdict; rewrite QC, ?QA;
          (split; [discriminate|]); (split; [discriminate|]); (split; [discriminate|]);
          (split; [intros A _ B; exfalso; destruct X as [X|[X Y]]; [lia|congruence]|]); (split; [discriminate|]); intros _ _; split; auto.
        -- intros [Y|[Y|Y]]; try congruence. apply FB in Y. discriminate.
        -- intros _ _ Y. exfalso. apply Y, FB. reflexivity.
    + apply orb_false_iff in OK1. destruct OK1 as [O1 O2]. rewrite O1 in O2. apply Nat.eqb_neq in O1. cbn [bind]. apply FIN. unfold verdict. rewrite QC.
      split; [discriminate|]. split; [discriminate|]. split; [discriminate|]. split; [auto|]. split; [discriminate|].
      intros [Y|[_ Y]]; [lia|congruence].
  - destruct (Nat.eqb_spec (length (k0 :: sel0)) 1) as [L|L]; cbn [bind]; apply FIN; unfold verdict; rewrite QC, ?QA.
    + split; [discriminate|]. split; [discriminate|]. split; [intros; lia|]. split; [discriminate|]. split; [auto|]. discriminate.
    + split; [discriminate|]. split; [discriminate|]. split; [auto|]. split; [discriminate|]. split; [intros; lia|]. discriminate.
  - cbn [bind]. apply FIN. unfold verdict. rewrite QC. split; [discriminate|]. split; [auto|]. split; [discriminate|]. split; [discriminate|].
    split; [discriminate|]. discriminate.
Qed.
Print Assumptions C55_verdict.

(** ** C56: who gets a notification *)
Theorem C56_each_once E w k m : env_ok E -> reachable E w -> is_console_id (w_heap w) k -> m <> [] ->
  exists h', notify E (w_heap w) k m = Ok h' /\
    all_objs (fun i o o' =>
      (feeds (w_heap w) k i \/ feeds (w_heap w) i k -> gets E m true o o') /\
      (~ (feeds (w_heap w) k i \/ feeds (w_heap w) i k) -> o' = o)) (w_heap w) h'.
Proof.
  intros HE R (c & A & B) Hm. rewrite console_b_cls in B. pose proof (reach_WWF HE R) as W. pose proof (C28_links_consistent HE R) as (SY & _).
  destruct (notify_each HE k (ww_hok W) A B Hm) as (h' & H & F1 & F2). exists h'. split; [exact H|]. split; [|exact F2].
  intros i o Ho. destruct (F1 i o Ho) as (o' & X & Y). exists o'. split; [exact X|].
  assert (Z : feeds (w_heap w) k i \/ feeds (w_heap w) i k <-> mem i (s_readers c) || mem i (s_writers c) = true).
  { rewrite orb_true_iff, !mem_In, (SY i k). unfold feeds, fed_by. split.
    - intros [(p & P1 & P2)|(p & P1 & P2)]; rewrite A in P1; injection P1 as <-; auto.
    - intros [P|P]; [left|right]; exists c; auto. }
  rewrite Z. destruct (mem i (s_readers c) || mem i (s_writers c)); split; auto; [intros N; exfalso; apply N; reflexivity|discriminate].
Qed.
Print Assumptions C56_each_once.

(** ** C57: suspended clients *)
Theorem C57_no_output_requested_partial E w c o : reachable E w -> w_heap w c = Some o -> client_b o = true ->
  is_suspended (s_ring o) = true -> o_open (s_ring o) = true -> o_pollout (s_ring o) = false.
Proof.
  intros (cs & w0 & es & A & _ & C) H _. assert (X : calms (w_heap w0)).
  { apply (@boot_calms E cs _ w0 A). intros i o' Y. discriminate. }
  exact (@run_calms E es w0 w C X c o H).
Qed.
Print Assumptions C57_no_output_requested_partial.

(** The suspend command toggles: what is pending stays, and resuming asks for
    output again. *)
Theorem C57_toggle E rst h c o : h c = Some o -> client_b o = true -> o_open (s_ring o) = true ->
  exists o', exec_cmd E rst h c SSuspend = Ok (upd h c (Some o')) /\
    is_suspended (s_ring o') = negb (is_suspended (s_ring o)) /\
    iov (e_sz E) (s_ring o') = iov (e_sz E) (s_ring o) /\
    o_pollout (s_ring o') = is_suspended (s_ring o).
Proof.
  intros H CB OP. cbn [exec_cmd]. rewrite (at_ok _ _ H). cbn [bind]. unfold client_b in CB. unfold toggle_suspend, is_suspended.
  destruct (s_ring o) as [b oi oo wr ef op pi po kd]. cbn in *. destruct kd as [q s| |]; try discriminate. subst op.
  destruct s; cbn [bind negb]; eexists; (split; [reflexivity|]); cbn; auto.
Qed.
Print Assumptions C57_toggle.

(** ** C68: console output *)
Theorem C68_output_to_each_reader E w k o d ro rst : env_ok E -> reachable E w ->
  w_heap w k = Some o -> console_b o = true -> o_open (s_ring o) = true -> (telnet_b o = true -> s_state o = StUp) -> bytes_ok d ->
  let d' := if telnet_b o then snd (fst (trun (s_iac o) d)) else d in
  exists w', step E w (EvMux k (Some (RdData d)) None ro rst) = Ok (w', []) /\
    forall j p, j <> k -> w_heap w j = Some p -> exists p', w_heap w' j = Some p' /\
      (feeds (w_heap w) k j -> d' <> [] -> if log_b p then logs E j d' p p' else gets E d' false p p') /\
      (~ feeds (w_heap w) k j \/ d' = [] -> p' = p).
Proof.
  intros HE R Hk CB OP TU Bd d'. destruct (output_step HE k ro rst (reach_WWF HE R) Hk CB OP TU Bd) as (w' & A & _ & B).
  exists w'. split; [exact A|]. intros j p Hj Hp. destruct (B j p Hj Hp) as (p' & X & Y). exists p'. split; [exact X|].
  fold d' in Y. destruct (mem j (s_readers o)) eqn:M.
  - assert (F : feeds (w_heap w) k j) by (exists o; split; [exact Hk|now apply mem_In]).
    destruct d' as [|z d'']; cbn [length Nat.eqb negb andb] in Y; split; try (intros; congruence || contradiction); auto.
    intros [N|N]; [contradiction|discriminate].
  - cbn [andb] in Y. split; [|auto]. intros (o2 & A2 & B2). rewrite Hk in A2. injection A2 as <-. apply mem_In in B2. congruence.
Qed.
Print Assumptions C68_output_to_each_reader.

(** ** Examples and refutations

    A daemon with a test console (0), an unlogged serial console (1) and a logged
    process console (2, log file 3), small buffers and short messages. *)
Definition ex_env : env :=
  mkEnv 64 8 false
    (fun n => match n with NBegin _ => [60; 60; 13; 10]%Z | NEnd _ => [62; 62]%Z | _ => [33]%Z end)
    (fun _ _ => repeat 48%Z 20) (repeat 0%Z 63) (repeat 0%Z 64).
Definition ex_conf : list console_conf :=
  [(TyTest, None); (TySerial, None); (TyProcess, Some (mkLopts false false))].
Definition no_reopen : reopen := mkReopen false false StDown [] [].
Definition opens : reopen := mkReopen false true StUp [] [].
Definition request (c : rcmd) (f j b q : bool) : req := mkReq c f j b q.
Definition only (k : nat) : nat -> bool := Nat.eqb k.
Definition turns (t n : nat) : list event := repeat (EvThread t true no_reopen) n.
Definition sends (i : nat) (d : list Z) : event := EvMux i (Some (RdData d)) None no_reopen (fun _ => []).
Definition plain_connect := request CmdConnect false false false false.
(** Thread [t] serves a new plain connection to console [k]. *)
Definition connects (t k : nat) : list event := EvAccept plain_connect (only k) :: turns t 6.

Lemma ex_env_ok : env_ok ex_env.
Proof.
  unfold env_ok, MINBUF. cbn [ex_env e_sz e_rl e_dbg e_txt e_clock e_wbuf e_obuf].
  split; [lia|]. split; [lia|]. split; [lia|]. split; [reflexivity|]. split; [reflexivity|].
  split; [intros i j; rewrite repeat_length; split; [lia|auto]|]. split; intros k; cbn [length]; lia.
Qed.

(** The daemon started with [ex_conf], after the events [es]. *)
Definition after (es : list event) : option world :=
  match boot ex_env ex_conf with
  | Ok w0 => match run ex_env w0 es with Ok w => Some w | UB _ => None end
  | UB _ => None
  end.
Lemma after_get es : match after es with Some _ => true | None => false end = true ->
  exists w0 w, boot ex_env ex_conf = Ok w0 /\ run ex_env w0 es = Ok w /\ after es = Some w /\
    (Forall event_ok es -> reachable ex_env w).
Proof.
  unfold after. destruct (boot ex_env ex_conf) as [w0|] eqn:B; [|discriminate].
  destruct (run ex_env w0 es) as [w1|] eqn:R; [|discriminate]. intros _. exists w0, w1. split; [reflexivity|].
  split; [exact R|]. split; [reflexivity|]. intros F. exists ex_conf, w0, es. auto.
Qed.
Ltac get_after es w R A :=
  let H := fresh in
  assert (H : match after es with Some _ => true | None => false end = true) by (vm_compute; reflexivity);
  apply after_get in H; destruct H as (?w0 & w & _ & _ & A & R).
Definition obj_at (o : option world) (i : nat) : option sobj :=
  match o with Some w => w_heap w i | None => None end.
Definition pending_at (o : option world) (i : nat) : option (list Z) :=
  match obj_at o i with Some x => match iov 64 (s_ring x) with Ok p => Some p | UB _ => None end | None => None end.
Definition writers_at (o : option world) (i : nat) : option (list nat) := option_map s_writers (obj_at o i).
Definition readers_at (o : option world) (i : nat) : option (list nat) := option_map s_readers (obj_at o i).

Definition event_okb (e : event) : bool :=
  match e with
  | EvMux _ (Some (RdData d)) _ _ _ => forallb (fun b => (0 <=? b) && (b <? 256))%Z d
  | _ => true
  end.
Lemma events_ok es : forallb event_okb es = true -> Forall event_ok es.
Proof.
  intros H. apply Forall_forall. intros e He. rewrite forallb_forall in H. specialize (H e He).
  destruct e as [q m|t sent ro|i [[| | |d]|] wr ro rst|k0 ro|l m|l ok m]; try exact I. cbn in *.
  apply Forall_forall. intros b Hb. rewrite forallb_forall in H. specialize (H b Hb). apply andb_true_iff in H.
  destruct H as [H1 H2]. apply Z.leb_le in H1. apply Z.ltb_lt in H2. unfold byte_ok. lia.
Qed.
Ltac run_ok := apply events_ok; vm_compute; reflexivity.

(** Two clients read and write, one joins, one monitors; the log file follows. *)
Example C28_example :
  let es := connects 0 2 ++ EvAccept (request CmdConnect false true false false) (only 2) :: turns 1 6 ++
            EvAccept (request CmdMonitor false false false false) (only 2) :: turns 2 5 in
  (exists w, after es = Some w /\ reachable ex_env w) /\
  readers_at (after es) 2 = Some [3; 4; 5; 6] /\ writers_at (after es) 2 = Some [4; 5] /\
  readers_at (after es) 4 = Some [2] /\ writers_at (after es) 6 = Some [2] /\ readers_at (after es) 6 = Some [].
Proof.
  intros es. split.
  - get_after es w R A. exists w. split; [exact A|]. apply R. run_ok.
  - vm_compute. auto 9.
Qed.

(** A request without force or join can still give a console a second writer:
    both threads look for writers before either of them becomes one. *)
Theorem C29_race_refuted : exists E cs w0 es w k o, env_ok E /\ boot E cs = Ok w0 /\
  Forall unforced es /\ run E w0 es = Ok w /\ w_heap w k = Some o /\ length (s_writers o) = 2.
Proof.
  set (es := [EvAccept plain_connect (only 0); EvAccept plain_connect (only 0)] ++ turns 0 1 ++ turns 1 1 ++ turns 0 5 ++ turns 1 5).
  assert (H : match after es with Some _ => true | None => false end = true) by (vm_compute; reflexivity).
  apply after_get in H. destruct H as (w0 & w & B & R & A & _).
  assert (X : writers_at (after es) 0 = Some [4; 5]) by (vm_compute; reflexivity).
  rewrite A in X. unfold writers_at, obj_at in X. destruct (w_heap w 0) as [o|] eqn:H; [|discriminate].
  cbn in X. injection X as X. exists ex_env, ex_conf, w0, es, w, 0, o. split; [exact ex_env_ok|]. split; [exact B|].
  split; [vm_compute; repeat constructor|]. split; [exact R|]. split; [exact H|]. rewrite X. reflexivity.
Qed.
Print Assumptions C29_race_refuted.

(** A monitoring client that sends the monitor command becomes a writer of a
    console that already has one, and its input reaches the console. *)
Definition ex_monitor : list event :=
  connects 0 0 ++ EvAccept (request CmdMonitor false false false false) (only 0) :: turns 1 5 ++
  [sends 5 [ESC_CHAR; ESC_MONITOR]; sends 5 [65; 66]]%Z.
(** The monitor command makes a client that only monitors a writer, besides the one there is. *)
Theorem C31_monitor_command_refuted :
  Forall (fun e => match e with EvAccept q _ => r_force q = false /\ r_join q = false | _ => True end) ex_monitor /\
  (exists w, after ex_monitor = Some w /\ reachable ex_env w) /\
  writers_at (after ex_monitor) 0 = Some [4; 5] /\ readers_at (after ex_monitor) 5 = Some [0] /\
  pending_at (after ex_monitor) 0 = Some [65; 66]%Z.
Proof.
  split; [vm_compute; repeat constructor|]. split.
  - get_after ex_monitor w R A. exists w. split; [exact A|]. apply R. run_ok.
  - vm_compute. auto.
Qed.
Print Assumptions C31_monitor_command_refuted.

Example C29_example :
  let es := connects 0 0 ++ connects 1 0 in
  writers_at (after es) 0 = Some [4] /\
  option_map (fun w => w_thr w) (after es) = Some [TEnd ERR_NONE; TEnd ERR_BUSY].
Proof. vm_compute. auto. Qed.

(** A stolen console; the victim had the default settings ... *)
Definition ex_steal (quiet : bool) : list event :=
  EvAccept (request CmdConnect false false false quiet) (only 0) :: turns 0 6 ++
  EvAccept (request CmdConnect true false false false) (only 0) :: turns 1 6.
Example C30_example :
  writers_at (after (ex_steal false)) 0 = Some [5] /\ readers_at (after (ex_steal false)) 4 = Some [] /\
  writers_at (after (ex_steal false)) 4 = Some [] /\
  option_map (fun o => (o_eof (s_ring o), o_pollout (s_ring o))) (obj_at (after (ex_steal false)) 4) = Some (true, true) /\
  pending_at (after (ex_steal false)) 4 = Some [33]%Z.
Proof. vm_compute. auto 9. Qed.
(** ... or was in quiet mode: it is detached, but nothing is pending for it and no
    output is requested, so it stays connected until it sends or closes. *)
Theorem C30_quiet_victim_refuted : exists w, reachable ex_env w /\ detached (w_heap w) 4 /\ In 4 (w_objs w) /\
  exists o, w_heap w 4 = Some o /\ iov 64 (s_ring o) = Ok [] /\ o_pollout (s_ring o) = false /\ o_pollin (s_ring o) = true.
Proof.
  get_after (ex_steal true) w R0 A.
  assert (R : reachable ex_env w) by (apply R0; run_ok).
  assert (X : option_map (fun o => (client_b o, s_readers o, s_writers o, o_eof (s_ring o), iov 64 (s_ring o), o_pollout (s_ring o), o_pollin (s_ring o)))
    (obj_at (after (ex_steal true)) 4) = Some (true, [], [], true, Ok [], false, true)) by (vm_compute; reflexivity).
  rewrite A in X. cbn [obj_at] in X. destruct (w_heap w 4) as [o|] eqn:H; [|discriminate].
  cbn in X. injection X as X1 X2 X3 X4 X5 X6 X7. exists w. split; [exact R|].
  split; [exists o; auto 9|]. split; [|exists o; auto].
  apply (C34_no_dangling ex_env_ok R). unfold live. rewrite H. discriminate.
Qed.
Print Assumptions C30_quiet_victim_refuted.

Example C31_example :
  let es := EvAccept (request CmdMonitor false false false false) (only 0) :: turns 0 5 ++ [sends 4 [65; 66]%Z] in
  readers_at (after es) 4 = Some [] /\ readers_at (after es) 0 = Some [4] /\ pending_at (after es) 0 = Some [].
Proof. vm_compute. auto. Qed.

(** Broadcast to two consoles. *)
Example C32_example :
  let es := EvAccept (request CmdConnect false false true false) (fun k => k <? 2) :: turns 0 7 ++ [sends 4 [65; 255; 255; 66]%Z] in
  readers_at (after es) 4 = Some [0; 1] /\ writers_at (after es) 4 = Some [] /\
  option_map (fun o => r_bcast (s_req o)) (obj_at (after es) 4) = Some true /\
  pending_at (after es) 0 = Some [65; 255; 66]%Z /\ pending_at (after es) 1 = Some [65; 255; 66]%Z /\ pending_at (after es) 2 = Some [].
Proof. vm_compute. auto 9. Qed.

(** A client whose console was stolen sends a force, join or monitor command. *)
Theorem C33_stolen_client_refuted : exists w, after (ex_steal false) = Some w /\ reachable ex_env w /\
  forall x, In x [ESC_FORCE; ESC_JOIN; ESC_MONITOR] -> step ex_env w (sends 4 [ESC_CHAR; x]) = UB NullDeref.
Proof.
  get_after (ex_steal false) w R A.
  exists w. split; [exact A|]. split; [apply R; run_ok|].
  assert (X : forall x, In x [ESC_FORCE; ESC_JOIN; ESC_MONITOR] -> 
    match after (ex_steal false) with Some w => step ex_env w (sends 4 [ESC_CHAR; x]) | None => UB Fatal end = UB NullDeref).
  { intros x [<-|[<-|[<-|[]]]]; vm_compute; reflexivity. }
  rewrite A in X. exact X.
Qed.
Print Assumptions C33_stolen_client_refuted.

(** A client closes its connection while its thread is still linking it. *)
Definition ex_hasty : list event :=
  EvAccept plain_connect (only 0) :: turns 0 2 ++ [EvMux 4 (Some RdEof) None no_reopen (fun _ => [])].
(** A client that hangs up while its thread is still linking it to its consoles: the thread uses memory that the main loop has freed. *)
Theorem C33_hasty_client_refuted : exists w, after ex_hasty = Some w /\ reachable ex_env w /\
  step ex_env w (EvThread 0 true no_reopen) = UB UseAfterFree.
Proof.
  get_after ex_hasty w R A.
  exists w. split; [exact A|]. split; [apply R; run_ok|].
  assert (X : match after ex_hasty with Some w => step ex_env w (EvThread 0 true no_reopen) | None => UB Fatal end = UB UseAfterFree)
    by (vm_compute; reflexivity).
  rewrite A in X. exact X.
Qed.
Print Assumptions C33_hasty_client_refuted.

(** Everything else it may send is harmless: all other commands, and data. *)
Example C33_example : match after (ex_steal false ++ [sends 4 [255; 66; 255; 68; 255; 76; 255; 81; 255; 82; 255; 90; 65; 0]%Z]) with
  Some _ => True | None => False end.
Proof. vm_compute. exact I. Qed.

(** A suspended client with output left whose connection ends is never removed:
    the end of file is reported again and again, without effect. *)
Lemma lingers_on E w v ro rst : lingering w v ->
  exists w', step E w (EvMux v (Some RdEof) None ro rst) = Ok (w', []) /\ lingering w' v.
Proof.
  intros (IN & o & A & B & C & D & F & G & H & I). cbn [step]. rewrite (proj2 (mem_In _ _) IN). cbn [negb].
  unfold read_from_obj. rewrite (at_ok _ _ A). cbn [bind]. rewrite F. cbn [negb].
  assert (T : telnet_b o = false) by (unfold telnet_b, console_b; unfold client_b in B; destruct (o_kind (s_ring o)); try discriminate; apply andb_false_r).
  rewrite T. cbn [andb]. rewrite (proj2 (Nat.eqb_neq _ _) G). cbn [bind snd fst].
  eexists. split; [reflexivity|]. split; [exact IN|]. cbn [set_heap w_heap]. rewrite upd_same.
  eexists. split; [reflexivity|]. cbn. auto 9.
Qed.
(** A suspended client with output left is never removed after its connection ended. *)
Theorem C34_suspended_lingers_refuted : 
  (exists w, reachable ex_env w /\ lingering w 4) /\
  forall E w v ro rst, lingering w v -> forall n, exists w', run E w (repeat (EvMux v (Some RdEof) None ro rst) n) = Ok w' /\ lingering w' v.
Proof.
  split.
  - set (es := connects 0 1 ++ [sends 4 [ESC_CHAR; ESC_SUSPEND]; EvMux 4 (Some RdEof) None no_reopen (fun _ => [])]).
    get_after es w R0 A.
    assert (R : reachable ex_env w).
    { apply R0. run_ok. }
    exists w. split; [exact R|].
    assert (X : option_map (fun o => (client_b o, o_eof (s_ring o), is_suspended (s_ring o), o_open (s_ring o), o_in (s_ring o) =? o_out (s_ring o), o_pollin (s_ring o), o_pollout (s_ring o)))
      (obj_at (after es) 4) = Some (true, true, true, true, false, false, false)) by (vm_compute; reflexivity).
    rewrite A in X. cbn [obj_at] in X. destruct (w_heap w 4) as [o|] eqn:H; [|discriminate].
    cbn in X. injection X as X1 X2 X3 X4 X5 X6 X7. split.
    + apply (C34_no_dangling ex_env_ok R). unfold live. rewrite H. discriminate.
    + exists o. apply Nat.eqb_neq in X5. auto 9.
  - intros E w v ro rst L n. revert w L. induction n as [|n IH]; intros w L; cbn [repeat run].
    + exists w. auto.
    + destruct (lingers_on E ro rst L) as (w1 & H & L1). rewrite H. cbn [bind fst]. auto.
Qed.
Print Assumptions C34_suspended_lingers_refuted.

(** A stolen client: the announcement is sent, and then it is removed. *)
Example C34_example :
  let es := ex_steal false ++ [EvMux 4 None (Some [WAccept 5]) no_reopen (fun _ => [])] in
  pending_at (after (ex_steal false)) 4 = Some [33]%Z /\ obj_at (after es) 4 = None /\
  option_map w_objs (after es) = Some [0; 1; 2; 3; 5].
Proof. vm_compute. auto. Qed.

Example C55_example :
  let ask c f j b m := option_map w_thr (after (connects 0 0 ++ EvAccept (request c f j b false) m :: turns 1 1)) in
  let got x := Some [TEnd ERR_NONE; x] in
  ask CmdConnect false false false (fun k => k =? 9) = got (TEnd ERR_NO_CONSOLES) /\
  ask CmdMonitor false false true (fun _ => true) = got (TEnd ERR_TOO_MANY) /\
  ask CmdConnect false false false (fun _ => true) = got (TEnd ERR_TOO_MANY) /\
  ask CmdConnect false false true (fun _ => true) = got (TEnd ERR_BUSY) /\
  ask CmdConnect false true true (fun _ => true) = got (TGranted (request CmdConnect false true true false) [0; 1; 2]) /\
  ask CmdConnect false false true (fun k => k =? 1) = got (TGranted (request CmdConnect false false false false) [1]) /\
  ask CmdMonitor false false false (fun k => k =? 0) = got (TGranted (request CmdMonitor false false false false) [0]).
Proof. vm_compute. auto 9. Qed.

(** A notification about console 2: once to the reading and writing client, to the
    monitoring one and to the log; not to the one in quiet mode. *)
Example C56_example :
  let es := connects 0 2 ++ EvAccept (request CmdMonitor false false false false) (only 2) :: turns 1 5 ++
            EvAccept (request CmdMonitor false false false true) (only 2) :: turns 2 5 in
  match after es with
  | Some w => match notify ex_env (w_heap w) 2 [65; 66]%Z with
      | Ok h => map (fun i => match h i with Some o => Some (lastn 2 match iov 64 (s_ring o) with Ok p => p | UB _ => [] end) | None => None end) [0; 2; 3; 4; 5; 6]
                = [Some []; Some []; Some [65; 66]; Some [65; 66]; Some [65; 66]; Some []]%Z
      | UB _ => False end
  | None => False
  end.
Proof. vm_compute. reflexivity. Qed.

(** The suspend command and output in the same turn of the main loop: the client
    is sent its pending output although it is suspended. *)
Theorem C57_same_turn_refuted :
  let w := after (connects 0 1) in
  pending_at w 4 = Some [33]%Z /\
  match w with
  | Some w => match step ex_env w (EvMux 4 (Some (RdData [ESC_CHAR; ESC_SUSPEND])) (Some [WAccept 9]) no_reopen (fun _ => [])) with
      | Ok (w', sent) => sent = [33]%Z /\
          option_map (fun o => is_suspended (s_ring o)) (w_heap w' 4) = Some true
      | UB _ => False end
  | None => False
  end.
Proof. vm_compute. auto. Qed.
Print Assumptions C57_same_turn_refuted.
Example C57_example :
  let es := connects 0 1 ++ [EvConsole 1 opens; sends 4 [ESC_CHAR; ESC_SUSPEND]; sends 1 [65; 66; 67]%Z] in
  option_map (fun o => (is_suspended (s_ring o), o_pollout (s_ring o))) (obj_at (after es) 4) = Some (true, false) /\
  pending_at (after es) 4 = Some [33; 65; 66; 67]%Z /\
  let es2 := es ++ [sends 4 [ESC_CHAR; ESC_SUSPEND]] in
  option_map (fun o => (is_suspended (s_ring o), o_pollout (s_ring o))) (obj_at (after es2) 4) = Some (false, true) /\
  pending_at (after es2) 4 = Some [33; 65; 66; 67]%Z.
Proof. vm_compute. auto 9. Qed.

(** Console output goes to the reader and to the log file. *)
Example C68_example :
  let es := connects 0 2 ++ [EvConsole 2 opens; EvLogOpen 3 true []; EvMux 4 None (Some [WAccept 9]) no_reopen (fun _ => []);
    EvMux 3 None (Some [WAccept 9]) no_reopen (fun _ => []); sends 2 [65; 66; 67]%Z] in
  pending_at (after es) 4 = Some [65; 66; 67]%Z /\ pending_at (after es) 3 = Some [65; 66; 67]%Z /\ pending_at (after es) 0 = Some [].
Proof. vm_compute. auto 9. Qed.
