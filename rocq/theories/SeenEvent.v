(** What an event of the daemon puts into the queues of clients and consoles. *)
From Verif Require Import Base BaseProof RingModel RingSpec RingProof LogModel LogSpec LogProof
  TelnetModel TelnetSpec TelnetProof EscModel EscSpec EscProof SessModel SessSpec SessInv SessLink SessStep SessWorld
  SessThread SessFacts SessMode FlowSpec FlowProof RecSpec RecProof SeenSpec SeenProof.
Set Implicit Arguments.

(** The log of a console is fed by it alone. *)
Definition own_log (h : heap) : Prop := forall k co l, h k = Some co -> log_b co = false -> s_log co = Some l -> J l k h.

Section Event.
Variable E : env.
Hypothesis HE : env_ok E.
Variable w : world.
Variable e : event.
Hypothesis W : WWF E w.
Notation FI := (feeds_in w e).
Definition is_cl (x : nat) : Prop := exists o, w_heap w x = Some o /\ client_b o = true.
Notation KK z := (K z (fun i => FI i z) (fun i => FI z i) (is_cl z)).

Lemma K_start z : KK z (w_heap w).
Proof.
  pose proof (ww_hok W) as HK. constructor.
  - intros i o Hi I. left. exists o. auto.
  - intros i o Hi I. left. destruct (write_live i z HK Hi I) as (oa & A & B & _). exists oa. auto.
  - intros o Ho. split; [|split].
    + intros i I. left. destruct (write_live z i HK Ho I) as (oa & A & B & _). exists oa. auto.
    + intros i I. left. exists o. auto.
    + intros CB. exists o. auto.
Qed.
(** The client that asks for a link *)
Lemma switch_FI c : (exists y, sends_cmd w e c y /\ switches y = true) -> (forall z, FI z c -> FI c z).
Proof.
  intros A z [F|[B F]]; [|left; exact F]. right. auto.
Qed.
Lemma FI_mux x k rd wr ro rst : e = EvMux x rd wr ro rst -> FI k x -> feeds (w_heap w) k x.
Proof.
  intros EQ [F|[A F]]; [exact F|]. destruct A as (y & (d & wr' & ro' & rst' & o & e1 & _) & _). rewrite EQ in e1. injection e1 as -> _ _ _ _. exact F.
Qed.

Section Mux.
Variables (c : nat) (o : sobj) (d : list Z) (wr : option (list wres)) (ro : reopen) (rst : nat -> list (list Z)).
Hypothesis EQ : e = EvMux c (Some (RdData d)) wr ro rst.
Hypothesis Hc : w_heap w c = Some o.
Hypothesis CB : client_b o = true.
Let cs := stream_cmds (pre (s_esc o) d).
Let h0 := upd (w_heap w) c (Some (set_esc o (dangling (pre (s_esc o) d)))).
Notation ex a := (foldr_res (fun h y => exec_cmd E rst h c y) h0 a).

Lemma cmd_sent y : In y cs -> sends_cmd w e c y.
Proof. intros I. exists d, wr, ro, rst, o. auto. Qed.
Lemma cmd_asks y : In y cs -> switches y = true -> exists y, sends_cmd w e c y /\ switches y = true.
Proof. intros I SW. exists y. split; [now apply cmd_sent|exact SW]. Qed.
Lemma h0_U z Q : U E z Q (fun i => FI i z) (fun i => FI z i) (is_cl z) [] (w_heap w) h0.
Proof. eapply U_still; [apply K_start|exact Hc|apply incl_refl|apply incl_refl|reflexivity|reflexivity]. Qed.
(** Links during the commands: those of the beginning, and those that are asked for. *)
Lemma prefix_U z a b h : cs = a ++ b -> ex a = Ok h -> U E z (fun _ => True) (fun i => FI i z) (fun i => FI z i) (is_cl z) [] (w_heap w) h.
Proof.
  intros EC X. eapply U_trans0; [apply h0_U|].
  assert (SW : forall y, In y a -> switches y = true -> exists y, sends_cmd w e c y /\ switches y = true).
  { intros y I S1. apply (@cmd_asks y); [|exact S1]. rewrite EC. apply in_or_app. now left. }
  eapply (@cmds_U E HE z (fun _ => True) (fun i => FI i z) (fun i => FI z i) (is_cl z)) with (rst := rst) (c := c) (h0 := h0) (cs := a) (ys := a) (a := []); auto.
  - intros y I S1. split; [apply switch_FI; eauto|]. intros <- i F. split; [|auto]. apply switch_FI; eauto.
  - exact (U_K (h0_U z (fun _ => True))).
Qed.
Hypothesis OL : own_log (w_heap w).
Lemma replay_due a b h m : cs = a ++ SReplay :: b -> ex a = Ok h -> replayed E h c m -> due E w e c (OWrite m false).
Proof.
  intros EC X (oc & k & ws & co & H1 & H2 & H3 & H4).
  assert (SR : sends_cmd w e c SReplay) by (apply cmd_sent; rewrite EC; apply in_or_app; right; now left).
  pose proof (@prefix_U c _ _ _ EC X) as U1.
  assert (FK : feeds (w_heap w) k c).
  { eapply FI_mux; [exact EQ|]. apply (k_me (U_K U1) H1). rewrite H2. now left. }
  destruct H4 as [->|(l & lo & L1 & L2 & L3)]; [eapply due_unlogged; [exact SR|exact FK]|].
  destruct FK as (ok & K1 & K2). pose proof (ww_hok W) as HK.
  destruct (read_live k c HK K1 K2) as (oc' & C1 & _ & TY). rewrite Hc in C1. injection C1 as <-.
  assert (KC : log_b ok = false).
  { rewrite log_b_eq. rewrite client_b_eq in CB. destruct (cls_of ok), (cls_of o); try discriminate; reflexivity. }
  pose proof (proj2 HK k ok K1) as (I1 & _).
  destruct (U_S (@prefix_U k _ _ _ EC X) K1 I1 KC) as (ok' & ops & P1 & _ & _ & P4 & _).
  rewrite H3 in P1. injection P1 as <-. rewrite L1 in P4. symmetry in P4.
  pose proof (OL _ K1 KC P4) as J0.
  set (P := remark E k l [e]).
  assert (PA : forall c b, P (e_txt E (NArrived c k b))) by (intros c1 b1; left; eauto).
  assert (PD : forall c, P (e_txt E (NDeparted c k))) by (intros c1; right; left; eauto).
  assert (T0 : T E l k P [] (w_heap w) h0).
  { eapply T_upd; [exact J0|exact Hc|reflexivity|exact (j_wr J0 c Hc)|reflexivity|reflexivity|auto]. }
  assert (PR : forall m, In m (rst k) -> P m).
  { intros m' I. right. right. exists e. split; [now left|]. rewrite EQ. auto. }
  destruct (@cmds_T E l k P PA PD rst c PR a h0 (set_esc o (dangling (pre (s_esc o) d))) h (T_J T0) (upd_same _ _ _) CB X) as [T1 _].
  pose proof (T_trans0 T0 T1) as [_ TL]. destruct (j_log J0) as (lo0 & LL1 & LL2).
  destruct (TL lo0 LL1) as (lo' & evs & E1 & E2 & _ & _ & E5 & E6 & E7 & E8). rewrite L2 in E1. injection E1 as <-.
  apply (@due_replay E w e c k m SR); [exists ok; auto|].
  exists ok, l, lo0, evs, (s_ring lo), (s_stamps lo). split; [exact K1|]. split; [exact P4|]. split; [exact LL1|].
  split; [exact (J_feeds W J0)|]. auto 8.
Qed.
Lemma cmds_due x h : ex cs = Ok h -> U E x (due E w e x) (fun i => FI i x) (fun i => FI x i) (is_cl x) [] (w_heap w) h.
Proof.
  intros X. eapply U_trans0; [apply h0_U|].
  eapply (@cmds_U E HE x (due E w e x) (fun i => FI i x) (fun i => FI x i) (is_cl x)) with (rst := rst) (c := c) (h0 := h0) (cs := cs) (ys := cs) (a := []).
  - intros c1 i b LL. eapply due_notice; [|exact LL]. left. eauto.
  - intros c1 i LL. eapply due_notice; [|exact LL]. right. left. eauto.
  - intros (p & P1 & P2). eapply due_eof; eauto.
  - intros F y m I KS. eapply due_key; [apply cmd_sent; exact I|exact KS|exact F].
  - intros y I S1. pose proof (@cmd_asks y I S1) as AS. split; [exact (@switch_FI c AS x)|]. intros <- i F. split; [exact (@switch_FI _ AS i F)|].
    intros w1 b. eapply due_switch; [apply cmd_sent; exact I|exact S1|]. eapply FI_mux; eauto.
  - intros a b h1 m EC X1 _ <- RP. eapply replay_due; eauto.
  - intros I <-. split; [apply due_mute, cmd_sent, I|]. intros b. apply due_quiet, cmd_sent, I.
  - intros a b h1 i p EC X1 Hp I LL m M. eapply due_notice; [|exact LL]. right. right. right. exists c, d, wr, ro, rst.
    split; [exact EQ|]. split; [apply cmd_sent; rewrite EC; apply in_or_app; right; now left|]. split; [|exact M].
    apply (k_me (U_K (@prefix_U c _ _ _ EC X1)) Hp). exact I.
  - intros I <-. apply due_pause, cmd_sent, I.
  - reflexivity.
  - reflexivity.
  - exact (U_K (h0_U x (due E w e x))).
  - exact X.
Qed.
End Mux.

Hypothesis OL : own_log (w_heap w).
Variable x : nat.
Notation DU := (U E x (due E w e x) (fun i => FI i x) (fun i => FI x i) (is_cl x)).
Notation DS := (S E x (due E w e x)).
Lemma due_arr c i b : LK (fun i => FI i x) (fun i => FI x i) i -> due E w e x (OWrite (e_txt E (NArrived c i b)) true).
Proof. intros LL. eapply due_notice; [|exact LL]. left. eauto. Qed.
Lemma due_dep c i : LK (fun i => FI i x) (fun i => FI x i) i -> due E w e x (OWrite (e_txt E (NDeparted c i)) true).
Proof. intros LL. eapply due_notice; [|exact LL]. right. left. eauto. Qed.
Lemma due_cl : is_cl x -> due E w e x OEof.
Proof. intros (p & P1 & P2). eapply due_eof; eauto. Qed.
Lemma due_msgs i ro : reopens w e i ro -> LK (fun i => FI i x) (fun i => FI x i) i -> forall m, In m (ro_msgs ro) -> due E w e x (OWrite m true).
Proof. intros R LL m I. eapply due_notice; [|exact LL]. right. right. left. eauto. Qed.
Lemma due_re i ro : reopens w e i ro -> i = x ->
  (ro_close ro = true -> due E w e x OClose) /\ (ro_open ro = true -> due E w e x OOpen) /\ forall m, In m (ro_own ro) -> due E w e x (OWrite m false).
Proof. intros R ->. split; [intros Y; eapply due_close; eauto|]. split; [intros Y; eapply due_open; eauto|]. intros m I. eapply due_greeting; eauto. Qed.

Lemma read_due i ev wr ro rst r : e = EvMux i (Some ev) wr ro rst -> read_from_obj E rst (w_heap w) i ev ro = Ok r -> DU [] (w_heap w) (fst r).
Proof.
  unfold read_from_obj. intros EQ X. pose proof (K_start x) as H. apply bind_ok in X. destruct X as (o & A & X). apply at_some in A.
  assert (RE : reopens w e i ro) by (right; left; eauto).
  assert (SH : forall h r, K x (fun i => FI i x) (fun i => FI x i) (is_cl x) h -> shutdown_obj E h i ro = Ok r -> DU [] h (fst r)).
  { intros h r0 Hh Y. eapply shutdown_U; [exact HE|exact due_dep|exact due_cl|exact Hh|exact Y|exact (due_msgs RE)|].
    intros e1. split; [|exact (due_re RE e1)]. rewrite e1 in EQ. eapply due_lost; eauto. }
  destruct (negb (o_open (s_ring o))) eqn:OP; [injection X as <-; now apply U_refl|].
  destruct (telnet_b o && negb (state_up o)) eqn:TU; [injection X as <-; now apply U_refl|].
  destruct ev as [| | |d].
  - injection X as <-. now apply U_refl.
  - exact (SH _ _ H X).
  - assert (T1 : DU [] (w_heap w) (upd (w_heap w) i (Some (set_ring o (mark_eof (s_ring o)))))).
    { eapply U_op with (y := OEof); [exact HE|exact H|exact A|exact I|reflexivity|reflexivity| |reflexivity]. intros ->. eapply due_end; eauto. }
    destruct (o_in (s_ring o) =? o_out (s_ring o)); [|injection X as <-; exact T1].
    eapply U_trans0; [exact T1|]. exact (SH _ _ (U_K T1) X).
  - destruct (client_b o) eqn:CB; [|destruct (telnet_b o) eqn:TB].
    + rewrite pce_ok in X. cbn [bind] in X. apply bind_ok in X. destruct X as (h1 & A1 & X).
      apply bind_ok in X. destruct X as (h2 & A2 & X). apply bind_ok in X. destruct X as (h3 & A3 & X). injection X as <-. cbn [fst].
      unfold modify in A1. rewrite (at_ok _ _ A) in A1. cbn [bind] in A1. injection A1 as <-.
      assert (T2 : DU [] (w_heap w) h2) by (eapply cmds_due; eauto).
      eapply U_trans0; [exact T2|]. eapply deliver_U; [exact HE|apply (U_K T2)|exact A3|]. intros F.
      replace (stream_data (pre (s_esc o) d)) with (meant o d) by (unfold meant, decode; rewrite CB; reflexivity). eapply due_data; eauto.
    + assert (IA : iac_ok (s_iac o)) by apply (proj2 (ww_hok W) i o A).
      rewrite (@pte_ok (s_iac o) d IA) in X. destruct (trun (s_iac o) d) as [[iac dd] rs] eqn:TR. cbn [bind] in X.
      apply bind_ok in X. destruct X as (h1 & A1 & X). apply bind_ok in X. destruct X as (h2 & A2 & X). apply bind_ok in X. destruct X as (h3 & A3 & X).
      injection X as <-. cbn [fst].
      assert (MA : meant o d = dd /\ answers o d = rs).
      { unfold meant, answers, decode. rewrite CB, TB. unfold dstate_of. cbn [fst snd]. rewrite TR. auto. }
      destruct MA as [M1 M2].
      assert (T1 : DU [] (w_heap w) h1).
      { eapply modify_U; [exact H|exact A1|]. intros q Hq. cbn. auto using incl_refl. }
      assert (T2 : DU [] h1 h2).
      { eapply fold_U; [|exact (U_K T1)|exact A2]. intros ha m hb I Ha Y. cbn beta in Y. eapply put_U; [exact HE|exact Ha|exact Y|].
        intros ->. eapply due_answer; eauto. now rewrite M2. }
      eapply U_trans0; [exact T1|]. eapply U_trans0; [exact T2|]. eapply deliver_U; [exact HE|apply (U_K T2)|exact A3|].
      intros F. rewrite <- M1. eapply due_data; eauto.
    + apply bind_ok in X. destruct X as (h1 & A1 & X). injection X as <-. cbn [fst].
      eapply deliver_U; [exact HE|exact H|exact A1|]. intros F.
      assert (M : meant o d = d) by (unfold meant, decode; rewrite CB, TB; reflexivity). rewrite <- M. eapply due_data; eauto.
Qed.
Lemma flush_due h i rd rs ro rst h' s dead : e = EvMux i rd (Some rs) ro rst -> K x (fun i => FI i x) (fun i => FI x i) (is_cl x) h ->
  flush_obj E h i rs ro = Ok (h', s, dead) -> DU (if i =? x then s else []) h h'.
Proof.
  unfold flush_obj. intros EQ H X. apply bind_ok in X. destruct X as (o & A & X). apply at_some in A.
  assert (RE : reopens w e i ro) by (right; left; eauto).
  assert (NIL : forall h h', DU [] h h' -> DU (if i =? x then [] else []) h h') by (intros; destruct (i =? x); assumption).
  destruct (negb (o_open (s_ring o))); [injection X as <- <- _; now apply NIL, U_refl|].
  destruct (telnet_b o && _).
  { apply bind_ok in X. destruct X as (h1 & B & X). injection X as <- <- _. apply NIL.
    eapply open_console_U; [exact HE|exact H|exact B|exact (due_msgs RE)|exact (due_re RE)]. }
  apply bind_ok in X. destruct X as ([[sent dd] r'] & B & X). destruct (@flush_keeps E _ _ _ _ _ B) as (K1 & _ & _).
  assert (T1 : DU (if i =? x then sent else []) h (upd h i (Some (set_ring o r')))).
  { destruct (Nat.eqb_spec i x) as [->|N].
    - eapply U_op with (y := OFlush rs); [exact HE|exact H|exact A|exact I|cbn [RingModel.step]; rewrite B; reflexivity|now rewrite K1| |congruence].
      intros _. eapply due_flush; eauto.
    - eapply U_upd; [exact H|exact A|apply incl_refl|apply incl_refl|cbn; now rewrite K1|reflexivity|congruence|reflexivity]. }
  destruct dd; [|injection X as <- <- _; exact T1].
  apply bind_ok in X. destruct X as (y & Y & X). injection X as <- <- _.
  rewrite <- (app_nil_r (if i =? x then sent else [])). eapply U_trans; [exact T1|].
  eapply shutdown_U; [exact HE|exact due_dep|exact due_cl|exact (U_K T1)|exact Y|exact (due_msgs RE)|].
  intros e1. split; [|exact (due_re RE e1)]. rewrite e1 in EQ. eapply due_lost; eauto.
Qed.
Lemma event_S w' out o : w_heap w x = Some o -> log_b o = false -> w_heap w' x <> None -> step E w e = Ok (w', out) ->
  DS (given_to x e out) (w_heap w) (w_heap w').
Proof.
  intros Hx LB LV X. pose proof (K_start x) as H. pose proof (@S_refl E x (due E w e x) (w_heap w)) as SAME.
  destruct e as [q m|t sent ro|i rd wr ro rst|i ro|l m|l ok m] eqn:EE; cbn [step] in X; cbn [given_to] in *; rewrite <- EE in *.
  - injection X as <- _. exact SAME.
  - destruct (nth_error (w_thr w) t) as [[q m|q sel|c [|y todo]|e1]|] eqn:NT; try (injection X as <- _; exact SAME).
    + apply bind_ok in X. destruct X as (a & _ & X). injection X as <- _. exact SAME.
    + destruct (negb sent); injection X as <- _; [exact SAME|]. cbn. intros p Hp I1 L1. exists p, [].
      assert (N : x <> w_next w).
      { intros e1. assert (I : In x (w_objs w)) by (apply (ww_live W); unfold live; congruence). pose proof (ww_fresh W _ I). lia. }
      rewrite upd_other by exact N. auto 10.
    + apply bind_ok in X. destruct X as (h1 & A & X). injection X as <- _. cbn.
      destruct (ww_thr W t NT) as (TL & TC & TK).
      assert (SU : c = x -> setting_up w e x (step_console y)).
      { intros <-. exists t, sent, ro, y, todo. split; [exact EE|]. split; [exact NT|]. destruct y; reflexivity. }
      destruct y as [i|i|i]; cbn [do_tstep step_console] in *.
      * eapply (@link_U E HE x (due E w e x)) with (RD := fun i => FI i x) (WR := fun i => FI x i) (CL := is_cl x); [exact due_arr|exact due_dep|exact due_cl|exact H|exact A|].
        intros e1 _ w1 b. eapply due_setup; [exact (SU e1)|]. left. eauto.
      * eapply (@link_U E HE x (due E w e x)) with (RD := fun i => FI i x) (WR := fun i => FI x i) (CL := is_cl x); [exact due_arr|exact due_dep|exact due_cl|exact H|exact A|].
        intros -> (p & P1 & P2). exfalso. assert (CC : exists n, G (w_heap w) x = Some n /\ g_cls n = ClCons) by (apply TC; now left).
        destruct CC as (n & N1 & N2). rewrite (G_of _ _ P1) in N1. injection N1 as <-. cbn in N2. rewrite client_b_eq, N2 in P2. discriminate.
      * assert (RE : reopens w e i ro) by (right; right; exists t, sent, c, todo; auto).
        eapply U_S. eapply check_U; [exact HE|exact H|exact A| |exact (due_msgs RE)|exact (due_re RE)].
        intros e1. eapply due_setup; [exact (SU e1)|]. auto.
  - destruct (negb (mem i (w_objs w))) eqn:MI; [injection X as <- <-; destruct (i =? x); exact SAME|].
    apply bind_ok in X. destruct X as (r1 & A & X).
    assert (T1 : DU [] (w_heap w) (fst r1)).
    { destruct rd as [ev|]; [eapply read_due; eauto|injection A as <-; now apply U_refl]. }
    assert (DEL : forall h s, DS s (w_heap w) h -> w_heap (destroy (set_heap w h) i) x <> None -> DS s (w_heap w) (upd h i None)).
    { intros h s T0 LV0 p Hp I1 L1. destruct (T0 p Hp I1 L1) as (p' & ops & P1 & P2). exists p', ops. split; [|exact P2].
      cbn in LV0. unfold upd in *. destruct (x =? i); [congruence|exact P1]. }
    destruct (snd r1) eqn:SN.
    + injection X as <- <-. replace (if i =? x then [] else []) with (@nil Z) by (destruct (i =? x); reflexivity). exact (DEL _ _ (U_S T1) LV).
    + destruct wr as [rs|]; [|injection X as <- <-; replace (if i =? x then [] else []) with (@nil Z) by (destruct (i =? x); reflexivity); exact (U_S T1)].
      apply bind_ok in X. destruct X as ([[h2 s2] d2] & B & X). pose proof (flush_due EE (U_K T1) B) as T2.
      pose proof (U_S (U_trans T1 T2)) as T3. cbn [app] in T3. injection X as <- <-. destruct d2; [exact (DEL _ _ T3 LV)|exact T3].
  - destruct (negb (mem i (w_objs w))); [injection X as <- _; exact SAME|].
    apply bind_ok in X. destruct X as (p & _ & X). destruct (console_b p); [|injection X as <- _; exact SAME].
    apply bind_ok in X. destruct X as (h1 & A & X). injection X as <- _. cbn.
    assert (RE : reopens w e i ro) by (left; exact EE).
    eapply U_S. eapply open_console_U; [exact HE|exact H|exact A|exact (due_msgs RE)|exact (due_re RE)].
  - destruct (negb (mem l (w_objs w))); [injection X as <- _; exact SAME|].
    apply bind_ok in X. destruct X as (p & Hp & X). apply at_some in Hp. destruct (log_b p) eqn:LP; [|injection X as <- _; exact SAME].
    apply bind_ok in X. destruct X as (h1 & A & X). injection X as <- _. cbn. eapply U_S. eapply put_U; [exact HE|exact H|exact A|]. congruence.
  - destruct (negb (mem l (w_objs w))); [injection X as <- _; exact SAME|].
    apply bind_ok in X. destruct X as (p & A & X). apply at_some in A. destruct (log_b p) eqn:LP; [|injection X as <- _; exact SAME].
    assert (NX : x <> l) by congruence.
    assert (OTH : forall h, h x = w_heap w x -> DS [] (w_heap w) h).
    { intros h Hh q Hq I1 L1. exists q, []. rewrite Hh. auto 10. }
    destruct ok; [|injection X as <- _; cbn; apply OTH; now apply upd_other].
    apply bind_ok in X. destruct X as (h1 & B & X). apply bind_ok in X. destruct X as (h2 & B2 & X). injection X as <- _. cbn. apply OTH.
    unfold modify in B2. apply bind_ok in B2. destruct B2 as (q & _ & B2). injection B2 as <-. rewrite upd_other by exact NX.
    unfold put_data in B. apply bind_ok in B. destruct B as (q2 & _ & B). apply bind_ok in B. destruct B as ([n r] & _ & B). injection B as <-.
    rewrite !upd_other by exact NX. reflexivity.
Qed.
End Event.

(** Objects that were not there before are clients. *)
Lemma new_obj E w e w' out x o : WWF E w -> WWF E w' -> step E w e = Ok (w', out) -> w_heap w x = None -> w_heap w' x = Some o ->
  x = w_next w /\ (exists q, o = new_client E q) /\ given_to x e out = [].
Proof.
  intros W W' X N Hx. assert (I : In x (w_objs w')) by (apply (ww_live W'); unfold live; congruence).
  assert (NI : ~ In x (w_objs w)) by (intros Y; apply (ww_live W) in Y; now apply Y).
  destruct e as [q m|t sent ro|i rd wr ro rst|i ro|l m|l ok m]; cbn [step] in X.
  - injection X as <- _. contradiction.
  - destruct (nth_error (w_thr w) t) as [[q m|q sel|c [|y todo]|e1]|] eqn:NT; try (injection X as <- _; contradiction).
    + apply bind_ok in X. destruct X as (a & _ & X). injection X as <- _. contradiction.
    + destruct (negb sent); injection X as <- _; [contradiction|]. cbn in *. apply in_app_or in I. destruct I as [I|[I|[]]]; [contradiction|].
      subst x. rewrite upd_same in Hx. injection Hx as <-. eauto.
    + apply bind_ok in X. destruct X as (h1 & A & X). injection X as <- _. contradiction.
  - destruct (negb (mem i (w_objs w))); [injection X as <- _; contradiction|]. apply bind_ok in X. destruct X as (r1 & A & X).
    exfalso. apply NI. destruct (snd r1); [injection X as <- _; cbn in I; now apply del_In in I|].
    destruct wr as [rs|]; [|injection X as <- _; exact I]. apply bind_ok in X. destruct X as ([[h2 s2] d2] & B & X). injection X as <- _.
    destruct d2; [cbn in I; now apply del_In in I|exact I].
  - destruct (negb _); [injection X as <- _; contradiction|]. apply bind_ok in X. destruct X as (p & _ & X).
    destruct (console_b p); [|injection X as <- _; contradiction]. apply bind_ok in X. destruct X as (h1 & A & X). injection X as <- _. contradiction.
  - destruct (negb _); [injection X as <- _; contradiction|]. apply bind_ok in X. destruct X as (p & _ & X).
    destruct (log_b p); [|injection X as <- _; contradiction]. apply bind_ok in X. destruct X as (h1 & A & X). injection X as <- _. contradiction.
  - destruct (negb _); [injection X as <- _; contradiction|]. apply bind_ok in X. destruct X as (p & _ & X).
    destruct (log_b p); [|injection X as <- _; contradiction]. destruct ok; [|injection X as <- _; contradiction].
    apply bind_ok in X. destruct X as (h1 & A & X). apply bind_ok in X. destruct X as (h2 & A2 & X). injection X as <- _. contradiction.
Qed.
Lemma next_le E w e w' out : step E w e = Ok (w', out) -> w_next w <= w_next w'.
Proof.
  intros X. destruct e as [q m|t sent ro|i rd wr ro rst|i ro|l m|l ok m]; cbn [step] in X.
  - injection X as <- _. apply le_n.
  - destruct (nth_error (w_thr w) t) as [[q m|q sel|c [|y todo]|e1]|] eqn:NT; try (injection X as <- _; apply le_n).
    + apply bind_ok in X. destruct X as (a & _ & X). injection X as <- _. apply le_n.
    + destruct (negb sent); injection X as <- _; cbn; lia.
    + apply bind_ok in X. destruct X as (h1 & A & X). injection X as <- _. apply le_n.
  - destruct (negb (mem i (w_objs w))); [injection X as <- _; apply le_n|]. apply bind_ok in X. destruct X as (r1 & A & X).
    destruct (snd r1); [injection X as <- _; apply le_n|].
    destruct wr as [rs|]; [|injection X as <- _; apply le_n]. apply bind_ok in X. destruct X as ([[h2 s2] d2] & B & X). injection X as <- _.
    destruct d2; apply le_n.
  - destruct (negb _); [injection X as <- _; apply le_n|]. apply bind_ok in X. destruct X as (p & _ & X).
    destruct (console_b p); [|injection X as <- _; apply le_n]. apply bind_ok in X. destruct X as (h1 & A & X). injection X as <- _. apply le_n.
  - destruct (negb _); [injection X as <- _; apply le_n|]. apply bind_ok in X. destruct X as (p & _ & X).
    destruct (log_b p); [|injection X as <- _; apply le_n]. apply bind_ok in X. destruct X as (h1 & A & X). injection X as <- _. apply le_n.
  - destruct (negb _); [injection X as <- _; apply le_n|]. apply bind_ok in X. destruct X as (p & _ & X).
    destruct (log_b p); [|injection X as <- _; apply le_n]. destruct ok; [|injection X as <- _; apply le_n].
    apply bind_ok in X. destruct X as (h1 & A & X). apply bind_ok in X. destruct X as (h2 & A2 & X). injection X as <- _. apply le_n.
Qed.
Lemma no_output E w e w' out x : WWF E w -> step E w e = Ok (w', out) -> w_heap w x = None -> given_to x e out = [].
Proof.
  intros W X N. destruct e as [q m|t sent ro|i rd wr ro rst|i ro|l m|l ok m]; try reflexivity. cbn [given_to].
  destruct (Nat.eqb_spec i x) as [->|]; [|reflexivity]. cbn [step] in X.
  assert (M : mem x (w_objs w) = false) by (apply mem_not; intros Y; apply (ww_live W) in Y; now apply Y).
  rewrite M in X. cbn in X. now injection X as _ <-.
Qed.
Lemma step_facts E (HE : env_ok E) w e w' out : WWF E w -> event_ok e -> step E w e = Ok (w', out) ->
  WWF E w' /\ forall c o o', w_heap w c = Some o -> w_heap w' c = Some o' -> cls_of o' = cls_of o.
Proof.
  intros W EV X. pose proof (step_ok HE e W EV) as Y. rewrite X in Y. cbn in Y. destruct Y as [Y1 Y2]. split; [exact Y1|].
  intros c o o' A B. apply (Y2 c o o' A B).
Qed.
Lemma own_step E (HE : env_ok E) w e w' out : WWF E w -> event_ok e -> own_log (w_heap w) -> step E w e = Ok (w', out) -> own_log (w_heap w').
Proof.
  intros W EV OL X k co l Hk LB SL. destruct (step_facts HE _ W EV X) as [W' CLS].
  destruct (w_heap w k) as [co0|] eqn:H0.
  - pose proof (CLS k co0 co H0 Hk) as CE.
    assert (LB0 : log_b co0 = false) by (rewrite log_b_eq, <- CE, <- log_b_eq; exact LB).
    assert (LV : w_heap w' k <> None) by congruence.
    pose proof (proj2 (ww_hok W) k co0 H0) as (I1 & _).
    destruct (@event_S E HE w e W OL k w' out co0 H0 LB0 LV X co0 H0 I1 LB0) as (o' & ops & A1 & _ & _ & A4 & _).
    rewrite Hk in A1. injection A1 as <-. rewrite SL in A4. symmetry in A4.
    eapply event_J; [exact HE|exact W|exact (OL _ _ _ H0 LB0 A4)|exact X].
  - destruct (@new_obj E w e w' out k co W W' X H0 Hk) as (_ & (q & ->) & _). discriminate.
Qed.
Lemma pending_none sz o : o_in o = o_out o -> pending sz o = [].
Proof. intros e. unfold pending, num_bytes_buffered, lastn. rewrite e, Nat.leb_refl, Nat.sub_diag, Nat.sub_0_r. apply skipn_all. Qed.
Lemma boot_objs E cs w : boot E cs = Ok w -> forall k co, w_heap w k = Some co ->
  (forall l, s_log co = Some l -> In l (s_readers co)) /\ pending (e_sz E) (s_ring co) = [].
Proof.
  intros B. unfold boot in B. set (w1 := mkW (fun _ => None) 0 [] []) in B.
    assert (H1 : forall k co, w_heap w1 k = Some co -> (forall l, s_log co = Some l -> In l (s_readers co)) /\ pending (e_sz E) (s_ring co) = []) by discriminate.
    clearbody w1. revert w1 H1 B. induction cs as [|[t lg] cs IH]; intros w1 H1 B; cbn [boot_from] in B; [now injection B as <-|].
    apply bind_ok in B. destruct B as (w2 & A & B). apply (IH w2); [|exact B]. clear - A H1. cbn [add_console] in A. set (k := w_next w1) in *.
    destruct lg as [p|].
    - apply bind_ok in A. destruct A as (h1 & A & X). injection X as <-. cbn [w_heap].
      set (ok := new_console E t (Some (Datatypes.S k))) in *. set (ol := new_log E p) in *. set (h := upd (upd (w_heap w1) k (Some ok)) (Datatypes.S k) (Some ol)) in *.
      assert (NE : k <> Datatypes.S k) by lia.
      assert (Gk : h k = Some ok) by (unfold h; rewrite upd_other by exact NE; apply upd_same).
      assert (Gl : h (Datatypes.S k) = Some ol) by (unfold h; apply upd_same).
      unfold link_objs in A. rewrite (at_ok _ _ Gk), (at_ok _ _ Gl) in A. cbn [bind] in A. change (client_b ok) with false in A. cbn [andb bind] in A.
      rewrite (at_ok _ _ Gk) in A. cbn [bind] in A. apply bind_ok in A. destruct A as (u1 & _ & A). unfold modify in A.
      rewrite (at_ok _ _ Gk) in A. cbn [bind] in A. set (ok2 := set_readers ok _) in A.
      rewrite (@at_ok (upd h k (Some ok2)) (Datatypes.S k) ol) in A by (rewrite upd_other by lia; exact Gl).
      cbn [bind] in A. apply bind_ok in A. destruct A as (u2 & _ & A). cbn [bind] in A. apply bind_ok in A. destruct A as (u3 & _ & A).
      apply bind_ok in A. destruct A as (u4 & _ & A). injection A as <-.
      intros i co. unfold upd at 1. destruct (Nat.eqb_spec i (Datatypes.S k)) as [->|N1]; [intros e; injection e as <-; split; [discriminate|now apply pending_none]|].
      unfold upd at 1. destruct (Nat.eqb_spec i k) as [->|N2].
      { intros e; injection e as <-. split; [cbn; intros l e; injection e as <-; auto|now apply pending_none]. }
      unfold h. rewrite !upd_other by assumption. apply H1.
    - injection A as <-. cbn [w_heap]. intros i co. unfold upd. destruct (i =? k); [intros e; injection e as <-; split; [discriminate|now apply pending_none]|apply H1].
Qed.
Lemma boot_own E (HE : env_ok E) cs w : boot E cs = Ok w -> own_log (w_heap w).
Proof.
  intros B. assert (RL : forall k co l, w_heap w k = Some co -> s_log co = Some l -> In l (s_readers co)) by (intros k co l Y; apply (@boot_objs E cs _ B k co Y)).
  destruct (boot_ok HE cs) as (w1 & B1 & W). rewrite B in B1. injection B1 as <-.
  intros k co l Hk LB SL. pose proof (proj1 (ww_hok W)) as WF.
  destruct (wg_log WF k (G_of _ _ Hk) SL) as (nl & N1 & N2). apply G_some in N1. destruct N1 as (lo & Hl & <-). cbn in N2.
  assert (LL : log_b lo = true) by (rewrite log_b_eq, N2; reflexivity).
  destruct (boot_J HE cs B l Hl LL) as (k0 & ok & K1 & K2 & JJ).
  pose proof (j_fed JJ k Hk) as F. destruct (Nat.eqb_spec k k0) as [->|]; [exact JJ|]. exfalso. exact (reads_in _ _ (RL _ _ _ Hk SL) F).
Qed.
Lemma run_own E (HE : env_ok E) : forall es w w', WWF E w -> own_log (w_heap w) -> Forall event_ok es -> run E w es = Ok w' -> own_log (w_heap w').
Proof.
  induction es as [|e es IH]; intros w w' W OL EV X; cbn [run] in X; [injection X as <-; exact OL|].
  inversion EV as [|? ? EV1 EV2]; subst. apply bind_ok in X. destruct X as ([w1 s1] & A & X). cbn in X.
  eapply IH; [exact (proj1 (step_facts HE _ W EV1 A))|exact (own_step HE _ W EV1 OL A)|exact EV2|exact X].
Qed.
Lemma reach_own E (HE : env_ok E) w : reachable E w -> own_log (w_heap w).
Proof.
  intros (cs & w0 & es & B & EV & X). destruct (boot_ok HE cs) as (w1 & B1 & W). rewrite B in B1. injection B1 as <-.
  eapply run_own; eauto. eapply boot_own; eauto.
Qed.

(** A history: what was put into the queue of [x], from its creation on. *)
Lemma history_S E (HE : env_ok E) x : forall es w w' l o', WWF E w -> own_log (w_heap w) -> Forall event_ok es -> outputs E w es = Ok (w', l) ->
  w_heap w' x = Some o' -> log_b o' = false ->
  (exists o ops, w_heap w x = Some o /\ log_b o = false /\ qrun (e_sz E - 1) (abs (e_sz E) (s_ring o)) ops = (abs (e_sz E) (s_ring o'), sent_to x l) /\ Forall (due_in E w es x) ops) \/
  (w_heap w x = None /\ w_next w <= x /\ exists q ops, qrun (e_sz E - 1) (abs (e_sz E) (s_ring (new_client E q))) ops = (abs (e_sz E) (s_ring o'), sent_to x l) /\ Forall (due_in E w es x) ops).
Proof.
  induction es as [|e es IH]; intros w w' l o' W OL EV X Hx LB; cbn [outputs] in X.
  - injection X as <- <-. left. exists o', []. auto 6.
  - inversion EV as [|? ? EV1 EV2]; subst. apply bind_ok in X. destruct X as ([w1 s1] & A & X). cbn [fst snd] in X.
    apply bind_ok in X. destruct X as ([w2 l2] & B & X). cbn [fst snd] in X. injection X as <- <-.
    destruct (step_facts HE _ W EV1 A) as [W1 CLS]. pose proof (own_step HE _ W EV1 OL A) as OL1.
    assert (SENT : sent_to x ((match e with EvMux i _ _ _ _ => [(i, s1)] | _ => [] end) ++ l2) = given_to x e s1 ++ sent_to x l2).
    { unfold sent_to. rewrite flat_map_app. f_equal. destruct e; try reflexivity. cbn. destruct (i =? x); [apply app_nil_r|reflexivity]. }
    rewrite SENT.
    assert (LIFT : forall y, due_in E w1 es x y -> due_in E w (e :: es) x y).
    { intros y (a & e1 & b & wx & Y1 & Y2 & Y3). exists (e :: a), e1, b, wx. rewrite Y1. split; [reflexivity|]. split; [|exact Y3].
      cbn [run]. rewrite A. exact Y2. }
    destruct (IH _ _ _ _ W1 OL1 EV2 B Hx LB) as [(o1 & ops & H1 & L1 & Q1 & F1)|(H1 & N1 & q & ops & Q1 & F1)].
    + destruct (w_heap w x) as [o|] eqn:H0.
      * left. assert (LB0 : log_b o = false) by (rewrite log_b_eq, <- (CLS x o o1 H0 H1), <- log_b_eq; exact L1).
        assert (LV : w_heap w1 x <> None) by congruence. pose proof (proj2 (ww_hok W) x o H0) as (I1 & _).
        destruct (@event_S E HE w e W OL x w1 s1 o H0 LB0 LV A o H0 I1 LB0) as (o2 & ops0 & A1 & _ & _ & _ & A5 & A6).
        rewrite H1 in A1. injection A1 as <-. exists o, (ops0 ++ ops). split; [reflexivity|]. split; [exact LB0|].
        split; [rewrite qrun_app, A5, Q1; reflexivity|]. apply Forall_app. split.
        -- eapply Forall_impl; [|exact A6]. intros y D. exists [], e, es, w. auto.
        -- eapply Forall_impl; [|exact F1]. auto.
      * right. destruct (@new_obj E w e w1 s1 x o1 W W1 A H0 H1) as (-> & (q & ->) & G). split; [reflexivity|]. split; [apply le_n|].
        exists q, ops. rewrite G. cbn [app]. split; [exact Q1|]. eapply Forall_impl; [|exact F1]. auto.
    + pose proof (@next_le E w e w1 s1 A) as NL. destruct (w_heap w x) as [o|] eqn:H0.
      * exfalso. assert (I : In x (w_objs w)) by (apply (ww_live W); unfold live; congruence). pose proof (ww_fresh W _ I). lia.
      * right. split; [reflexivity|]. split; [lia|]. exists q, ops. rewrite (@no_output E w e w1 s1 x W A H0). cbn [app]. split; [exact Q1|].
        eapply Forall_impl; [|exact F1]. auto.
Qed.
