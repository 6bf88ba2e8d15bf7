(** Proofs about what is put into the queues of clients and consoles. *)
From Verif Require Import Base BaseProof RingModel RingSpec RingProof LogModel LogSpec LogProof
  TelnetModel TelnetSpec TelnetProof EscModel EscSpec EscProof SessModel SessSpec SessInv SessLink SessStep SessWorld
  SessThread SessFacts SessMode FlowSpec FlowProof RecSpec RecProof SeenSpec.
Set Implicit Arguments.

Lemma qrun_one c q y : qrun c q [y] = (fst (qstep c q y), snd (qstep c q y)).
Proof. cbn [qrun]. destruct (qstep c q y) as [q1 s1]. cbn [fst snd]. now rewrite app_nil_r. Qed.

Section Env.
Variable E : env.
Hypothesis HE : env_ok E.
Notation SZ := (e_sz E).
Notation CAP := (e_sz E - 1).
Variable x : nat.
(** The operations that are allowed; who may feed [x], whom [x] may feed; whether
    [x] is a client. *)
Variable Q : op -> Prop.
Variables RD WR : nat -> Prop.
Variable CL : Prop.
Definition LK (i : nat) : Prop := RD i \/ WR i.
Hypothesis Q_arr : forall c i b, LK i -> Q (OWrite (e_txt E (NArrived c i b)) true).
Hypothesis Q_dep : forall c i, LK i -> Q (OWrite (e_txt E (NDeparted c i)) true).
Hypothesis Q_eof : CL -> Q OEof.

Record K (h : heap) : Prop := mkK {
  k_rd : forall i o, h i = Some o -> In x (s_readers o) -> RD i;
  k_wr : forall i o, h i = Some o -> In x (s_writers o) -> WR i;
  k_me : forall o, h x = Some o -> (forall i, In i (s_writers o) -> RD i) /\ (forall i, In i (s_readers o) -> WR i) /\ (client_b o = true -> CL) }.

(** What happened to the queue: [ops] *)
Definition S (out : list Z) (h h' : heap) : Prop :=
  forall o, h x = Some o -> Inv SZ (s_ring o) -> log_b o = false -> exists o' ops, h' x = Some o' /\ Inv SZ (s_ring o') /\
    kcls (o_kind (s_ring o')) = kcls (o_kind (s_ring o)) /\ s_log o' = s_log o /\
    qrun CAP (abs SZ (s_ring o)) ops = (abs SZ (s_ring o'), out) /\ Forall Q ops.
Definition U (out : list Z) (h h' : heap) : Prop := K h' /\ S out h h'.

Lemma S_refl h : S [] h h.
Proof. intros o H I LB. exists o, []. auto 10. Qed.
Lemma S_trans o1 o2 a b c : S o1 a b -> S o2 b c -> S (o1 ++ o2) a c.
Proof.
  intros A B o H I LB. destruct (A o H I LB) as (p & e1 & Hp & A1 & A2 & A3 & A4 & A5).
  destruct (cls_client o p A2) as [_ C2].
  destruct (B p Hp A1) as (q & e2 & Hq & B1 & B2 & B3 & B4 & B5); [congruence|].
  exists q, (e1 ++ e2). split; [exact Hq|]. split; [exact B1|]. split; [congruence|]. split; [congruence|]. split.
  - rewrite qrun_app, A4, B4. reflexivity.
  - apply Forall_app. auto.
Qed.
Lemma U_refl h : K h -> U [] h h.
Proof. intros H. split; [exact H|apply S_refl]. Qed.
Lemma U_trans o1 o2 a b c : U o1 a b -> U o2 b c -> U (o1 ++ o2) a c.
Proof. intros [_ A] [B C]. split; [exact B|]. exact (S_trans A C). Qed.
Lemma U_trans0 a b c : U [] a b -> U [] b c -> U [] a c.
Proof. exact (@U_trans [] [] a b c). Qed.
Lemma U_K out h h' : U out h h' -> K h'. Proof. intros H; apply H. Qed.
Lemma U_S out h h' : U out h h' -> S out h h'. Proof. intros H; apply H. Qed.

Lemma K_upd h i o o' : K h -> h i = Some o -> (In x (s_readers o') -> RD i) -> (In x (s_writers o') -> WR i) ->
  (i = x -> (forall j, In j (s_writers o') -> RD j) /\ (forall j, In j (s_readers o') -> WR j)) ->
  client_b o' = client_b o -> K (upd h i (Some o')).
Proof.
  intros [A B C] H R W M CB. constructor.
  - intros j p Hj. unfold upd in Hj. destruct (Nat.eqb_spec j i) as [->|]; [|eauto]. now injection Hj as <-.
  - intros j p Hj. unfold upd in Hj. destruct (Nat.eqb_spec j i) as [->|]; [|eauto]. now injection Hj as <-.
  - intros p Hp. unfold upd in Hp. destruct (Nat.eqb_spec x i) as [e|]; [|auto]. injection Hp as <-. destruct (M (eq_sym e)) as [M1 M2].
    split; [exact M1|]. split; [exact M2|]. rewrite CB. rewrite <- e in H. apply (C _ H).
Qed.
Lemma K_same h i o o' : K h -> h i = Some o -> incl (s_readers o') (s_readers o) -> incl (s_writers o') (s_writers o) ->
  client_b o' = client_b o -> K (upd h i (Some o')).
Proof.
  intros H A R W CB. eapply K_upd; [exact H|exact A|intros I; exact (k_rd H i A (R _ I))|intros I; exact (k_wr H i A (W _ I))| |exact CB].
  intros ->. destruct (k_me H A) as (M1 & M2 & _). split; auto.
Qed.
(** An object changes. *)
Lemma S_upd out h i o o' : h i = Some o -> kcls (o_kind (s_ring o')) = kcls (o_kind (s_ring o)) -> s_log o' = s_log o ->
  (i = x -> Inv SZ (s_ring o) -> log_b o = false -> Inv SZ (s_ring o') /\ exists ops, qrun CAP (abs SZ (s_ring o)) ops = (abs SZ (s_ring o'), out) /\ Forall Q ops) ->
  (i <> x -> out = []) -> S out h (upd h i (Some o')).
Proof.
  intros H KC SL S1 S2 p Hp I LB. destruct (Nat.eq_dec i x) as [->|N].
  - rewrite H in Hp. injection Hp as <-. destruct (S1 eq_refl I LB) as (I1 & ops & A & B). exists o', ops. rewrite upd_same. auto 8.
  - rewrite (S2 N). exists p, []. rewrite upd_other by congruence. auto 10.
Qed.
Lemma S_still h i o o' : h i = Some o -> s_ring o' = s_ring o -> s_log o' = s_log o -> S [] h (upd h i (Some o')).
Proof.
  intros A SR SL. eapply S_upd; eauto; [now rewrite SR|]. intros _ I _. rewrite SR. split; [exact I|]. exists []. split; [reflexivity|constructor].
Qed.
Lemma U_upd out h i o o' : K h -> h i = Some o -> incl (s_readers o') (s_readers o) -> incl (s_writers o') (s_writers o) ->
  kcls (o_kind (s_ring o')) = kcls (o_kind (s_ring o)) -> s_log o' = s_log o ->
  (i = x -> Inv SZ (s_ring o) -> log_b o = false -> Inv SZ (s_ring o') /\ exists ops, qrun CAP (abs SZ (s_ring o)) ops = (abs SZ (s_ring o'), out) /\ Forall Q ops) ->
  (i <> x -> out = []) -> U out h (upd h i (Some o')).
Proof.
  intros H A R W KC SL S1 S2. destruct (cls_client o o' KC) as [C1 C2].
  split; [eapply K_same; eauto|]. eapply S_upd; eauto.
Qed.
(** ... without an effect on its queue *)
Lemma U_still h i o o' : K h -> h i = Some o -> incl (s_readers o') (s_readers o) -> incl (s_writers o') (s_writers o) ->
  s_ring o' = s_ring o -> s_log o' = s_log o -> U [] h (upd h i (Some o')).
Proof.
  intros H A R W SR SL. eapply U_upd; eauto; [now rewrite SR|]. intros _ I _. rewrite SR. split; [exact I|]. exists []. split; [reflexivity|constructor].
Qed.
(** ... by an operation of its queue *)
Lemma U_op h i o r y out : K h -> h i = Some o -> op_allowed (is_client (s_ring o)) y -> RingModel.step SZ (s_ring o) y = Ok (r, out) ->
  kcls (o_kind r) = kcls (o_kind (s_ring o)) -> (i = x -> Q y) -> (i <> x -> out = []) -> U out h (upd h i (Some (set_ring o r))).
Proof.
  intros H A AL X KC Qy N. eapply U_upd; [exact H|exact A|apply incl_refl|apply incl_refl|exact KC|reflexivity| |exact N].
  intros e I _. pose proof HE as (HZ & _). destruct (@step_abs SZ (s_ring o) y HZ I AL) as (r1 & B1 & B2 & B3). rewrite X in B1. injection B1 as <- ->.
  split; [exact B2|]. exists [y]. cbn [s_ring set_ring]. rewrite B3, qrun_one. split; [reflexivity|]. constructor; auto.
Qed.
Lemma modify_U h i f h' : K h -> modify h i f = Ok h' ->
  (forall o, h i = Some o -> incl (s_readers (f o)) (s_readers o) /\ incl (s_writers (f o)) (s_writers o) /\ s_ring (f o) = s_ring o /\ s_log (f o) = s_log o) ->
  U [] h h'.
Proof.
  unfold modify. intros H X F. apply bind_ok in X. destruct X as (o & A & X). apply at_some in A. injection X as <-.
  destruct (F o A) as (F1 & F2 & F3 & F4). eapply U_still; eauto.
Qed.
Lemma put_U h i d f h' : K h -> put_data E h i d f = Ok h' -> (i = x -> Q (OWrite d f)) -> U [] h h'.
Proof.
  unfold put_data. intros H X Y. apply bind_ok in X. destruct X as (o & A & X). apply at_some in A.
  apply bind_ok in X. destruct X as ([n r] & B & X). injection X as <-. cbn [snd].
  destruct (write_same _ _ _ _ B) as (K1 & K2 & K3).
  eapply U_op with (y := OWrite d f); [exact H|exact A|exact I| |exact K3|exact Y|reflexivity].
  cbn [RingModel.step]. rewrite B. reflexivity.
Qed.
Lemma fold_U {A} (f : heap -> A -> res heap) (l : list A) : (forall h a h', In a l -> K h -> f h a = Ok h' -> U [] h h') ->
  forall h h', K h -> foldr_res f h l = Ok h' -> U [] h h'.
Proof.
  induction l as [|a l IH]; intros F h h' H X; cbn [foldr_res] in X; [injection X as <-; now apply U_refl|].
  apply bind_ok in X. destruct X as (h1 & A1 & X). pose proof (F h a h1 (or_introl eq_refl) H A1) as T1.
  eapply U_trans0; [exact T1|]. apply IH; [|apply (U_K T1)|exact X]. intros; eapply F; eauto; now right.
Qed.
Lemma notify_U h i m h' : K h -> notify E h i m = Ok h' -> (LK i -> Q (OWrite m true)) -> U [] h h'.
Proof.
  unfold notify. intros H X Y. apply bind_ok in X. destruct X as (o & A & X). apply at_some in A. apply bind_ok in X. destruct X as (u & _ & X).
  destruct m as [|b m]; [injection X as <-; now apply U_refl|].
  apply bind_ok in X. destruct X as (h1 & B & X).
  assert (T1 : U [] h h1).
  { eapply fold_U; [|exact H|exact B]. intros ha a hb I Ha Z. eapply put_U; [exact Ha|exact Z|]. intros ->. apply Y. left. exact (k_rd H i A I). }
  eapply U_trans0; [exact T1|]. eapply fold_U; [|exact (U_K T1)|exact X]. intros ha a hb I Ha Z. cbn beta in Z.
  destruct (mem a (s_readers o)); [injection Z as <-; now apply U_refl|]. eapply put_U; [exact Ha|exact Z|].
  intros ->. apply Y. right. exact (k_wr H i A I).
Qed.
Lemma del_incl y l : incl (del y l) l.
Proof. intros z. rewrite del_In. tauto. Qed.
Lemma unlink_objs_U h s d h' : K h -> unlink_objs E h s d = Ok h' -> U [] h h'.
Proof.
  unfold unlink_objs. intros H X.
  apply bind_ok in X. destruct X as (h1 & A1 & X). apply bind_ok in X. destruct X as (d0 & _ & X).
  apply bind_ok in X. destruct X as (h2 & A2 & X). apply bind_ok in X. destruct X as (s1 & _ & X).
  apply bind_ok in X. destruct X as (h3 & A3 & X). apply bind_ok in X. destruct X as (s2 & G1 & X).
  apply bind_ok in X. destruct X as (d2 & G2 & X). apply bind_ok in X. destruct X as (h4 & A4 & X).
  apply bind_ok in X. destruct X as (u & _ & X). apply bind_ok in X. destruct X as (v & _ & X). injection X as <-.
  apply at_some in G1. apply at_some in G2.
  assert (T1 : U [] h h1).
  { eapply modify_U; [exact H|exact A1|]. intros o Ho. cbn. split; [apply del_incl|]. split; [apply incl_refl|auto]. }
  assert (T2 : U [] h1 h2).
  { eapply modify_U; [exact (U_K T1)|exact A2|]. intros o Ho. cbn. split; [apply incl_refl|]. split; [apply del_incl|auto]. }
  assert (T3 : U [] h2 h3).
  { destruct (mem s (s_writers d0) && client_b s1 && console_b d0); [|injection A3 as <-; apply U_refl; apply (U_K T2)].
    eapply notify_U; [exact (U_K T2)|exact A3|]. apply Q_dep. }
  eapply U_trans0; [exact T1|]. eapply U_trans0; [exact T2|]. eapply U_trans0; [exact T3|]. pose proof (U_K T3) as J3.
  assert (EO : forall i y, h3 i = Some y -> client_b y = true -> modify h3 i (fun o => set_ring o (set_eof (s_ring o))) = Ok h4 -> U [] h3 h4).
  { intros i y Hy CB M. unfold modify in M. rewrite (at_ok _ _ Hy) in M. cbn [bind] in M. injection M as <-.
    eapply U_upd; [exact J3|exact Hy|apply incl_refl|apply incl_refl|reflexivity|reflexivity| |reflexivity].
    intros -> I _. split; [exact I|]. exists [OEof]. split; [reflexivity|]. constructor; [|constructor]. apply Q_eof. destruct (k_me J3 Hy) as (_ & _ & M). auto. }
  destruct (client_b s2 && no_links s2) eqn:C1; [|destruct (client_b d2 && no_links d2) eqn:C2].
  - apply bind_ok in A4. destruct A4 as (w & _ & A4). apply andb_prop in C1. eapply EO; [exact G1|apply C1|exact A4].
  - apply bind_ok in A4. destruct A4 as (w & _ & A4). apply andb_prop in C2. eapply EO; [exact G2|apply C2|exact A4].
  - injection A4 as <-. now apply U_refl.
Qed.
Lemma unlink_obj_U h c h' : K h -> unlink_obj E h c = Ok h' -> U [] h h'.
Proof.
  intros H X.
  assert (W : forall n h h', K h -> unlink_writers E n h c = Ok h' -> U [] h h').
  { clear - Q_dep Q_eof HE. induction n as [|n IH]; intros ha hb Ha Y; cbn [unlink_writers] in Y; apply bind_ok in Y; destruct Y as (q & _ & Y);
      destruct (s_writers q); try (injection Y as <-; now apply U_refl); try discriminate.
    apply bind_ok in Y. destruct Y as (h1 & A & Y). pose proof (unlink_objs_U _ _ Ha A) as T1.
    eapply U_trans0; [exact T1|]. apply IH; [apply (U_K T1)|exact Y]. }
  assert (R : forall n h h', K h -> unlink_readers E n h c = Ok h' -> U [] h h').
  { clear - Q_dep Q_eof HE. induction n as [|n IH]; intros ha hb Ha Y; cbn [unlink_readers] in Y; apply bind_ok in Y; destruct Y as (q & _ & Y);
      destruct (s_readers q); try (injection Y as <-; now apply U_refl); try discriminate.
    apply bind_ok in Y. destruct Y as (h1 & A & Y). pose proof (unlink_objs_U _ _ Ha A) as T1.
    eapply U_trans0; [exact T1|]. apply IH; [apply (U_K T1)|exact Y]. }
  unfold unlink_obj in X. apply bind_ok in X. destruct X as (o0 & _ & X).
  apply bind_ok in X. destruct X as (h1 & A & X). apply bind_ok in X. destruct X as (o1 & _ & X).
  pose proof (W _ _ _ H A) as T1. eapply U_trans0; [exact T1|]. eapply R; [apply (U_K T1)|exact X].
Qed.
Lemma link_U h s d h' : K h -> link_objs E h s d = Ok h' -> (s = x -> CL -> forall w b, Q (OWrite (e_txt E (NWith w d b)) true)) ->
  S [] h h' /\ ((d = x -> RD s) -> (s = x -> WR d) -> K h').
Proof.
  unfold link_objs. intros H X QW.
  apply bind_ok in X. destruct X as (s0 & G0 & X). apply bind_ok in X. destruct X as (d0 & G1 & X).
  apply bind_ok in X. destruct X as (h3 & A3 & X). apply bind_ok in X. destruct X as (s1 & _ & X).
  apply bind_ok in X. destruct X as (u1 & _ & X). apply bind_ok in X. destruct X as (h4 & A4 & X).
  apply bind_ok in X. destruct X as (d1 & _ & X). apply bind_ok in X. destruct X as (u2 & _ & X).
  apply bind_ok in X. destruct X as (h5 & A5 & X).
  apply bind_ok in X. destruct X as (u & _ & X). apply bind_ok in X. destruct X as (v & _ & X). injection X as <-.
  apply at_some in G0. apply at_some in G1.
  assert (T3 : U [] h h3).
  { destruct (client_b s0 && console_b d0) eqn:CC; [|injection A3 as <-; now apply U_refl]. apply andb_prop in CC. destruct CC as [CC _].
    cbv zeta in A3. apply bind_ok in A3. destruct A3 as (h1 & B1 & A3). apply bind_ok in A3. destruct A3 as (h2 & B2 & A3).
    assert (T1 : U [] h h1) by (eapply notify_U; [exact H|exact B1|]; apply Q_arr).
    assert (T2 : U [] h1 h2).
    { eapply fold_U; [|exact (U_K T1)|exact B2]. intros ha w hb I Ha Y. cbn beta in Y. apply bind_ok in Y. destruct Y as (y & _ & Y).
      destruct (client_b y); [|discriminate]. eapply put_U; [exact Ha|exact Y|]. intros ->. apply QW; [reflexivity|]. destruct (k_me H G0) as (_ & _ & M). auto. }
    eapply U_trans0; [exact T1|]. eapply U_trans0; [exact T2|].
    destruct (r_force (s_req s0) && negb (length (s_writers d0) =? 0)); [|injection A3 as <-; apply U_refl; apply (U_K T2)].
    eapply fold_U; [|apply (U_K T2)|exact A3]. intros ha w hb I Ha Y. cbn beta in Y. apply bind_ok in Y. destruct Y as (dd & _ & Y).
    destruct (mem w (s_writers dd)); [exact (unlink_obj_U _ Ha Y)|injection Y as <-; now apply U_refl]. }
  unfold modify in A4, A5. apply bind_ok in A4. destruct A4 as (p & P1 & A4). apply at_some in P1. injection A4 as <-.
  apply bind_ok in A5. destruct A5 as (q & Q1 & A5). apply at_some in Q1. injection A5 as <-.
  split.
  - apply (@S_trans [] [] _ _ _ (U_S T3)). apply (@S_trans [] [] _ (upd h3 s (Some (set_readers p (s_readers p ++ [d]))))); [apply S_still with p; auto|apply S_still with q; auto].
  - intros D1 D2. pose proof (U_K T3) as K3.
    assert (K4 : K (upd h3 s (Some (set_readers p (s_readers p ++ [d]))))).
    { eapply K_upd; [exact K3|exact P1| | | |reflexivity]; cbn.
      - intros I. apply in_app_or in I. destruct I as [I|[I|[]]]; [exact (k_rd K3 s P1 I)|auto].
      - exact (k_wr K3 s P1).
      - intros ->. destruct (k_me K3 P1) as (M1 & M2 & _). split; [exact M1|]. intros j I. apply in_app_or in I. destruct I as [I|[I|[]]]; [auto|subst j; auto]. }
    eapply K_upd; [exact K4|exact Q1| | | |reflexivity]; cbn.
    + exact (k_rd K4 d Q1).
    + intros I. apply in_app_or in I. destruct I as [I|[I|[]]]; [exact (k_wr K4 d Q1 I)|auto].
    + intros ->. destruct (k_me K4 Q1) as (M1 & M2 & _). split; [|exact M2]. intros j I. apply in_app_or in I. destruct I as [I|[I|[]]]; [auto|subst j; auto].
Qed.
Lemma open_console_U h i ro h' : K h -> open_console E h i ro = Ok h' -> (LK i -> forall m, In m (ro_msgs ro) -> Q (OWrite m true)) ->
  (i = x -> (ro_close ro = true -> Q OClose) /\ (ro_open ro = true -> Q OOpen) /\ forall m, In m (ro_own ro) -> Q (OWrite m false)) -> U [] h h'.
Proof.
  unfold open_console. intros H X QM QX. apply bind_ok in X. destruct X as (o & A & X). apply at_some in A.
  apply bind_ok in X. destruct X as (u & CB & X). cbv zeta in X. apply bind_ok in X. destruct X as (h2 & B & X).
  assert (KO : kcls (o_kind (s_ring o)) = ClCons) by (unfold console_b in CB; destruct (o_kind (s_ring o)); try discriminate; reflexivity).
  set (r1 := if ro_close ro then close_fd (s_ring o) else s_ring o) in *. set (r2 := if ro_open ro then open_fd r1 else r1) in *.
  set (o1 := set_state _ _) in *.
  assert (K1 : kcls (o_kind r1) = kcls (o_kind (s_ring o))) by (unfold r1; destruct (ro_close ro); reflexivity).
  assert (K2 : kcls (o_kind r2) = kcls (o_kind r1)) by (unfold r2; destruct (ro_open ro); [unfold open_fd; destruct (o_open r1)|]; reflexivity).
  assert (T1 : U [] h (upd h i (Some o1))).
  { eapply U_upd; [exact H|exact A|apply incl_refl|apply incl_refl|cbn; congruence|reflexivity| |reflexivity].
    intros e I LB. pose proof HE as (HZ & _). destruct (QX e) as (QC & QO & _). cbn [s_ring set_state set_ring o1].
    assert (Y1 : Inv SZ r1 /\ exists ops, qrun CAP (abs SZ (s_ring o)) ops = (abs SZ r1, []) /\ Forall Q ops).
    { unfold r1. destruct (ro_close ro) eqn:RC; [|split; [exact I|]; exists []; split; [reflexivity|constructor]].
      destruct (@step_abs SZ (s_ring o) OClose HZ I Logic.I) as (r' & R1 & R2 & R3). cbn in R1. injection R1 as <-.
      split; [exact R2|]. exists [OClose]. split; [cbn [qrun]; rewrite R3; reflexivity|]. constructor; auto. }
    destruct Y1 as (I1 & ops & Y1 & Y2).
    assert (Y3 : Inv SZ r2 /\ exists ops, qrun CAP (abs SZ r1) ops = (abs SZ r2, []) /\ Forall Q ops).
    { unfold r2. destruct (ro_open ro) eqn:RC; [|split; [exact I1|]; exists []; split; [reflexivity|constructor]].
      destruct (@step_abs SZ r1 OOpen HZ I1 Logic.I) as (r' & R1 & R2 & R3). cbn [RingModel.step] in R1. injection R1 as <- R0.
      split; [exact R2|]. exists [OOpen]. split; [rewrite qrun_one, R3, R0; reflexivity|constructor; auto]. }
    destruct Y3 as (I2 & ops2 & Y3 & Y4). split; [exact I2|]. exists (ops ++ ops2). split; [|apply Forall_app; auto].
    rewrite qrun_app, Y1, Y3. reflexivity. }
  assert (T2 : U [] (upd h i (Some o1)) h2).
  { eapply fold_U; [|exact (U_K T1)|exact B]. intros ha m hb I Ha Y. eapply notify_U; [exact Ha|exact Y|]. auto. }
  eapply U_trans0; [exact T1|]. eapply U_trans0; [exact T2|]. eapply fold_U; [|exact (U_K T2)|exact X].
  intros ha m hb I Ha Y. eapply put_U; [exact Ha|exact Y|]. intros e. apply (QX e). exact I.
Qed.
Lemma check_U h i c ro h' : K h -> check_console_state E h i c ro = Ok h' -> (c = x -> Q (OWrite (e_txt E (NDown i)) true)) ->
  (LK i -> forall m, In m (ro_msgs ro) -> Q (OWrite m true)) ->
  (i = x -> (ro_close ro = true -> Q OClose) /\ (ro_open ro = true -> Q OOpen) /\ forall m, In m (ro_own ro) -> Q (OWrite m false)) -> U [] h h'.
Proof.
  unfold check_console_state. intros H X QN QM QX. apply bind_ok in X. destruct X as (o & _ & X). cbv zeta in X.
  assert (Y : forall hx hy, K hx -> put_data E hx c (e_txt E (NDown i)) true = Ok hy -> U [] hx hy).
  { intros hx hy Hx Z. eapply put_U; [exact Hx|exact Z|exact QN]. }
  assert (Z : forall hx hy, K hx -> (do h1 <- put_data E hx c (e_txt E (NDown i)) true; open_console E h1 i ro) = Ok hy -> U [] hx hy).
  { intros hx hy Hx W. apply bind_ok in W. destruct W as (h1 & A & W). pose proof (Y _ _ Hx A) as T1. eapply U_trans0; [exact T1|].
    eapply open_console_U; [apply (U_K T1)|exact W|exact QM|exact QX]. }
  destruct (s_type o); try destruct (negb (o_open (s_ring o))); try destruct (s_state o);
    first [injection X as <-; now apply U_refl | eapply Z; [exact H|exact X] | eapply Y; [exact H|exact X]].
Qed.
Lemma shutdown_U h i ro r : K h -> shutdown_obj E h i ro = Ok r -> (LK i -> forall m, In m (ro_msgs ro) -> Q (OWrite m true)) ->
  (i = x -> Q OShutdown /\ (ro_close ro = true -> Q OClose) /\ (ro_open ro = true -> Q OOpen) /\ forall m, In m (ro_own ro) -> Q (OWrite m false)) ->
  U [] h (fst r).
Proof.
  unfold shutdown_obj. intros H X QM QX. apply bind_ok in X. destruct X as (o & A & X). apply at_some in A.
  destruct (negb (o_open (s_ring o))); [injection X as <-; now apply U_refl|].
  assert (T1 : U [] h (upd h i (Some (set_ring o (shutdown_buf (s_ring o)))))).
  { eapply U_op with (y := OShutdown); [exact H|exact A|exact I|reflexivity|unfold shutdown_buf; destruct (negb _); reflexivity| |reflexivity].
    intros e. apply (QX e). }
  destruct (client_b o).
  - apply bind_ok in X. destruct X as (h2 & B & X). injection X as <-. cbn [fst].
    eapply U_trans0; [exact T1|]. exact (unlink_obj_U _ (U_K T1) B).
  - destruct (log_b o); [injection X as <-; exact T1|].
    apply bind_ok in X. destruct X as (h2 & B & X). injection X as <-. cbn [fst].
    eapply U_trans0; [exact T1|]. eapply open_console_U; [exact (U_K T1)|exact B|exact QM|]. intros e. apply (QX e).
Qed.

(** What a log replay gives to client [c]. *)
Definition replayed (h : heap) (c : nat) (m : list Z) : Prop :=
  exists o i ws co, h c = Some o /\ s_writers o = i :: ws /\ h i = Some co /\
    (m = e_txt E (NNotLogged i) \/
     exists l lo, s_log co = Some l /\ h l = Some lo /\ replay_message SZ (e_rl E) (e_dbg E) (s_ring lo) (e_txt E (NBegin i)) (e_txt E (NEnd i)) = Ok (Some m)).
Lemma cmd_U rst h c y h' : K h -> exec_cmd E rst h c y = Ok h' ->
  (RD c -> forall m, keystroke y m -> Q (OWrite m false)) ->
  (switches y = true -> (WR c -> RD c) /\ (c = x -> forall i, RD i -> WR i /\ forall w b, Q (OWrite (e_txt E (NWith w i b)) true))) ->
  (y = SReplay -> c = x -> forall m, replayed h c m -> Q (OWrite m false)) ->
  (y = SQuiet -> c = x -> Q OQuiet /\ forall b, Q (OWrite (e_txt E (NQuiet b)) false)) ->
  (y = SReset -> forall i o, h c = Some o -> In i (s_readers o) -> LK i -> forall m, In m (rst i) -> Q (OWrite m true)) ->
  (y = SSuspend -> c = x -> Q OSuspend) -> U [] h h'.
Proof.
  intros H X QK QW QP QQ QR QS.
  assert (LKG : switches y = true -> forall f j, (do h1 <- set_fj h c f j; writer_linkage E h1 c) = Ok h' -> U [] h h').
  { intros SW f j Y. apply bind_ok in Y. destruct Y as (h1 & A & Y). unfold set_fj in A. destruct (QW SW) as [W1 W2].
    assert (T1 : U [] h h1).
    { eapply modify_U; [exact H|exact A|]. intros q Hq. cbn. auto using incl_refl. }
    eapply U_trans0; [exact T1|]. unfold writer_linkage in Y. apply bind_ok in Y. destruct Y as (q & Hq & Y). apply at_some in Hq.
    destruct (r_bcast (s_req q)); [injection Y as <-; apply U_refl, (U_K T1)|].
    apply bind_ok in Y. destruct Y as (u & _ & Y). apply bind_ok in Y. destruct Y as (v & _ & Y).
    destruct (s_writers q) as [|i l] eqn:EW; [discriminate|].
    destruct (negb _); [exact (unlink_objs_U _ _ (U_K T1) Y)|].
    assert (RI : c = x -> RD i) by (intros ->; apply (k_me (U_K T1) Hq); rewrite EW; now left).
    destruct (@link_U h1 c i h' (U_K T1) Y) as [L1 L2].
    { intros e _. apply (W2 e i (RI e)). }
    split; [|exact L1]. apply L2.
    - intros ->. apply W1. apply (k_wr (U_K T1) c Hq). rewrite EW. now left.
    - intros e. apply (W2 e i (RI e)). }
  destruct y; cbn [exec_cmd] in X; eauto; unfold log_replay in X; apply bind_ok in X; destruct X as (o & A & X); apply at_some in A.
  - eapply fold_U; [|exact H|exact X]. intros ha i hb I Ha Y. unfold break_one in Y. apply bind_ok in Y. destruct Y as (oo & _ & Y).
    destruct (s_type oo); try (injection Y as <-; now apply U_refl); (eapply put_U; [exact Ha|exact Y|]); intros ->; (apply QK; [exact (k_rd H c A I)|]); cbn; auto.
    destruct (o_open (s_ring oo) && state_up oo); auto.
  - eapply fold_U; [|exact H|exact X]. intros ha i hb I Ha Y. cbn beta in Y. eapply put_U; [exact Ha|exact Y|].
    intros ->. apply QK; [exact (k_rd H c A I)|]. reflexivity.
  - destruct (s_writers o) as [|i ws] eqn:EW; [injection X as <-; now apply U_refl|].
    apply bind_ok in X. destruct X as (u & _ & X). apply bind_ok in X. destruct X as (co & C1 & X). apply at_some in C1.
    apply bind_ok in X. destruct X as (lf & C2 & X). destruct lf as [l|].
    + apply bind_ok in X. destruct X as (lo & C3 & X). apply at_some in C3. apply bind_ok in X. destruct X as (m & C4 & X).
      destruct m as [m|]; [|injection X as <-; now apply U_refl]. eapply put_U; [exact H|exact X|]. intros e. apply QP; auto.
      exists o, i, ws, co. split; [exact A|]. split; [exact EW|]. split; [exact C1|]. right. exists l, lo.
      unfold console_logfile in C2. destruct (s_log co) as [l'|]; [|discriminate]. apply bind_ok in C2. destruct C2 as (lo' & _ & C2).
      destruct (o_open (s_ring lo')); [|discriminate]. injection C2 as <-. auto.
    + destruct (e_sz E - 1 <=? _); [injection X as <-; now apply U_refl|]. eapply put_U; [exact H|exact X|]. intros e. apply QP; auto.
      exists o, i, ws, co. auto.
  - apply bind_ok in X. destruct X as (r & B & X).
    assert (T1 : U [] h (upd h c (Some (set_ring o r)))).
    { pose proof B as B0. unfold toggle_quiet in B. destruct (o_kind (s_ring o)) eqn:KD; try discriminate.
      eapply U_op with (y := OQuiet); [exact H|exact A|cbn; unfold is_client; now rewrite KD|cbn [RingModel.step]; rewrite B0; reflexivity| |intros e; now apply QQ|reflexivity].
      injection B as <-. cbn. now rewrite KD. }
    eapply U_trans0; [exact T1|]. eapply put_U; [apply (U_K T1)|exact X|]. intros e. now apply QQ.
  - eapply fold_U; [|exact H|exact X]. intros ha i hb I Ha Y. cbn beta in Y. eapply fold_U; [|exact Ha|exact Y].
    intros hc m hd Im Hcc Z. cbn beta in Z. eapply notify_U; [exact Hcc|exact Z|]. intros LL. eapply QR; eauto.
  - apply bind_ok in X. destruct X as (r & B & X). injection X as <-.
    pose proof B as B0. unfold toggle_suspend in B. destruct (o_kind (s_ring o)) as [q0 s0|ls|] eqn:KD; try discriminate.
    eapply U_op with (y := OSuspend); [exact H|exact A|cbn; unfold is_client; now rewrite KD|cbn [RingModel.step]; rewrite B0; reflexivity| |intros e; now apply QS|reflexivity].
    injection B as <-. rewrite KD. destruct s0; reflexivity.
Qed.
Lemma cmds_U rst c h0 cs : 
  (RD c -> forall y m, In y cs -> keystroke y m -> Q (OWrite m false)) ->
  (forall y, In y cs -> switches y = true -> (WR c -> RD c) /\ (c = x -> forall i, RD i -> WR i /\ forall w b, Q (OWrite (e_txt E (NWith w i b)) true))) ->
  (forall a b h m, cs = a ++ SReplay :: b -> foldr_res (fun h y => exec_cmd E rst h c y) h0 a = Ok h -> K h -> c = x -> replayed h c m -> Q (OWrite m false)) ->
  (In SQuiet cs -> c = x -> Q OQuiet /\ forall b, Q (OWrite (e_txt E (NQuiet b)) false)) ->
  (forall a b h i o, cs = a ++ SReset :: b -> foldr_res (fun h y => exec_cmd E rst h c y) h0 a = Ok h -> h c = Some o -> In i (s_readers o) -> LK i -> forall m, In m (rst i) -> Q (OWrite m true)) ->
  (In SSuspend cs -> c = x -> Q OSuspend) -> 
  forall ys a h h', cs = a ++ ys -> foldr_res (fun h y => exec_cmd E rst h c y) h0 a = Ok h -> K h ->
  foldr_res (fun h y => exec_cmd E rst h c y) h ys = Ok h' -> U [] h h'.
Proof.
  intros QK QW QP QQ QR QS. induction ys as [|y ys IH]; intros a h h' EC X0 H X; cbn [foldr_res] in X.
  - injection X as <-. now apply U_refl.
  - apply bind_ok in X. destruct X as (h1 & A & X).
    assert (IN : In y cs) by (rewrite EC; apply in_or_app; right; now left).
    assert (T1 : U [] h h1).
    { eapply cmd_U; [exact H|exact A| | | | | |].
      - intros R m M. exact (QK R y m IN M).
      - exact (QW y IN).
      - intros -> e m M. eapply QP; eauto.
      - intros ->. auto.
      - intros -> i o Ho I LL m M. eapply QR; eauto.
      - intros ->. auto. }
    eapply U_trans0; [exact T1|]. apply (IH (a ++ [y])); [now rewrite <- app_assoc| |apply (U_K T1)|exact X].
    clear - X0 A. revert h0 X0. induction a as [|b a IH]; intros h0 X0; cbn [foldr_res app] in *.
    + injection X0 as ->. rewrite A. reflexivity.
    + apply bind_ok in X0. destruct X0 as (h2 & B & X0). rewrite B. cbn [bind]. now apply IH.
Qed.
Lemma deliver_U h i d h' : K h -> deliver E h i d = Ok h' -> (RD i -> Q (OWrite d false)) -> U [] h h'.
Proof.
  intros H X Y. unfold deliver in X. destruct d as [|b d]; [injection X as <-; now apply U_refl|].
  apply bind_ok in X. destruct X as (o & A & X). apply at_some in A. eapply fold_U; [|exact H|exact X].
  intros ha r hb I Ha Z. cbn beta in Z. apply bind_ok in Z. destruct Z as (y & G1 & Z). apply at_some in G1.
  destruct (log_b y) eqn:LB; [|eapply put_U; [exact Ha|exact Z|]; intros ->; apply Y; exact (k_rd H i A I)].
  unfold put_log in Z. rewrite (at_ok _ _ G1) in Z. cbn [bind] in Z. apply bind_ok in Z. destruct Z as ([[n r'] s] & B & Z). injection Z as <-.
  unfold write_log_data, line_state in B. pose proof LB as LB0. unfold log_b in LB. destruct (o_kind (s_ring y)) as [q0 s0|ls|] eqn:Hk; try discriminate.
  cbn [bind] in B. apply bind_ok in B. destruct B as ([[ms ls'] k'] & _ & B). apply bind_ok in B. destruct B as ([n2 r2] & B & B3).
  injection B3 as _ <- _. destruct (@write_msgs_keeps E _ _ _ _ B) as (L1 & L2 & L3). cbn in L3.
  eapply U_upd; [exact Ha|exact G1|apply incl_refl|apply incl_refl|cbn; now rewrite Hk|reflexivity| |reflexivity].
  intros _ _ N. congruence.
Qed.
End Env.
