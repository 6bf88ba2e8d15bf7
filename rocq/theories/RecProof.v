(** Proofs about the logs of consoles, whatever the daemon does. *)
From Verif Require Import Base BaseProof RingModel RingSpec RingProof LogModel LogSpec LogProof
  TelnetModel TelnetSpec TelnetProof EscModel EscSpec EscProof SessModel SessSpec SessInv SessLink SessStep SessWorld
  SessThread SessFacts SessMode FlowSpec FlowProof RecSpec.
Set Implicit Arguments.

Definition info (m : list Z) : lev := VOp (LogModel.LInfo m).
Definition data_of (es : list lev) : list Z := flat_map lop_bytes (lops es).
Lemma data_app a b : data_of (a ++ b) = data_of a ++ data_of b.
Proof. unfold data_of, lops. now rewrite !flat_map_app. Qed.
Lemma flushes_app a b : flushes (a ++ b) = flushes a ++ flushes b.
Proof. unfold flushes. now rewrite flat_map_app. Qed.

Section Env.
Variable E : env.
Hypothesis HE : env_ok E.
Notation SZ := (e_sz E).
Notation HOK := (HOK E).
Notation WWF := (WWF E).
Variables x k : nat.

(** The links of the log. *)
Definition reads (o : sobj) : list nat := filter (Nat.eqb x) (s_readers o).
Record J (h : heap) : Prop := mkJ {
  j_log : exists o, h x = Some o /\ log_b o = true;
  j_k : exists o, h k = Some o /\ client_b o = false;
  j_fed : forall i o, h i = Some o -> reads o = if i =? k then [x] else [];
  j_wr : forall i o, h i = Some o -> ~ In x (s_writers o) }.

Variable P : list Z -> Prop.
Hypothesis P_arr : forall c b, P (e_txt E (NArrived c k b)).
Hypothesis P_dep : forall c, P (e_txt E (NDeparted c k)).

(** What happened to the log: [es] *)
Definition L (D : list Z) (F : list (list wres)) (out : list Z) (h h' : heap) : Prop :=
  forall o, h x = Some o -> exists o' es, h' x = Some o' /\ s_lopt o' = s_lopt o /\
    o_open (s_ring o') = o_open (s_ring o) /\ o_eof (s_ring o') = o_eof (s_ring o) /\
    log_hist SZ (e_dbg E) (e_clock E x) (s_lopt o) (fun _ => e_wbuf E) (s_ring o) (s_stamps o) es = Ok (s_ring o', s_stamps o', out) /\
    data_of es = D /\ flushes es = F /\ forall m, In (info m) es -> m <> [] /\ P m.
Definition T (D : list Z) (h h' : heap) : Prop := J h' /\ L D [] [] h h'.

Lemma L_refl h : L [] [] [] h h.
Proof. intros o H. exists o, []. repeat split; auto; contradiction. Qed.
Lemma L_trans D1 F1 o1 D2 F2 o2 a b c : L D1 F1 o1 a b -> L D2 F2 o2 b c -> L (D1 ++ D2) (F1 ++ F2) (o1 ++ o2) a c.
Proof.
  intros A B o H. destruct (A o H) as (p & e1 & Hp & A1 & A2 & A3 & A4 & A5 & A6 & A7).
  destruct (B p Hp) as (q & e2 & Hq & B1 & B2 & B3 & B4 & B5 & B6 & B7).
  exists q, (e1 ++ e2). split; [exact Hq|]. split; [congruence|]. split; [congruence|]. split; [congruence|]. split.
  - rewrite hist_app, A4. cbn [bind]. rewrite <- A1, B4. reflexivity.
  - rewrite data_app, flushes_app. split; [congruence|]. split; [congruence|]. intros m I. apply in_app_or in I. destruct I; auto.
Qed.
Lemma T_refl h : J h -> T [] h h.
Proof. intros H. split; [exact H|apply L_refl]. Qed.
Lemma T_trans D1 D2 a b c : T D1 a b -> T D2 b c -> T (D1 ++ D2) a c.
Proof. intros [_ A] [B C]. split; [exact B|]. exact (L_trans A C). Qed.
Lemma T_trans0 a b c : T [] a b -> T [] b c -> T [] a c.
Proof. exact (@T_trans [] [] a b c). Qed.
Lemma T_J D h h' : T D h h' -> J h'. Proof. intros H; apply H. Qed.

Lemma J_upd h i o o' : J h -> h i = Some o -> reads o' = reads o -> ~ In x (s_writers o') ->
  client_b o' = client_b o -> log_b o' = log_b o -> J (upd h i (Some o')).
Proof.
  intros [A B C D] H R W CB LB. constructor.
  - destruct A as (p & A1 & A2). unfold upd. destruct (Nat.eqb_spec x i) as [e|]; [|eauto].
    exists o'. split; [reflexivity|]. rewrite LB. rewrite e in A1. congruence.
  - destruct B as (p & B1 & B2). unfold upd. destruct (Nat.eqb_spec k i) as [e|]; [|eauto].
    exists o'. split; [reflexivity|]. rewrite CB. rewrite e in B1. congruence.
  - intros j p Hj. unfold upd in Hj. destruct (Nat.eqb_spec j i) as [->|]; [|eauto]. injection Hj as <-. rewrite R. eauto.
  - intros j p Hj. unfold upd in Hj. destruct (Nat.eqb_spec j i) as [->|]; [|eauto]. now injection Hj as <-.
Qed.
(** Another object changes, or the log's links. *)
Lemma T_upd h i o o' : J h -> h i = Some o -> reads o' = reads o -> ~ In x (s_writers o') ->
  client_b o' = client_b o -> log_b o' = log_b o ->
  (i = x -> s_lopt o' = s_lopt o /\ s_ring o' = s_ring o /\ s_stamps o' = s_stamps o) -> T [] h (upd h i (Some o')).
Proof.
  intros H Hi R W CB LB S. split; [eapply J_upd; eauto|]. intros p Hp. unfold upd.
  destruct (Nat.eqb_spec x i) as [e|].
  - rewrite e, Hi in Hp. injection Hp as <-. destruct (S (eq_sym e)) as (S1 & S2 & S3). exists o', [].
    rewrite S1, S2, S3. repeat split; auto; contradiction.
  - exists p, []. repeat split; auto; contradiction.
Qed.

Lemma write_same r d i n r' : write_obj_data SZ r d i = Ok (n, r') ->
  o_open r' = o_open r /\ o_eof r' = o_eof r /\ kcls (o_kind r') = kcls (o_kind r).
Proof.
  intros H. unfold write_obj_data in H. destruct d as [|b src]; [injection H as _ <-; auto|].
  destruct (o_eof r) eqn:EO; [injection H as _ <-; rewrite EO; auto|]. destruct (i && is_client r && is_quiet r); [injection H as _ <-; rewrite EO; auto|].
  apply bind_ok in H. destruct H as (u & _ & H). apply bind_ok in H. destruct H as (c1 & _ & H).
  apply bind_ok in H. destruct H as (b1 & _ & H). apply bind_ok in H. destruct H as ([b2 i2] & _ & H).
  apply bind_ok in H. destruct H as (v & _ & H). injection H as _ <-.
  destruct (negb (is_suspended r)), i; cbn; destruct (o_kind r); cbn; auto.
Qed.
Lemma cls_client (o o' : sobj) : kcls (o_kind (s_ring o')) = kcls (o_kind (s_ring o)) -> client_b o' = client_b o /\ log_b o' = log_b o.
Proof. intros H. rewrite !client_b_eq, !log_b_eq. unfold cls_of. now rewrite H. Qed.

Lemma put_T h i d f h' : J h -> put_data E h i d f = Ok h' -> (i = x -> f = true /\ (d <> [] -> P d)) -> T [] h h'.
Proof.
  unfold put_data. intros H X S. apply bind_ok in X. destruct X as (o & A & X). apply at_some in A.
  apply bind_ok in X. destruct X as ([n r] & B & X). injection X as <-. cbn [snd].
  destruct (write_same _ _ _ B) as (K1 & K2 & K3). destruct (cls_client o (set_ring o r) K3) as [C1 C2].
  split; [eapply J_upd; [exact H|exact A|reflexivity|exact (j_wr H i A)|exact C1|exact C2]|].
  intros p Hp. unfold upd. destruct (Nat.eqb_spec x i) as [e|].
  - rewrite e, A in Hp. injection Hp as <-. destruct (S (eq_sym e)) as [-> Pd]. destruct d as [|b d].
    + exists (set_ring o r), []. cbn in B. injection B as _ <-. cbn. repeat split; auto; contradiction.
    + exists (set_ring o r), [info (b :: d)]. cbn [s_ring s_lopt s_stamps set_ring]. split; [reflexivity|]. split; [reflexivity|].
      split; [exact K1|]. split; [exact K2|]. split; [cbn [log_hist info]; rewrite B; reflexivity|].
      split; [reflexivity|]. split; [reflexivity|]. intros m [I|[]]. injection I as <-. split; [discriminate|apply Pd; discriminate].
  - exists p, []. repeat split; auto; contradiction.
Qed.
Lemma fold_T {A} (f : heap -> A -> res heap) (l : list A) : (forall h a h', In a l -> J h -> f h a = Ok h' -> T [] h h') ->
  forall h h', J h -> foldr_res f h l = Ok h' -> T [] h h'.
Proof.
  induction l as [|a l IH]; intros S h h' H X; cbn [foldr_res] in X; [injection X as <-; now apply T_refl|].
  apply bind_ok in X. destruct X as (h1 & A1 & X). pose proof (S h a h1 (or_introl eq_refl) H A1) as T1.
  eapply T_trans0; [exact T1|]. apply IH; [|apply (T_J T1)|exact X]. intros; eapply S; eauto; now right.
Qed.
Lemma reads_in (o : sobj) : In x (s_readers o) -> reads o <> [].
Proof. intros I R. assert (Q : In x (reads o)) by (apply filter_In; split; [exact I|apply Nat.eqb_refl]). rewrite R in Q. exact Q. Qed.
Lemma notify_T h i m h' : J h -> notify E h i m = Ok h' -> (i = k -> m <> [] -> P m) -> T [] h h'.
Proof.
  unfold notify. intros H X S. apply bind_ok in X. destruct X as (o & A & X). apply at_some in A. apply bind_ok in X. destruct X as (u & _ & X).
  destruct m as [|b m]; [injection X as <-; now apply T_refl|].
  apply bind_ok in X. destruct X as (h1 & B & X).
  assert (T1 : T [] h h1).
  { eapply fold_T; [|exact H|exact B]. intros ha a hb I Ha Y. eapply put_T; [exact Ha|exact Y|]. intros ->. split; [reflexivity|].
    intros NE. apply S; [|exact NE]. destruct (Nat.eq_dec i k) as [e|N]; [exact e|]. exfalso. apply (reads_in o I). rewrite (j_fed H i A).
    now rewrite (proj2 (Nat.eqb_neq i k) N). }
  eapply T_trans0; [exact T1|]. eapply fold_T; [|exact (T_J T1)|exact X]. intros ha a hb I Ha Y. cbn beta in Y.
  destruct (mem a (s_readers o)); [injection Y as <-; now apply T_refl|]. eapply put_T; [exact Ha|exact Y|].
  intros ->. destruct (j_wr H i A I).
Qed.

Lemma modify_T h i f h' : J h -> modify h i f = Ok h' ->
  (forall o, h i = Some o -> reads (f o) = reads o /\ ~ In x (s_writers (f o)) /\ client_b (f o) = client_b o /\ log_b (f o) = log_b o /\
     (i = x -> s_lopt (f o) = s_lopt o /\ s_ring (f o) = s_ring o /\ s_stamps (f o) = s_stamps o)) -> T [] h h'.
Proof.
  unfold modify. intros H X S. apply bind_ok in X. destruct X as (o & A & X). apply at_some in A. injection X as <-.
  destruct (S o A) as (S1 & S2 & S3 & S4 & S5). eapply T_upd; eauto.
Qed.
Lemma reads_del (o : sobj) d : d <> x -> filter (Nat.eqb x) (del d (s_readers o)) = reads o.
Proof.
  intros N. unfold reads, del. induction (s_readers o) as [|y l IH]; [reflexivity|]. cbn [filter].
  destruct (Nat.eqb_spec y d) as [->|N2]; cbn [negb].
  - rewrite (proj2 (Nat.eqb_neq x d)) by congruence. exact IH.
  - cbn [filter]. now rewrite IH.
Qed.
Lemma del_writers (o : sobj) s : ~ In x (s_writers o) -> ~ In x (del s (s_writers o)).
Proof. intros H I. apply del_In in I. tauto. Qed.

Lemma unlink_objs_T h s d h' : J h -> d <> x -> unlink_objs E h s d = Ok h' -> T [] h h'.
Proof.
  unfold unlink_objs. intros H N X.
  apply bind_ok in X. destruct X as (h1 & A1 & X). apply bind_ok in X. destruct X as (d0 & _ & X).
  apply bind_ok in X. destruct X as (h2 & A2 & X). apply bind_ok in X. destruct X as (s1 & _ & X).
  apply bind_ok in X. destruct X as (h3 & A3 & X). apply bind_ok in X. destruct X as (s2 & G1 & X).
  apply bind_ok in X. destruct X as (d2 & G2 & X). apply bind_ok in X. destruct X as (h4 & A4 & X).
  apply bind_ok in X. destruct X as (u & _ & X). apply bind_ok in X. destruct X as (v & _ & X). injection X as <-.
  apply at_some in G1. apply at_some in G2.
  assert (T1 : T [] h h1).
  { eapply modify_T; [exact H|exact A1|]. intros o Ho. cbn. split; [exact (reads_del o N)|]. split; [exact (j_wr H s Ho)|]. auto. }
  assert (T2 : T [] h1 h2).
  { eapply modify_T; [exact (T_J T1)|exact A2|]. intros o Ho. cbn. split; [reflexivity|]. split; [apply del_writers; exact (j_wr (T_J T1) d Ho)|]. auto. }
  assert (T3 : T [] h2 h3).
  { destruct (mem s (s_writers d0) && client_b s1 && console_b d0); [|injection A3 as <-; apply T_refl; apply (T_J T2)].
    eapply notify_T; [exact (T_J T2)|exact A3|]. intros -> _. apply P_dep. }
  eapply T_trans0; [exact T1|]. eapply T_trans0; [exact T2|]. eapply T_trans0; [exact T3|]. pose proof (T_J T3) as J3.
  assert (EO : forall i y, h3 i = Some y -> client_b y = true -> modify h3 i (fun o => set_ring o (set_eof (s_ring o))) = Ok h4 -> T [] h3 h4).
  { intros i y Hy CB M. eapply modify_T; [exact J3|exact M|]. intros o Ho. cbn. split; [reflexivity|]. split; [exact (j_wr J3 i Ho)|].
    split; [reflexivity|]. split; [reflexivity|]. intros ->. exfalso. destruct (j_log J3) as (q & Q1 & Q2). rewrite Hy in Q1. injection Q1 as <-.
    rewrite client_b_eq in CB. rewrite log_b_eq in Q2. destruct (cls_of y); discriminate. }
  destruct (client_b s2 && no_links s2) eqn:C1; [|destruct (client_b d2 && no_links d2) eqn:C2].
  - apply bind_ok in A4. destruct A4 as (w & _ & A4). apply andb_prop in C1. eapply EO; [exact G1|apply C1|exact A4].
  - apply bind_ok in A4. destruct A4 as (w & _ & A4). apply andb_prop in C2. eapply EO; [exact G2|apply C2|exact A4].
  - injection A4 as <-. now apply T_refl.
Qed.

(** Clients do not write to logs. *)
Lemma client_reads h c o : J h -> h c = Some o -> client_b o = true -> reads o = [].
Proof.
  intros H Hc CB. rewrite (j_fed H c Hc). destruct (Nat.eqb_spec c k) as [->|]; [|reflexivity].
  destruct (j_k H) as (q & Q1 & Q2). congruence.
Qed.
Lemma client_not_x h c o : J h -> h c = Some o -> client_b o = true -> c <> x.
Proof.
  intros H Hc CB ->. destruct (j_log H) as (q & Q1 & Q2). rewrite Hc in Q1. injection Q1 as <-.
  rewrite client_b_eq in CB. rewrite log_b_eq in Q2. destruct (cls_of o); discriminate.
Qed.
Lemma unlink_obj_T h c o h' : J h -> h c = Some o -> client_b o = true -> unlink_obj E h c = Ok h' -> T [] h h'.
Proof.
  intros H Hc CB X. pose proof (client_not_x H Hc CB) as NX.
  assert (NK : c <> k) by (intros ->; destruct (j_k H) as (q & Q1 & Q2); congruence).
  assert (W : forall n h h', J h -> unlink_writers E n h c = Ok h' -> T [] h h').
  { clear - NX P_dep. induction n as [|n IH]; intros ha hb Ha Y; cbn [unlink_writers] in Y; apply bind_ok in Y; destruct Y as (q & _ & Y);
      destruct (s_writers q); try (injection Y as <-; now apply T_refl); try discriminate.
    apply bind_ok in Y. destruct Y as (h1 & A & Y). assert (T1 : T [] ha h1) by (eapply unlink_objs_T; [exact Ha|exact NX|exact A]).
    eapply T_trans0; [exact T1|]. apply IH; [apply (T_J T1)|exact Y]. }
  assert (R : forall n h h', J h -> unlink_readers E n h c = Ok h' -> T [] h h').
  { clear - NK P_dep. induction n as [|n IH]; intros ha hb Ha Y; cbn [unlink_readers] in Y; apply bind_ok in Y; destruct Y as (q & Q & Y);
      apply at_some in Q; destruct (s_readers q) as [|r l] eqn:SR; try (injection Y as <-; now apply T_refl); try discriminate.
    apply bind_ok in Y. destruct Y as (h1 & A & Y).
    assert (NR : r <> x).
    { intros ->. apply (reads_in q); [rewrite SR; now left|]. rewrite (j_fed Ha c Q). now rewrite (proj2 (Nat.eqb_neq c k) NK). }
    assert (T1 : T [] ha h1) by (eapply unlink_objs_T; [exact Ha|exact NR|exact A]).
    eapply T_trans0; [exact T1|]. apply IH; [apply (T_J T1)|exact Y]. }
  unfold unlink_obj in X. apply bind_ok in X. destruct X as (o0 & _ & X).
  apply bind_ok in X. destruct X as (h1 & A & X). apply bind_ok in X. destruct X as (o1 & _ & X).
  pose proof (W _ _ _ H A) as T1. eapply T_trans0; [exact T1|]. eapply R; [apply (T_J T1)|exact X].
Qed.

Lemma sames_client h h' c o : sames h h' -> h c = Some o -> client_b o = true -> exists o', h' c = Some o' /\ client_b o' = true.
Proof. intros S Hc CB. destruct (S c o Hc) as (o' & A & B). exists o'. split; [exact A|]. exact (same_client B CB). Qed.
Lemma fold_clients h src (m : nat -> list Z) : forall ws h1 h2, sames h h1 ->
  foldr_res (fun h w => do y <- at_ h w; if client_b y then put_data E h src (m w) true else UB NullDeref) h1 ws = Ok h2 ->
  forall w, In w ws -> exists ha y, sames h ha /\ sames ha h2 /\ ha w = Some y /\ client_b y = true.
Proof.
  induction ws as [|a ws IH]; intros h1 h2 S X w I; [contradiction|]. cbn [foldr_res] in X. apply bind_ok in X. destruct X as (h3 & A & X).
  pose proof A as A0. apply bind_ok in A. destruct A as (y & Q & A). apply at_some in Q. destruct (client_b y) eqn:CB; [|discriminate].
  pose proof (put_sames E _ _ _ _ A) as S3.
  destruct I as [<-|I].
  - exists h1, y. split; [exact S|]. split; [|auto]. eapply sames_trans; [exact S3|]. eapply fold_sames; [|exact X].
    intros ha b hb Y. cbn beta in Y. apply bind_ok in Y. destruct Y as (z & _ & Y). destruct (client_b z); [eapply put_sames; eauto|discriminate].
  - eapply IH; [eapply sames_trans; eauto|exact X|exact I].
Qed.

Lemma steal_T h1 h2 d : forall ws hc h3,
  (forall w, In w ws -> exists ha y, sames h1 ha /\ sames ha h2 /\ ha w = Some y /\ client_b y = true) -> sames h2 hc -> J hc ->
  foldr_res (fun h w => do dd <- at_ h d; if mem w (s_writers dd) then unlink_obj E h w else Ok h) hc ws = Ok h3 -> T [] hc h3.
Proof.
  induction ws as [|w ws IH]; intros hc h3 CL S J2 X; cbn [foldr_res] in X.
  - injection X as <-. now apply T_refl.
  - apply bind_ok in X. destruct X as (he & A & X). assert (T1 : T [] hc he /\ sames hc he).
    { apply bind_ok in A. destruct A as (dd & _ & A). destruct (mem w (s_writers dd)); [|injection A as <-; split; [now apply T_refl|apply sames_refl]].
      split; [|exact (unlink_obj_sames _ _ _ A)].
      destruct (CL w (or_introl eq_refl)) as (ha & y & _ & S2 & Y1 & Y2).
      destruct (sames_client w (sames_trans S2 S) Y1 Y2) as (z & Z1 & Z2). eapply unlink_obj_T; eauto. }
    destruct T1 as [T1 S1]. eapply T_trans0; [exact T1|]. eapply IH; [|eapply sames_trans; [exact S|exact S1]|apply (T_J T1)|exact X].
    intros w' I. apply CL. now right.
Qed.
Lemma link_T h s d h' : J h -> s <> x -> d <> x -> link_objs E h s d = Ok h' -> T [] h h'.
Proof.
  unfold link_objs. intros H NS ND X.
  apply bind_ok in X. destruct X as (s0 & G0 & X). apply bind_ok in X. destruct X as (d0 & G1 & X).
  apply bind_ok in X. destruct X as (h3 & A3 & X). apply bind_ok in X. destruct X as (s1 & _ & X).
  apply bind_ok in X. destruct X as (u1 & _ & X). apply bind_ok in X. destruct X as (h4 & A4 & X).
  apply bind_ok in X. destruct X as (d1 & _ & X). apply bind_ok in X. destruct X as (u2 & _ & X).
  apply bind_ok in X. destruct X as (h5 & A5 & X).
  apply bind_ok in X. destruct X as (u & _ & X). apply bind_ok in X. destruct X as (v & _ & X). injection X as <-.
  apply at_some in G0. apply at_some in G1.
  assert (T3 : T [] h h3).
  { destruct (client_b s0 && console_b d0); [|injection A3 as <-; now apply T_refl].
    cbv zeta in A3. apply bind_ok in A3. destruct A3 as (h1 & B1 & A3). apply bind_ok in A3. destruct A3 as (h2 & B2 & A3).
    assert (T1 : T [] h h1) by (eapply notify_T; [exact H|exact B1|]; intros -> _; apply P_arr).
    assert (T2 : T [] h1 h2).
    { eapply fold_T; [|exact (T_J T1)|exact B2]. intros ha w hb I Ha Y. cbn beta in Y. apply bind_ok in Y. destruct Y as (y & _ & Y).
      destruct (client_b y); [|discriminate]. eapply put_T; [exact Ha|exact Y|]. congruence. }
    eapply T_trans0; [exact T1|]. eapply T_trans0; [exact T2|].
    destruct (r_force (s_req s0) && negb (length (s_writers d0) =? 0)); [|injection A3 as <-; apply T_refl; apply (T_J T2)].
    assert (CL : forall w, In w (s_writers d0) -> exists ha y, sames h1 ha /\ sames ha h2 /\ ha w = Some y /\ client_b y = true) by (intros w I; eapply fold_clients; [apply sames_refl|exact B2|exact I]).
    eapply steal_T; [exact CL|apply sames_refl|apply (T_J T2)|exact A3]. }
  eapply T_trans0; [exact T3|].
  assert (T4 : T [] h3 h4).
  { eapply modify_T; [exact (T_J T3)|exact A4|]. intros o Ho. cbn. split; [|split; [exact (j_wr (T_J T3) s Ho)|auto]].
    unfold reads. cbn [s_readers set_readers]. rewrite filter_app. cbn [filter]. rewrite (proj2 (Nat.eqb_neq x d)) by congruence. apply app_nil_r. }
  eapply T_trans0; [exact T4|]. eapply modify_T; [exact (T_J T4)|exact A5|]. intros o Ho. cbn. split; [reflexivity|]. split; [|auto].
  intros I. apply in_app_or in I. destruct I as [I|[I|[]]]; [exact (j_wr (T_J T4) d Ho I)|congruence].
Qed.

Lemma open_console_T h i ro h' : J h -> open_console E h i ro = Ok h' -> (i = k -> forall m, In m (ro_msgs ro) -> P m) -> T [] h h'.
Proof.
  unfold open_console. intros H X S. apply bind_ok in X. destruct X as (o & A & X). apply at_some in A.
  apply bind_ok in X. destruct X as (u & CB & X). cbv zeta in X. apply bind_ok in X. destruct X as (h2 & B & X).
  assert (CO : console_b o = true) by (destruct (console_b o); [reflexivity|discriminate]).
  assert (NX : i <> x).
  { intros ->. destruct (j_log H) as (q & Q1 & Q2). rewrite A in Q1. injection Q1 as <-. rewrite console_b_eq in CO. rewrite log_b_eq in Q2.
    destruct (cls_of o); discriminate. }
  set (o1 := set_state _ _) in *.
  assert (T1 : T [] h (upd h i (Some o1))).
  { assert (K : kcls (o_kind (s_ring o1)) = kcls (o_kind (s_ring o))).
    { unfold o1. cbn. destruct (ro_open ro), (ro_close ro); cbn; unfold open_fd; cbn; try reflexivity; destruct (o_open (s_ring o)); reflexivity. }
    destruct (cls_client o o1 K) as [C1 C2].
    eapply T_upd; [exact H|exact A|reflexivity|exact (j_wr H i A)|exact C1|exact C2|congruence]. }
  assert (T2 : T [] (upd h i (Some o1)) h2).
  { eapply fold_T; [|exact (T_J T1)|exact B]. intros ha m hb I Ha Y. eapply notify_T; [exact Ha|exact Y|]. intros e _. auto. }
  eapply T_trans0; [exact T1|]. eapply T_trans0; [exact T2|]. eapply fold_T; [|exact (T_J T2)|exact X].
  intros ha m hb I Ha Y. eapply put_T; [exact Ha|exact Y|]. congruence.
Qed.
Lemma check_T h i c ro h' : J h -> check_console_state E h i c ro = Ok h' -> c <> x -> (i = k -> forall m, In m (ro_msgs ro) -> P m) -> T [] h h'.
Proof.
  unfold check_console_state. intros H X NC S. apply bind_ok in X. destruct X as (o & _ & X). cbv zeta in X.
  assert (Y : forall hx hy, J hx -> put_data E hx c (e_txt E (NDown i)) true = Ok hy -> T [] hx hy).
  { intros hx hy Hx Q. eapply put_T; [exact Hx|exact Q|]. congruence. }
  assert (Z : forall hx hy, J hx -> (do h1 <- put_data E hx c (e_txt E (NDown i)) true; open_console E h1 i ro) = Ok hy -> T [] hx hy).
  { intros hx hy Hx Q. apply bind_ok in Q. destruct Q as (h1 & A & Q). pose proof (Y _ _ Hx A) as T1. eapply T_trans0; [exact T1|].
    eapply open_console_T; [apply (T_J T1)|exact Q|exact S]. }
  destruct (s_type o); try destruct (negb (o_open (s_ring o))); try destruct (s_state o);
    first [injection X as <-; now apply T_refl | eapply Z; [exact H|exact X] | eapply Y; [exact H|exact X]].
Qed.

Lemma shutdown_T h i ro r : J h -> shutdown_obj E h i ro = Ok r -> i <> x -> (i = k -> forall m, In m (ro_msgs ro) -> P m) ->
  T [] h (fst r) /\ (snd r = true -> exists o, h i = Some o /\ client_b o = true).
Proof.
  unfold shutdown_obj. intros H X NX S. apply bind_ok in X. destruct X as (o & A & X). apply at_some in A.
  destruct (negb (o_open (s_ring o))); [injection X as <-; split; [now apply T_refl|discriminate]|].
  set (o1 := set_ring o (shutdown_buf (s_ring o))) in *.
  destruct (cls_client o o1) as [C1 C2]; [unfold o1; cbn; unfold shutdown_buf; destruct (negb _); reflexivity|].
  assert (T1 : T [] h (upd h i (Some o1))).
  { eapply T_upd; [exact H|exact A|reflexivity|exact (j_wr H i A)|exact C1|exact C2|congruence]. }
  destruct (client_b o) eqn:CB.
  - apply bind_ok in X. destruct X as (h2 & B & X). injection X as <-. cbn [fst snd]. split; [|eauto].
    eapply T_trans0; [exact T1|]. eapply unlink_obj_T; [exact (T_J T1)|apply upd_same| |exact B]. congruence.
  - destruct (log_b o); [injection X as <-; split; [exact T1|discriminate]|].
    apply bind_ok in X. destruct X as (h2 & B & X). injection X as <-. cbn [fst snd]. split; [|discriminate].
    eapply T_trans0; [exact T1|]. eapply open_console_T; [exact (T_J T1)|exact B|exact S].
Qed.

Lemma cmd_T rst h c o y h' : J h -> h c = Some o -> client_b o = true -> exec_cmd E rst h c y = Ok h' ->
  (forall m, In m (rst k) -> P m) -> T [] h h'.
Proof.
  intros H Hc CB X S. pose proof (client_not_x H Hc CB) as NX. pose proof (client_reads c H Hc CB) as RC.
  assert (NR : forall i, In i (s_readers o) -> i <> x) by (intros i I ->; exact (reads_in o I RC)).
  assert (LK : forall f j, (do h1 <- set_fj h c f j; writer_linkage E h1 c) = Ok h' -> T [] h h').
  { intros f j Y. apply bind_ok in Y. destruct Y as (h1 & A & Y). unfold set_fj in A.
    assert (T1 : T [] h h1).
    { eapply modify_T; [exact H|exact A|]. intros q Hq. cbn. split; [reflexivity|]. split; [exact (j_wr H c Hq)|]. auto. }
    eapply T_trans0; [exact T1|]. unfold writer_linkage in Y. apply bind_ok in Y. destruct Y as (q & Q & Y). apply at_some in Q.
    destruct (r_bcast (s_req q)); [injection Y as <-; apply T_refl, (T_J T1)|].
    apply bind_ok in Y. destruct Y as (u & _ & Y). apply bind_ok in Y. destruct Y as (v & _ & Y).
    destruct (s_writers q) as [|i l] eqn:SW; [discriminate|].
    assert (NI : i <> x).
    { intros ->. apply (j_wr (T_J T1) c Q). rewrite SW. now left. }
    destruct (negb _); [eapply unlink_objs_T; [apply (T_J T1)|exact NI|exact Y]|eapply link_T; [apply (T_J T1)|exact NX|exact NI|exact Y]]. }
  destruct y; cbn [exec_cmd] in X; eauto; unfold log_replay in X; apply bind_ok in X; destruct X as (o2 & A & X); apply at_some in A;
    rewrite Hc in A; injection A as <-.
  - eapply fold_T; [|exact H|exact X]. intros ha i hb I Ha Y. unfold break_one in Y. apply bind_ok in Y. destruct Y as (oo & _ & Y).
    pose proof (NR i I). destruct (s_type oo); first [injection Y as <-; now apply T_refl|eapply put_T; [exact Ha|exact Y|congruence]].
  - eapply fold_T; [|exact H|exact X]. intros ha i hb I Ha Y. cbn beta in Y. pose proof (NR i I). eapply put_T; [exact Ha|exact Y|congruence].
  - destruct (s_writers o) as [|i ws]; [injection X as <-; now apply T_refl|].
    apply bind_ok in X. destruct X as (u & _ & X). apply bind_ok in X. destruct X as (co & _ & X).
    apply bind_ok in X. destruct X as (lf & _ & X). destruct lf as [l|].
    + apply bind_ok in X. destruct X as (lo & _ & X). apply bind_ok in X. destruct X as (m & _ & X).
      destruct m; [eapply put_T; [exact H|exact X|congruence]|injection X as <-; now apply T_refl].
    + destruct (e_sz E - 1 <=? _); [injection X as <-; now apply T_refl|eapply put_T; [exact H|exact X|congruence]].
  - apply bind_ok in X. destruct X as (r & B & X). set (o1 := set_ring o r) in *.
    assert (T1 : T [] h (upd h c (Some o1))).
    { unfold toggle_quiet in B. destruct (o_kind (s_ring o)) eqn:K; try discriminate. injection B as <-.
      destruct (cls_client o o1) as [C1 C2]; [unfold o1; cbn; now rewrite K|].
      eapply T_upd; [exact H|exact Hc|reflexivity|exact (j_wr H c Hc)|exact C1|exact C2|congruence]. }
    eapply T_trans0; [exact T1|]. eapply put_T; [apply (T_J T1)|exact X|congruence].
  - eapply fold_T; [|exact H|exact X]. intros ha i hb I Ha Y. cbn beta in Y. eapply fold_T; [|exact Ha|exact Y].
    intros hc m hd Im Hcc Z. cbn beta in Z. eapply notify_T; [exact Hcc|exact Z|]. intros -> _. auto.
  - apply bind_ok in X. destruct X as (r & B & X). injection X as <-. set (o1 := set_ring o r) in *.
    unfold toggle_suspend in B. destruct (o_kind (s_ring o)) as [q0 s0|ls|] eqn:K; try discriminate. injection B as <-.
    destruct (cls_client o o1) as [C1 C2]; [unfold o1; cbn; rewrite K; destruct s0; reflexivity|].
    eapply T_upd; [exact H|exact Hc|reflexivity|exact (j_wr H c Hc)|exact C1|exact C2|congruence].
Qed.
Lemma cmd_sames rst h c y h' : exec_cmd E rst h c y = Ok h' -> forall o, h c = Some o -> client_b o = true ->
  exists o', h' c = Some o' /\ client_b o' = true.
Proof.
  intros X o Hc CB.
  assert (LK : forall f j, (do h1 <- set_fj h c f j; writer_linkage E h1 c) = Ok h' -> exists o', h' c = Some o' /\ client_b o' = true).
  { intros f j Y. apply bind_ok in Y. destruct Y as (h1 & A & Y). unfold set_fj, modify in A. rewrite (at_ok _ _ Hc) in A. cbn [bind] in A.
    injection A as <-. set (o1 := set_req _ _) in *. assert (H1 : upd h c (Some o1) c = Some o1) by apply upd_same.
    assert (C1 : client_b o1 = true) by exact CB.
    unfold writer_linkage in Y. rewrite (at_ok _ _ H1) in Y. cbn [bind] in Y. destruct (r_bcast (s_req o1)); [injection Y as <-; eauto|].
    apply bind_ok in Y. destruct Y as (u & _ & Y). apply bind_ok in Y. destruct Y as (v & _ & Y).
    destruct (s_writers o1); [discriminate|].
    destruct (negb _); [apply unlink_objs_sames in Y|apply link_sames in Y]; eapply sames_client; eauto. }
  assert (SM : sames h h' -> exists o', h' c = Some o' /\ client_b o' = true) by (intros S; eapply sames_client; eauto).
  destruct y; cbn [exec_cmd] in X; eauto; unfold log_replay in X; apply bind_ok in X; destruct X as (o2 & A & X); apply at_some in A;
    rewrite Hc in A; injection A as <-.
  - apply SM. eapply fold_sames; [|exact X]. intros ha i hb Y. unfold break_one in Y. apply bind_ok in Y. destruct Y as (oo & _ & Y).
    destruct (s_type oo); first [injection Y as <-; apply sames_refl|eapply put_sames; exact Y].
  - apply SM. eapply fold_sames; [|exact X]. intros ha i hb Y. eapply put_sames; exact Y.
  - apply SM. destruct (s_writers o) as [|i ws]; [injection X as <-; apply sames_refl|].
    apply bind_ok in X. destruct X as (u & _ & X). apply bind_ok in X. destruct X as (co & _ & X).
    apply bind_ok in X. destruct X as (lf & _ & X). destruct lf as [l|].
    + apply bind_ok in X. destruct X as (lo & _ & X). apply bind_ok in X. destruct X as (m & _ & X).
      destruct m; [eapply put_sames; exact X|injection X as <-; apply sames_refl].
    + destruct (e_sz E - 1 <=? _); [injection X as <-; apply sames_refl|eapply put_sames; exact X].
  - apply bind_ok in X. destruct X as (r & B & X). eapply sames_client; [eapply put_sames; exact X|apply upd_same|].
    unfold toggle_quiet in B. destruct (o_kind (s_ring o)) eqn:K; try discriminate. injection B as <-. reflexivity.
  - apply SM. eapply fold_sames; [|exact X]. intros ha i hb Y. cbn beta in Y. eapply fold_sames; [|exact Y].
    intros hc m hd Z. eapply notify_sames; exact Z.
  - apply bind_ok in X. destruct X as (r & B & X). injection X as <-. rewrite upd_same. eexists. split; [reflexivity|].
    unfold toggle_suspend in B. destruct (o_kind (s_ring o)) as [q0 s0|ls|] eqn:K; try discriminate. injection B as <-.
    destruct s0; reflexivity.
Qed.
Lemma cmds_T rst c : (forall m, In m (rst k) -> P m) -> forall ys h o h', J h -> h c = Some o -> client_b o = true ->
  foldr_res (fun h y => exec_cmd E rst h c y) h ys = Ok h' -> T [] h h' /\ exists o', h' c = Some o' /\ client_b o' = true.
Proof.
  intros S. induction ys as [|y ys IH]; intros h o h' H Hc CB X; cbn [foldr_res] in X.
  - injection X as <-. split; [now apply T_refl|eauto].
  - apply bind_ok in X. destruct X as (h1 & A & X).
    assert (T1 : T [] h h1) by (eapply cmd_T; eauto). destruct (cmd_sames _ _ _ _ A Hc CB) as (o1 & H1 & C1).
    destruct (IH h1 o1 h' (T_J T1) H1 C1 X) as [T2 X2]. split; [exact (T_trans0 T1 T2)|exact X2].
Qed.

(** Console output reaches the log. *)
Lemma put_log_T h d h' : J h -> put_log E h x d = Ok h' -> T d h h'.
Proof.
  unfold put_log. intros H X. apply bind_ok in X. destruct X as (o & A & X). apply at_some in A.
  apply bind_ok in X. destruct X as ([[n r] s] & B & X). injection X as <-.
  destruct (j_log H) as (q & Q1 & LB). rewrite A in Q1. injection Q1 as <-.
  set (o1 := set_stamps (set_ring o r) s).
  assert (K : kcls (o_kind r) = kcls (o_kind (s_ring o)) /\ o_open r = o_open (s_ring o) /\ o_eof r = o_eof (s_ring o)).
  { pose proof B as B0. unfold write_log_data, line_state in B. unfold log_b in LB. destruct (o_kind (s_ring o)) as [q0 s0|ls|] eqn:Hk; try discriminate.
    cbn [bind] in B. apply bind_ok in B. destruct B as ([[ms ls'] k'] & _ & B). apply bind_ok in B. destruct B as ([n2 r2] & B & B3).
    injection B3 as _ <- _. destruct (@write_msgs_keeps E _ _ _ _ B) as (L1 & L2 & L3). cbn. auto. }
  destruct K as (K1 & K2 & K3). destruct (cls_client o o1 K1) as [C1 C2].
  split; [eapply J_upd; [exact H|exact A|reflexivity|exact (j_wr H x A)|exact C1|exact C2]|].
  intros p Hp. rewrite A in Hp. injection Hp as <-. exists o1, [VOp (LData d)]. rewrite upd_same.
  split; [reflexivity|]. split; [reflexivity|]. split; [exact K2|]. split; [exact K3|]. split; [cbn [log_hist]; rewrite B; reflexivity|].
  split; [unfold data_of; cbn; apply app_nil_r|]. split; [reflexivity|]. intros m [I|[]]. discriminate I.
Qed.
Lemma deliver_T h i d h' : J h -> deliver E h i d = Ok h' -> T (if i =? k then d else []) h h'.
Proof.
  intros H X. unfold deliver in X. destruct d as [|b d]; [injection X as <-; destruct (i =? k); now apply T_refl|].
  apply bind_ok in X. destruct X as (o & A & X). apply at_some in A. set (dd := b :: d) in *.
  assert (G : forall l h h', J h -> foldr_res (fun h r => do y <- at_ h r; if log_b y then put_log E h r dd else put_data E h r dd false) h l = Ok h' ->
    T (flat_map (fun _ => dd) (filter (Nat.eqb x) l)) h h').
  { induction l as [|a l IH]; intros ha hb Ha Y; cbn [foldr_res] in Y; [injection Y as <-; now apply T_refl|].
    apply bind_ok in Y. destruct Y as (h1 & A1 & Y). apply bind_ok in A1. destruct A1 as (y & Q & A1). apply at_some in Q.
    cbn [filter]. destruct (Nat.eqb_spec x a) as [<-|N].
    - destruct (j_log Ha) as (q & Q1 & LB). rewrite Q in Q1. injection Q1 as <-. rewrite LB in A1.
      pose proof (put_log_T _ Ha A1) as T1. cbn [flat_map]. eapply T_trans; [exact T1|]. apply IH; [apply (T_J T1)|exact Y].
    - assert (T1 : T [] ha h1).
      { destruct (log_b y) eqn:LB; [|eapply put_T; [exact Ha|exact A1|congruence]].
        unfold put_log in A1. rewrite (at_ok _ _ Q) in A1. cbn [bind] in A1. apply bind_ok in A1. destruct A1 as ([[n r] s] & B & A1). injection A1 as <-.
        unfold write_log_data, line_state in B. pose proof LB as LB0. unfold log_b in LB. destruct (o_kind (s_ring y)) as [q0 s0|ls|] eqn:Hk; try discriminate.
        cbn [bind] in B. apply bind_ok in B. destruct B as ([[ms ls'] k'] & _ & B). apply bind_ok in B. destruct B as ([n2 r2] & B & B3).
        injection B3 as _ <- _. destruct (@write_msgs_keeps E _ _ _ _ B) as (L1 & L2 & L3). cbn in L3.
        destruct (cls_client y (set_stamps (set_ring y (set_line ls' r2)) s)) as [C1 C2]; [cbn; now rewrite Hk|].
        eapply T_upd; [exact Ha|exact Q|reflexivity|exact (j_wr Ha a Q)|exact C1|exact C2|congruence]. }
      eapply (@T_trans [] _); [exact T1|]. apply IH; [apply (T_J T1)|exact Y]. }
  pose proof (G _ _ _ H X) as T1. unfold reads in *. pose proof (j_fed H i A) as F. unfold reads in F. rewrite F in T1.
  destruct (i =? k); [cbn [flat_map] in T1; rewrite app_nil_r in T1|]; exact T1.
Qed.

Lemma read_T rst h i ev ro r : J h -> read_from_obj E rst h i ev ro = Ok r -> i <> x -> (i = k -> forall m, In m (ro_msgs ro) -> P m) ->
  (forall m, In m (rst k) -> P m) -> (forall o, h i = Some o -> iac_ok (s_iac o)) ->
  T (match ev with
     | RdData d => if i =? k then match h k with
                   | Some o => if o_open (s_ring o) && (negb (telnet_b o) || state_up o) then meant o d else []
                   | None => [] end else []
     | _ => [] end) h (fst r) /\ (snd r = true -> exists o, h i = Some o /\ client_b o = true).
Proof.
  unfold read_from_obj. intros H X NX S SR IA. apply bind_ok in X. destruct X as (o & A & X). apply at_some in A.
  destruct (negb (o_open (s_ring o))) eqn:OP.
  { injection X as <-. cbn [fst snd]. split; [|discriminate]. destruct ev; try now apply T_refl. destruct (Nat.eqb_spec i k) as [<-|]; [|now apply T_refl].
    rewrite A. destruct (o_open (s_ring o)); [discriminate|]. now apply T_refl. }
  destruct (telnet_b o && negb (state_up o)) eqn:TU.
  { injection X as <-. cbn [fst snd]. split; [|discriminate]. destruct ev; try now apply T_refl. destruct (Nat.eqb_spec i k) as [<-|]; [|now apply T_refl].
    rewrite A. apply andb_prop in TU. destruct TU as [TU1 TU2]. destruct (state_up o); [discriminate|]. rewrite TU1, andb_false_r. now apply T_refl. }
  destruct ev as [| | |d].
  - injection X as <-. split; [now apply T_refl|discriminate].
  - eapply shutdown_T; eauto.
  - set (o1 := set_ring o (mark_eof (s_ring o))) in *. destruct (cls_client o o1) as [C1 C2]; [reflexivity|].
    assert (T1 : T [] h (upd h i (Some o1))).
    { eapply T_upd; [exact H|exact A|reflexivity|exact (j_wr H i A)|exact C1|exact C2|congruence]. }
    destruct (o_in (s_ring o) =? o_out (s_ring o)); [|injection X as <-; split; [exact T1|discriminate]].
    destruct (shutdown_T _ (T_J T1) X NX S) as [T2 D]. split; [exact (T_trans0 T1 T2)|]. intros e. destruct (D e) as (q & Q1 & Q2).
    rewrite upd_same in Q1. injection Q1 as <-. exists o. split; [exact A|congruence].
  - rewrite (negb_false_iff _) in OP.
    assert (SAY : client_b o = false -> (if i =? k then match h k with
                   | Some o => if o_open (s_ring o) && (negb (telnet_b o) || state_up o) then meant o d else []
                   | None => [] end else []) = if i =? k then meant o d else []).
    { intros _. destruct (Nat.eqb_spec i k) as [<-|]; [|reflexivity]. rewrite A, OP. destruct (telnet_b o), (state_up o); try discriminate; reflexivity. }
    destruct (client_b o) eqn:CB; [|destruct (telnet_b o) eqn:TB].
    + apply bind_ok in X. destruct X as ([[d' g] cs] & _ & X). apply bind_ok in X. destruct X as (h1 & A1 & X).
      apply bind_ok in X. destruct X as (h2 & A2 & X). apply bind_ok in X. destruct X as (h3 & A3 & X). injection X as <-. cbn [fst snd].
      split; [|discriminate].
      assert (NK : i <> k) by (intros ->; destruct (j_k H) as (q & Q1 & Q2); congruence).
      rewrite (proj2 (Nat.eqb_neq i k) NK).
      assert (T1 : T [] h h1).
      { eapply modify_T; [exact H|exact A1|]. intros q Hq. cbn. split; [reflexivity|]. split; [exact (j_wr H i Hq)|]. auto. }
      unfold modify in A1. rewrite (at_ok _ _ A) in A1. cbn [bind] in A1. injection A1 as <-.
      destruct (@cmds_T rst i SR cs _ (set_esc o g) h2 (T_J T1) (upd_same _ _ _) CB A2) as [T2 _].
      pose proof (deliver_T _ _ (T_J T2) A3) as T3. rewrite (proj2 (Nat.eqb_neq i k) NK) in T3.
      exact (T_trans0 T1 (T_trans0 T2 T3)).
    + apply bind_ok in X. destruct X as ([[d' iac] rs] & TE & X). apply bind_ok in X. destruct X as (h1 & A1 & X).
      apply bind_ok in X. destruct X as (h2 & A2 & X). apply bind_ok in X. destruct X as (h3 & A3 & X). injection X as <-. cbn [fst snd].
      split; [|discriminate]. rewrite (SAY eq_refl).
      assert (T1 : T [] h h1).
      { eapply modify_T; [exact H|exact A1|]. intros q Hq. cbn. split; [reflexivity|]. split; [exact (j_wr H i Hq)|]. auto. }
      assert (T2 : T [] h1 h2).
      { eapply fold_T; [|exact (T_J T1)|exact A2]. intros ha m hb I Ha Y. cbn beta in Y. eapply put_T; [exact Ha|exact Y|congruence]. }
      pose proof (deliver_T _ _ (T_J T2) A3) as T3.
      assert (M : meant o d = d').
      { unfold meant, decode. rewrite CB, TB. unfold dstate_of. cbn [fst snd].
        rewrite (@pte_ok (s_iac o) d (IA o A)) in TE. destruct (trun (s_iac o) d) as [[ii dd] rr]. injection TE as <- <- <-. reflexivity. }
      rewrite M. exact (T_trans T1 (T_trans T2 T3)).
    + apply bind_ok in X. destruct X as (h1 & A1 & X). injection X as <-. cbn [fst snd]. split; [|discriminate]. rewrite (SAY eq_refl).
      assert (M : meant o d = d) by (unfold meant, decode; rewrite CB, TB; reflexivity). rewrite M. exact (deliver_T _ _ H A1).
Qed.
Lemma flush_T h i rs ro h' s dead : J h -> flush_obj E h i rs ro = Ok (h', s, dead) -> i <> x -> (i = k -> forall m, In m (ro_msgs ro) -> P m) ->
  T [] h h' /\ (dead = true -> exists o, h i = Some o /\ client_b o = true).
Proof.
  unfold flush_obj. intros H X NX S. apply bind_ok in X. destruct X as (o & A & X). apply at_some in A.
  destruct (negb (o_open (s_ring o))); [injection X as <- _ <-; split; [now apply T_refl|discriminate]|].
  destruct (telnet_b o && _).
  { apply bind_ok in X. destruct X as (h1 & B & X). injection X as <- _ <-. split; [eapply open_console_T; eauto|discriminate]. }
  apply bind_ok in X. destruct X as ([[sent dd] r'] & B & X). destruct (@flush_keeps E _ _ _ _ _ B) as (K1 & _ & _).
  destruct (cls_client o (set_ring o r')) as [C1 C2]; [cbn; now rewrite K1|].
  assert (T1 : T [] h (upd h i (Some (set_ring o r')))).
  { eapply T_upd; [exact H|exact A|reflexivity|exact (j_wr H i A)|exact C1|exact C2|congruence]. }
  destruct dd; [|injection X as <- _ <-; split; [exact T1|discriminate]].
  apply bind_ok in X. destruct X as (y & Y & X). injection X as <- _ <-. destruct (shutdown_T _ (T_J T1) Y NX S) as [T2 D].
  split; [exact (T_trans0 T1 T2)|]. intros e. destruct (D e) as (q & Q1 & Q2). rewrite upd_same in Q1. injection Q1 as <-. exists o. split; [exact A|congruence].
Qed.
Lemma flush_x h rs ro h' s dead o : J h -> flush_obj E h x rs ro = Ok (h', s, dead) -> h x = Some o -> o_eof (s_ring o) = false -> ~ In WErr rs ->
  J h' /\ L [] [rs] s h h' /\ dead = false.
Proof.
  unfold flush_obj. intros H X A EO NW. rewrite (at_ok _ _ A) in X. cbn [bind] in X.
  destruct (j_log H) as (q & Q1 & LB). rewrite A in Q1. injection Q1 as <-.
  assert (TB : telnet_b o = false).
  { unfold telnet_b. rewrite log_b_eq in LB. rewrite console_b_eq. destruct (cls_of o); try discriminate. apply andb_false_r. }
  rewrite TB in X. cbn [andb] in X.
  assert (G : forall r', J (upd h x (Some (set_ring o r'))) -> write_to_obj SZ (s_ring o) rs = Ok (s, false, r') -> J (upd h x (Some (set_ring o r'))) /\ L [] [rs] s h (upd h x (Some (set_ring o r')))).
  { intros r' J1 B. destruct (@flush_keeps E _ _ _ _ _ B) as (K1 & K2 & K3). split; [exact J1|].
    intros p Hp. rewrite A in Hp. injection Hp as <-. exists (set_ring o r'), [VFlush rs]. rewrite upd_same. cbn [s_ring s_lopt s_stamps set_ring].
    split; [reflexivity|]. split; [reflexivity|]. split; [exact K2|]. split; [exact K3|].
    split; [cbn [log_hist]; rewrite B; cbn [bind]; now rewrite app_nil_r|]. split; [reflexivity|]. split; [reflexivity|].
    intros m [I|[]]. discriminate I. }
  destruct (negb (o_open (s_ring o))) eqn:OP.
  - injection X as <- <- <-.
    assert (B : write_to_obj SZ (s_ring o) rs = Ok ([], false, s_ring o)) by (unfold write_to_obj; now rewrite OP).
    split; [exact H|]. split; [|reflexivity]. intros p Hp. rewrite A in Hp. injection Hp as <-. exists o, [VFlush rs].
    split; [exact A|]. split; [reflexivity|]. split; [reflexivity|]. split; [reflexivity|].
    split; [cbn [log_hist]; rewrite B; reflexivity|]. split; [reflexivity|]. split; [reflexivity|]. intros m [I|[]]. discriminate I.
  - apply bind_ok in X. destruct X as ([[sent dd] r'] & B & X). pose proof (@flush_lives E _ _ _ _ _ B EO NW) as ->.
    injection X as <- <- <-. destruct (@flush_keeps E _ _ _ _ _ B) as (K1 & _ & _).
    destruct (cls_client o (set_ring o r')) as [C1 C2]; [cbn; now rewrite K1|].
    destruct (G r') as [G1 G2]; [|exact B|auto]. eapply J_upd; [exact H|exact A|reflexivity|exact (j_wr H x A)|exact C1|exact C2].
Qed.

Lemma client_not_k h i o : J h -> h i = Some o -> client_b o = true -> i <> k.
Proof. intros H Hi CB ->. destruct (j_k H) as (q & Q1 & Q2). congruence. Qed.
Lemma T_none D h h' i : T D h h' -> i <> x -> i <> k -> T D h (upd h' i None).
Proof.
  intros [H LL] NX NK. assert (G : J (upd h' i None) /\ L [] [] [] h' (upd h' i None)); [|destruct G as [G1 G2]; split; [exact G1|rewrite <- (app_nil_r D); exact (L_trans LL G2)]].
  split.
  - constructor.
    + destruct (j_log H) as (q & Q1 & Q2). exists q. rewrite upd_other by congruence. auto.
    + destruct (j_k H) as (q & Q1 & Q2). exists q. rewrite upd_other by congruence. auto.
    + intros j p Hj. unfold upd in Hj. destruct (j =? i); [discriminate|]. exact (j_fed H j Hj).
    + intros j p Hj. unfold upd in Hj. destruct (j =? i); [discriminate|]. exact (j_wr H j Hj).
  - intros p Hp. exists p, []. rewrite upd_other by congruence. repeat split; auto; contradiction.
Qed.

(** One event. *)
Definition flushed (e : event) : list (list wres) :=
  match e with EvMux i _ (Some rs) _ _ => if i =? x then [rs] else [] | _ => [] end.
Definition given (e : event) (out : list Z) : list Z :=
  match e with EvMux i _ _ _ _ => if i =? x then out else [] | _ => [] end.
Definition message (e : event) (m : list Z) : Prop :=
  match e with
  | EvThread _ _ ro => In m (ro_msgs ro)
  | EvConsole i ro => i = k /\ In m (ro_msgs ro)
  | EvMux i _ _ ro rst => (i = k /\ In m (ro_msgs ro)) \/ In m (rst k)
  | EvLogMsg l m' => l = x /\ m = m'
  | _ => False
  end.
Lemma new_J h c q : J h -> h c = None -> J (upd h c (Some (new_client E q))) /\ L [] [] [] h (upd h c (Some (new_client E q))).
Proof.
  intros H N. assert (NX : x <> c) by (intros ->; destruct (j_log H) as (p & Q1 & Q2); congruence).
  assert (NK : k <> c) by (intros ->; destruct (j_k H) as (p & Q1 & Q2); congruence). split.
  - constructor.
    + destruct (j_log H) as (p & Q1 & Q2). exists p. rewrite upd_other by congruence. auto.
    + destruct (j_k H) as (p & Q1 & Q2). exists p. rewrite upd_other by congruence. auto.
    + intros j p Hj. unfold upd in Hj. destruct (Nat.eqb_spec j c) as [->|]; [|exact (j_fed H j Hj)]. injection Hj as <-.
      rewrite (proj2 (Nat.eqb_neq c k)) by congruence. reflexivity.
    + intros j p Hj. unfold upd in Hj. destruct (Nat.eqb_spec j c) as [->|]; [|exact (j_wr H j Hj)]. injection Hj as <-. intros [].
  - intros p Hp. exists p, []. rewrite upd_other by exact NX. repeat split; auto; contradiction.
Qed.

Lemma event_T w e w' out o : WWF w -> J (w_heap w) -> w_heap w x = Some o -> (match e with EvMux i _ _ _ _ => i = x | _ => False end -> o_eof (s_ring o) = false) -> undisturbed x e ->
  (forall m, message e m -> P m) -> step E w e = Ok (w', out) ->
  J (w_heap w') /\ L (says w k e) (flushed e) (given e out) (w_heap w) (w_heap w').
Proof.
  intros W H Hx EO UN PM X. assert (SAME : J (w_heap w) /\ L [] [] [] (w_heap w) (w_heap w)) by (split; [exact H|apply L_refl]).
  destruct e as [q m|t sent ro|i rd wr ro rst|i ro|l m|l ok m]; cbn [step] in X; cbn [says flushed given message] in *.
  - injection X as <- _. exact SAME.
  - destruct (nth_error (w_thr w) t) as [[q m|q sel|c [|y todo]|e]|] eqn:NT; try (injection X as <- _; exact SAME).
    + apply bind_ok in X. destruct X as (a & _ & X). injection X as <- _. exact SAME.
    + destruct (negb sent); injection X as <- _; [exact SAME|]. cbn. apply new_J; [exact H|].
      destruct (w_heap w (w_next w)) as [p|] eqn:Hn; [|reflexivity]. exfalso.
      assert (I : In (w_next w) (w_objs w)) by (apply (ww_live W); unfold live; congruence). pose proof (ww_fresh W _ I). lia.
    + apply bind_ok in X. destruct X as (h1 & A & X). injection X as <- _. cbn.
      destruct (ww_thr W t NT) as (TL & TC & TK).
      assert (NS : step_console y <> x).
      { intros Y. assert (CC : exists n, G (w_heap w) (step_console y) = Some n /\ g_cls n = ClCons) by (apply TC; now left).
        destruct CC as (n & N1 & N2). rewrite Y in N1. rewrite (G_of _ _ Hx) in N1. injection N1 as <-. cbn in N2.
        destruct (j_log H) as (p & Q1 & Q2). rewrite Hx in Q1. injection Q1 as <-. rewrite log_b_eq, N2 in Q2. discriminate. }
      assert (NC : c <> x).
      { intros ->. destruct (TK _ (G_of _ _ Hx)) as [N2 _]. cbn in N2.
        destruct (j_log H) as (p & Q1 & Q2). rewrite Hx in Q1. injection Q1 as <-. rewrite log_b_eq, N2 in Q2. discriminate. }
      destruct y as [i|i|i]; cbn [do_tstep step_console] in *; [eapply link_T; [exact H|exact NC|exact NS|exact A]|eapply link_T; [exact H|exact NS|exact NC|exact A]|eapply check_T; [exact H|exact A|exact NC|intros _; exact PM]].
  - destruct (negb (mem i (w_objs w))) eqn:MI.
    { injection X as <- <-.
      assert (NI : w_heap w i = None).
      { destruct (w_heap w i) as [p|] eqn:Hi; [|reflexivity]. exfalso. rewrite negb_true_iff in MI. apply mem_not in MI. apply MI. apply (ww_live W). unfold live. congruence. }
      assert (N1 : i <> x) by congruence. assert (N2 : i <> k) by (intros ->; destruct (j_k H) as (p & Q1 & _); congruence).
      rewrite (proj2 (Nat.eqb_neq i x) N1), (proj2 (Nat.eqb_neq i k) N2). destruct rd as [[| | |d]|], wr; exact SAME. }
    destruct (Nat.eqb_spec i x) as [->|NX].
    + destruct (UN eq_refl) as [-> NW]. cbn [bind fst snd] in X. destruct wr as [rs|]; [|injection X as <- <-; exact SAME].
      apply bind_ok in X. destruct X as ([[h2 s2] d2] & B & X).
      destruct (flush_x _ _ H B Hx (EO eq_refl) (NW rs eq_refl)) as (J1 & L1 & ->). injection X as <- <-. cbn. auto.
    + apply bind_ok in X. destruct X as (r1 & A & X).
      assert (D1 : T (match rd with Some (RdData d) => if i =? k then match w_heap w k with
                   | Some o => if o_open (s_ring o) && (negb (telnet_b o) || state_up o) then meant o d else []
                   | None => [] end else [] | _ => [] end) (w_heap w) (fst r1) /\ (snd r1 = true -> exists o, w_heap w i = Some o /\ client_b o = true)).
      { destruct rd as [ev|]; [|injection A as <-; split; [now apply T_refl|discriminate]].
        destruct (@read_T rst (w_heap w) i ev ro r1 H A NX) as [R1 R2]; [auto|auto| |split; [destruct ev; exact R1|exact R2]].
        intros p Hp. apply (proj2 (ww_hok W) i p Hp). }
      destruct D1 as [T1 D1]. set (sy := match rd with Some (RdData d) => _ | _ => _ end) in *. clearbody sy.
      replace (match wr with Some _ => [] | None => [] end) with (@nil (list wres)) by (destruct wr; reflexivity).
      destruct (snd r1) eqn:SN.
      * injection X as <- <-. cbn. destruct (D1 eq_refl) as (p & Hp & CB). apply (T_none T1 NX). exact (client_not_k H Hp CB).
      * destruct wr as [rs|]; [|injection X as <- <-; exact T1]. apply bind_ok in X. destruct X as ([[h2 s2] d2] & B & X).
        destruct (flush_T _ _ (T_J T1) B NX) as [T2 D2]; [intros e m I; apply PM; left; auto|].
        assert (T3 : T sy (w_heap w) h2) by (rewrite <- (app_nil_r sy); exact (T_trans T1 T2)).
        injection X as <- <-. destruct d2; cbn; [|exact T3]. destruct (D2 eq_refl) as (p & Hp & CB). apply (T_none T3 NX).
        exact (client_not_k (T_J T1) Hp CB).
  - destruct (negb (mem i (w_objs w))); [injection X as <- _; exact SAME|].
    apply bind_ok in X. destruct X as (p & _ & X). destruct (console_b p); [|injection X as <- _; exact SAME].
    apply bind_ok in X. destruct X as (h1 & A & X). injection X as <- _. cbn. eapply open_console_T; [exact H|exact A|].
    intros e m I. apply PM. auto.
  - destruct (negb (mem l (w_objs w))); [injection X as <- _; exact SAME|].
    apply bind_ok in X. destruct X as (p & _ & X). destruct (log_b p); [|injection X as <- _; exact SAME].
    apply bind_ok in X. destruct X as (h1 & A & X). injection X as <- _. cbn. eapply put_T; [exact H|exact A|].
    intros e. split; [reflexivity|]. intros _. apply PM. auto.
  - destruct (negb (mem l (w_objs w))); [injection X as <- _; exact SAME|].
    apply bind_ok in X. destruct X as (p & A & X). apply at_some in A. destruct (log_b p) eqn:LB; [|injection X as <- _; exact SAME].
    assert (G : forall r h, J h -> forall p, h l = Some p -> kcls (o_kind r) = kcls (o_kind (s_ring p)) -> T [] h (upd h l (Some (set_ring p r)))).
    { intros r h Hh q Hq K. destruct (cls_client q (set_ring q r) K) as [C1 C2].
      eapply T_upd; [exact Hh|exact Hq|reflexivity|exact (j_wr Hh l Hq)|exact C1|exact C2|congruence]. }
    destruct ok; [|injection X as <- _; cbn; apply G; auto].
    apply bind_ok in X. destruct X as (h1 & B & X). apply bind_ok in X. destruct X as (h2 & B2 & X). injection X as <- _. cbn.
    assert (T1 : T [] (w_heap w) (upd (w_heap w) l (Some (set_ring p (open_fd (close_fd (s_ring p))))))).
    { apply G; [exact H|exact A|]. unfold open_fd. cbn. reflexivity. }
    assert (T2 : T [] (w_heap w) h1).
    { eapply T_trans0; [exact T1|]. eapply put_T; [apply (T_J T1)|exact B|congruence]. }
    eapply T_trans0; [exact T2|]. unfold modify in B2. apply bind_ok in B2. destruct B2 as (q & Q & B2). apply at_some in Q. injection B2 as <-.
    apply G; [apply (T_J T2)|exact Q|]. unfold put_data in B. rewrite (at_ok _ _ (upd_same _ _ _)) in B. cbn [bind] in B.
    apply bind_ok in B. destruct B as ([n r] & B & B3). injection B3 as <-. rewrite upd_same in Q. injection Q as <-. cbn.
    destruct (write_same _ _ _ B) as (_ & _ & K). cbn in K. rewrite K. unfold log_b in LB. destruct (o_kind (s_ring p)); try discriminate. reflexivity.
Qed.
Lemma history_T : forall es w w' l o, WWF w -> J (w_heap w) -> w_heap w x = Some o -> o_eof (s_ring o) = false ->
  Forall event_ok es -> Forall (undisturbed x) es -> (forall e m, In e es -> message e m -> P m) -> outputs E w es = Ok (w', l) ->
  L (said E k w es) (writes_to x es) (sent_to x l) (w_heap w) (w_heap w').
Proof.
  induction es as [|e es IH]; intros w w' l o W H Hx EO EV UN PM X; cbn [outputs] in X.
  - injection X as <- <-. apply L_refl.
  - inversion EV as [|? ? EV1 EV2]; subst. inversion UN as [|? ? UN1 UN2]; subst.
    apply bind_ok in X. destruct X as ([w1 s1] & A & X). apply bind_ok in X. destruct X as ([w2 l2] & B & X). cbn [fst snd] in *.
    injection X as <- <-.
    destruct (event_T e W H Hx (fun _ => EO) UN1 (fun m M => PM e m (or_introl eq_refl) M) A) as [J1 L1].
    assert (W1 : WWF w1).
    { pose proof (step_ok HE e W EV1) as S. rewrite A in S. cbn in S. apply S. }
    destruct (L1 o Hx) as (o1 & es1 & H1 & _ & _ & E1 & _).
    assert (L2 := IH w1 w2 l2 o1 W1 J1 H1 (eq_trans E1 EO) EV2 UN2 (fun e m I M => PM e m (or_intror I) M) B).
    cbn [said]. rewrite A. cbn [fst].
    replace (writes_to x (e :: es)) with (flushed e ++ writes_to x es).
    + replace (sent_to x _) with (given e s1 ++ sent_to x l2); [exact (L_trans L1 L2)|].
      unfold sent_to. rewrite flat_map_app. f_equal. destruct e; try reflexivity. cbn. rewrite app_nil_r. reflexivity.
    + unfold writes_to. cbn [flat_map]. f_equal.
Qed.

(** The links of the log stay, whatever happens to its file. *)
Lemma x_J h o o' : J h -> h x = Some o -> s_readers o' = s_readers o -> s_writers o' = s_writers o -> kcls (o_kind (s_ring o')) = kcls (o_kind (s_ring o)) -> J (upd h x (Some o')).
Proof.
  intros H Hx R1 R2 K. destruct (cls_client o o' K) as [C1 C2]. eapply J_upd; [exact H|exact Hx| | |exact C1|exact C2].
  - unfold reads. now rewrite R1.
  - rewrite R2. exact (j_wr H x Hx).
Qed.
Lemma x_types h o : J h -> h x = Some o -> client_b o = false /\ console_b o = false /\ telnet_b o = false /\ log_b o = true.
Proof.
  intros H Hx. destruct (j_log H) as (p & Q1 & Q2). rewrite Hx in Q1. injection Q1 as <-. unfold telnet_b. rewrite client_b_eq, console_b_eq, log_b_eq in *.
  destruct (cls_of o); try discriminate. rewrite andb_false_r. auto.
Qed.
Lemma shutdown_J h ro r : J h -> shutdown_obj E h x ro = Ok r -> J (fst r) /\ snd r = false.
Proof.
  unfold shutdown_obj. intros H X. apply bind_ok in X. destruct X as (o & A & X). apply at_some in A.
  destruct (negb (o_open (s_ring o))); [injection X as <-; auto|]. destruct (x_types H A) as (C1 & C2 & C3 & C4). rewrite C1, C4 in X.
  injection X as <-. split; [|reflexivity]. eapply x_J; [exact H|exact A|reflexivity|reflexivity|]. cbn. unfold shutdown_buf. destruct (negb _); reflexivity.
Qed.
Lemma read_J rst h ev ro r : J h -> read_from_obj E rst h x ev ro = Ok r -> J (fst r) /\ snd r = false.
Proof.
  unfold read_from_obj. intros H X. apply bind_ok in X. destruct X as (o & A & X). apply at_some in A.
  destruct (negb (o_open (s_ring o))); [injection X as <-; auto|]. destruct (x_types H A) as (C1 & C2 & C3 & C4). rewrite C3 in X. cbn [andb] in X.
  destruct ev as [| | |d].
  - injection X as <-. auto.
  - eapply shutdown_J; eauto.
  - assert (J1 : J (upd h x (Some (set_ring o (mark_eof (s_ring o)))))) by (eapply x_J; eauto).
    destruct (o_in (s_ring o) =? o_out (s_ring o)); [exact (shutdown_J _ J1 X)|]. injection X as <-. auto.
  - rewrite C1 in X. apply bind_ok in X. destruct X as (h1 & B & X). injection X as <-. split; [|reflexivity]. exact (T_J (deliver_T _ _ H B)).
Qed.
Lemma flush_J h rs ro h' s dead : J h -> flush_obj E h x rs ro = Ok (h', s, dead) -> J h' /\ dead = false.
Proof.
  unfold flush_obj. intros H X. apply bind_ok in X. destruct X as (o & A & X). apply at_some in A.
  destruct (negb (o_open (s_ring o))); [injection X as <- _ <-; auto|]. destruct (x_types H A) as (C1 & C2 & C3 & C4). rewrite C3 in X. cbn [andb] in X.
  apply bind_ok in X. destruct X as ([[sent dd] r'] & B & X). destruct (@flush_keeps E _ _ _ _ _ B) as (K1 & _ & _).
  assert (J1 : J (upd h x (Some (set_ring o r')))) by (eapply x_J; [exact H|exact A|reflexivity|reflexivity|cbn; now rewrite K1]).
  destruct dd; [|injection X as <- _ <-; auto]. apply bind_ok in X. destruct X as (y & Y & X). destruct (shutdown_J _ J1 Y) as [Y1 Y2].
  injection X as <- _ <-. auto.
Qed.
End Env.

Lemma event_J E (HE : env_ok E) x k w e w' out : WWF E w -> J x k (w_heap w) -> step E w e = Ok (w', out) -> J x k (w_heap w').
Proof.
  intros W H X. destruct (j_log H) as (o & Hx & LB).
  assert (Y : ((match e with EvMux i _ _ _ _ => i = x | _ => False end) \/ exists ok m, e = EvLogOpen x ok m) \/ 
    (undisturbed x e /\ ~ match e with EvMux i _ _ _ _ => i = x | _ => False end)).
  { destruct e as [| |i rd wr ro rst| | |l ok m]; cbn; auto.
    - destruct (Nat.eq_dec i x) as [->|N]; [auto|]. right. split; [congruence|exact N].
    - destruct (Nat.eq_dec l x) as [->|N]; [left; right; eauto|auto]. }
  destruct Y as [[Y|(ok & m & ->)]|[U N]].
  - destruct e as [| |i rd wr ro rst| | |]; try contradiction. subst i. cbn [step] in X.
    destruct (negb (mem x (w_objs w))); [injection X as <- _; exact H|]. apply bind_ok in X. destruct X as (r1 & A & X).
    assert (R1 : J x k (fst r1) /\ snd r1 = false).
    { destruct rd as [ev|]; [|injection A as <-; auto]. exact (read_J E (fun _ => True) _ _ _ H A). }
    destruct R1 as [R1 R2]. rewrite R2 in X. destruct wr as [rs|]; [|injection X as <- _; exact R1].
    apply bind_ok in X. destruct X as ([[h2 s2] d2] & B & X). destruct (flush_J E _ _ R1 B) as [F1 F2]. subst d2. injection X as <- _. exact F1.
  - cbn [step] in X. destruct (negb (mem x (w_objs w))); [injection X as <- _; exact H|]. rewrite (at_ok _ _ Hx) in X. cbn [bind] in X. rewrite LB in X.
    assert (KO : forall r, o_kind r = o_kind (s_ring o) -> J x k (upd (w_heap w) x (Some (set_ring o r)))).
    { intros r K. eapply x_J; [exact H|exact Hx|reflexivity|reflexivity|]. cbn. now rewrite K. }
    destruct ok; [|injection X as <- _; cbn; apply KO; reflexivity].
    apply bind_ok in X. destruct X as (h1 & B & X). apply bind_ok in X. destruct X as (h2 & B2 & X). injection X as <- _. cbn.
    assert (KK : J x k (upd (w_heap w) x (Some (set_ring o (open_fd (close_fd (s_ring o))))))) by (apply KO; reflexivity).
    unfold put_data in B. rewrite (at_ok _ _ (upd_same _ _ _)) in B. cbn [bind] in B. apply bind_ok in B. destruct B as ([n r] & B & B3).
    injection B3 as <-. cbn [snd] in B2. unfold modify in B2. rewrite (at_ok _ _ (upd_same _ _ _)) in B2. cbn [bind] in B2. injection B2 as <-.
    destruct (write_same _ _ _ _ B) as (_ & _ & K). cbn in K.
    assert (K2 : J x k (upd (upd (w_heap w) x (Some (set_ring o (open_fd (close_fd (s_ring o)))))) x (Some (set_ring (set_ring o (open_fd (close_fd (s_ring o)))) r)))).
    { eapply x_J; [exact KK|apply upd_same|reflexivity|reflexivity|]. cbn. exact K. }
    eapply x_J; [exact K2|apply upd_same|reflexivity|reflexivity|]. cbn. rewrite K. unfold log_b in LB. destruct (o_kind (s_ring o)); try discriminate. reflexivity.
  - eapply (@event_T E x k (fun _ => True)); eauto. intros q. contradiction.
Qed.
Lemma run_J E (HE : env_ok E) x k : forall es w w', WWF E w -> J x k (w_heap w) -> Forall event_ok es -> run E w es = Ok w' -> J x k (w_heap w').
Proof.
  induction es as [|e es IH]; intros w w' W H EV X; cbn [run] in X; [injection X as <-; exact H|].
  inversion EV as [|? ? EV1 EV2]; subst. apply bind_ok in X. destruct X as ([w1 s1] & A & X).
  pose proof (step_ok HE e W EV1) as S. rewrite A in S. cbn in S, X. destruct S as [S _]. eapply IH; [exact S| |exact EV2|exact X]. eapply event_J; [exact HE|exact W|exact H|exact A].
Qed.
Lemma J_feeds E w x k : WWF E w -> J x k (w_heap w) -> fed_only_by (w_heap w) x k.
Proof.
  intros W H i. unfold feeds. split.
  - intros (o & Hi & I). pose proof (j_fed H i Hi) as R. destruct (Nat.eqb_spec i k) as [->|]; [reflexivity|].
    exfalso. exact (reads_in _ _ I R).
  - intros ->. destruct (j_k H) as (o & Hk & _). exists o. split; [exact Hk|]. pose proof (j_fed H k Hk) as R. rewrite Nat.eqb_refl in R.
    assert (I : In x (reads x o)) by (rewrite R; now left). apply filter_In in I. apply I.
Qed.

(** The links of a log in a consistent world. *)
Lemma J_start E w x k ox ok : WWF E w -> w_heap w x = Some ox -> log_b ox = true -> w_heap w k = Some ok -> fed_only_by (w_heap w) x k -> J x k (w_heap w).
Proof.
  intros W Hx LB Hk FO. pose proof (ww_hok W) as [WF _].
  assert (CK : cls_of ok = ClCons).
  { destruct (proj2 (FO k) eq_refl) as (q & Q1 & Q2). rewrite Hk in Q1. injection Q1 as <-.
    destruct (wg_r WF k x (G_of _ _ Hk) Q2) as (nx & N1 & _ & TY). rewrite (G_of _ _ Hx) in N1. injection N1 as <-. cbn in TY.
    rewrite log_b_eq in LB. destruct (cls_of ok), (cls_of ox); try discriminate. reflexivity. }
  constructor.
  - eauto.
  - exists ok. split; [exact Hk|]. rewrite client_b_eq, CK. reflexivity.
  - intros i o Hi. destruct (wg_nd WF i (G_of _ _ Hi)) as [ND _]. cbn in ND. unfold reads.
    assert (Q : In x (s_readers o) <-> i = k).
    { rewrite <- (FO i). unfold feeds. split; [intros I; eauto|]. intros (p & P1 & P2). congruence. }
    clear - Q ND. destruct (Nat.eqb_spec i k) as [e|N].
    + apply Q in e. clear Q. induction (s_readers o) as [|y l IH]; [destruct e|]. inversion ND as [|? ? N1 N2]; subst. cbn [filter].
      destruct (Nat.eqb_spec x y) as [->|N].
      * f_equal. clear - N1. induction l as [|z l IH]; [reflexivity|]. cbn [filter]. destruct (Nat.eqb_spec y z) as [->|]; [exfalso; apply N1; now left|].
        apply IH. intros I. apply N1. now right.
      * destruct e as [e|e]; [congruence|]. auto.
    + assert (NI : ~ In x (s_readers o)) by tauto. clear - NI. induction (s_readers o) as [|z l IH]; [reflexivity|]. cbn [filter].
      destruct (Nat.eqb_spec x z) as [->|]; [exfalso; apply NI; now left|]. apply IH. intros I. apply NI. now right.
  - intros i o Hi I. destruct (wg_w WF i x (G_of _ _ Hi) I) as (nx & N1 & N2). rewrite (G_of _ _ Hx) in N1. injection N1 as <-. cbn in N2.
    destruct (wg_r WF x i (G_of _ _ Hx) N2) as (ni & _ & _ & TY). cbn in TY. rewrite log_b_eq in LB. destruct (cls_of ox); try discriminate.
Qed.

(** The logs at start-up. *)
Lemma J_fresh x k h c o : J x k h -> h c = None -> s_readers o = [] -> s_writers o = [] -> J x k (upd h c (Some o)).
Proof.
  intros [A B C D] N R1 R2. destruct A as (p & A1 & A2). destruct B as (q & B1 & B2).
  assert (N1 : x <> c) by congruence. assert (N2 : k <> c) by congruence. constructor.
  - exists p. rewrite upd_other by exact N1. auto.
  - exists q. rewrite upd_other by exact N2. auto.
  - intros i y. destruct (Nat.eq_dec i c) as [->|N3].
    + rewrite upd_same. intros e. injection e as <-. unfold reads. rewrite R1. cbn. destruct (Nat.eqb_spec c k); congruence.
    + rewrite upd_other by exact N3. apply C.
  - intros i y. destruct (Nat.eq_dec i c) as [->|N3].
    + rewrite upd_same. intros e. injection e as <-. rewrite R2. auto.
    + rewrite upd_other by exact N3. apply D.
Qed.
Definition every_log (h : heap) : Prop := forall x o, h x = Some o -> log_b o = true -> exists k ok, h k = Some ok /\ console_b ok = true /\ J x k h.
Lemma add_console_J E (HE : env_ok E) w c w' : booting E w -> every_log (w_heap w) -> add_console E w c = Ok w' -> every_log (w_heap w').
Proof.
  intros B H X. pose proof B as (HK & _). destruct c as [t lg]. cbn [add_console] in X. set (k := w_next w) in *.
  assert (Hk : w_heap w k = None) by (apply (booting_none B); apply le_n).
  assert (Hl : w_heap w (S k) = None) by (apply (booting_none B); unfold k; lia).
  destruct lg as [p|].
  - set (ok := new_console E t (Some (S k))) in *. set (ol := new_log E p) in *. apply bind_ok in X. destruct X as (h1 & A & X). injection X as <-. cbn [w_heap].
    set (h := upd (upd (w_heap w) k (Some ok)) (S k) (Some ol)) in *.
    assert (NE : k <> S k) by lia.
    assert (Gk : h k = Some ok) by (unfold h; rewrite upd_other by exact NE; apply upd_same).
    assert (Gl : h (S k) = Some ol) by (unfold h; apply upd_same).
    unfold link_objs in A. rewrite (at_ok _ _ Gk), (at_ok _ _ Gl) in A. cbn [bind] in A. change (client_b ok) with false in A. cbn [andb bind] in A.
    rewrite (at_ok _ _ Gk) in A. cbn [bind] in A. apply bind_ok in A. destruct A as (u1 & _ & A). unfold modify in A.
    rewrite (at_ok _ _ Gk) in A. cbn [bind] in A. set (ok2 := set_readers ok _) in A. rewrite (@at_ok (upd h k (Some ok2)) (S k) ol) in A by (rewrite upd_other by lia; exact Gl).
    cbn [bind] in A. apply bind_ok in A. destruct A as (u2 & _ & A).
    cbn [bind] in A. apply bind_ok in A. destruct A as (u3 & _ & A). apply bind_ok in A. destruct A as (u4 & _ & A). injection A as <-.
    set (ol2 := set_writers ol _).
    assert (OLD : forall i o, w_heap w i = Some o -> upd (upd h k (Some ok2)) (S k) (Some ol2) i = Some o).
    { intros i o Hi. assert (i <> k) by congruence. assert (i <> S k) by congruence. unfold h. rewrite !upd_other by assumption. exact Hi. }
    intros x o Hx LB. destruct (Nat.eq_dec x (S k)) as [->|N1].
    + exists k, ok2. split; [rewrite upd_other by lia; apply upd_same|]. split; [reflexivity|]. constructor.
      * exists ol2. split; [apply upd_same|reflexivity].
      * exists ok2. split; [rewrite upd_other by lia; apply upd_same|reflexivity].
      * intros i q. destruct (Nat.eq_dec i (S k)) as [->|M1].
        { rewrite upd_same. intros e. injection e as <-. destruct (Nat.eqb_spec (S k) k); [lia|reflexivity]. }
        rewrite upd_other by exact M1. destruct (Nat.eq_dec i k) as [->|M2].
        { rewrite upd_same. intros e. injection e as <-. rewrite Nat.eqb_refl. unfold reads, ok2. cbn. rewrite Nat.eqb_refl. reflexivity. }
        rewrite upd_other by exact M2. unfold h. rewrite !upd_other by assumption. intros Hi. rewrite (proj2 (Nat.eqb_neq i k) M2).
        assert (NI : ~ In (S k) (s_readers q)).
        { intros I. destruct (read_live i (S k) HK Hi I) as (ob & Y & _). congruence. }
        clear - NI. unfold reads. induction (s_readers q) as [|z l IH]; [reflexivity|]. cbn [filter].
        destruct (Nat.eqb_spec (S k) z) as [e|]; [exfalso; apply NI; now left|]. apply IH. intros I. apply NI. now right.
      * intros i q. destruct (Nat.eq_dec i (S k)) as [->|M1].
        { rewrite upd_same. intros e. injection e as <-. cbn. lia. }
        rewrite upd_other by exact M1. destruct (Nat.eq_dec i k) as [->|M2].
        { rewrite upd_same. intros e. injection e as <-. cbn. auto. }
        rewrite upd_other by exact M2. unfold h. rewrite !upd_other by assumption. intros Hi I.
        destruct (write_live i (S k) HK Hi I) as (ob & Y & _). congruence.
    + rewrite upd_other in Hx by exact N1. destruct (Nat.eq_dec x k) as [->|N2].
      { rewrite upd_same in Hx. injection Hx as <-. discriminate. }
      rewrite upd_other in Hx by exact N2. unfold h in Hx. rewrite !upd_other in Hx by assumption.
      destruct (H x o Hx LB) as (k0 & ok0 & H1 & H2 & H3). exists k0, ok0. split; [exact (OLD _ _ H1)|]. split; [exact H2|].
      assert (J1 : J x k0 h).
      { unfold h. apply J_fresh; try reflexivity; [|rewrite upd_other by lia; exact Hl]. apply J_fresh; try reflexivity; assumption. }
      assert (J2 : J x k0 (upd h k (Some ok2))).
      { eapply J_upd; [exact J1|exact Gk| | |reflexivity|reflexivity].
        - unfold reads. cbn. destruct (Nat.eqb_spec x (S k)); [contradiction|reflexivity].
        - cbn. auto. }
      eapply J_upd; [exact J2|rewrite upd_other by lia; exact Gl|reflexivity| |reflexivity|reflexivity].
      cbn. intros [e|[]]. congruence.
  - injection X as <-. cbn [w_heap]. intros x o Hx LB. destruct (Nat.eq_dec x k) as [->|N].
    { rewrite upd_same in Hx. injection Hx as <-. discriminate. }
    rewrite upd_other in Hx by exact N. destruct (H x o Hx LB) as (k0 & ok0 & H1 & H2 & H3). exists k0, ok0.
    split; [rewrite upd_other by congruence; exact H1|]. split; [exact H2|]. apply J_fresh; try reflexivity; assumption.
Qed.
Lemma boot_from_J E (HE : env_ok E) : forall cs w w', booting E w -> every_log (w_heap w) -> boot_from E w cs = Ok w' -> every_log (w_heap w').
Proof.
  induction cs as [|c cs IH]; intros w w' B H X; cbn [boot_from] in X; [injection X as <-; exact H|].
  apply bind_ok in X. destruct X as (w1 & A & X). destruct (add_console_ok HE c B) as (w2 & A2 & B2). rewrite A in A2. injection A2 as <-.
  eapply IH; [exact B2| |exact X]. exact (add_console_J HE c B H A).
Qed.
Lemma boot_J E (HE : env_ok E) cs w : boot E cs = Ok w -> every_log (w_heap w).
Proof.
  intros X. eapply boot_from_J; [exact HE| | |exact X].
  - unfold booting. cbn. split; [|split; [|split; [|split; [|split]]]]; auto.
    + split; [constructor; discriminate|]. intros i o Y. discriminate.
    + intros i. split; [intros []|]. intros Y. now apply Y.
    + constructor.
    + intros i [].
    + discriminate.
  - intros x o Y. discriminate.
Qed.
