(** Proofs about stretches of ordinary traffic. *)
From Verif Require Import Base BaseProof RingModel RingSpec RingProof LogModel LogSpec LogProof
  TelnetModel TelnetSpec TelnetProof EscModel EscSpec EscProof SessModel SessSpec SessInv SessLink SessStep SessWorld
  SessThread SessFacts SessMode FlowSpec.
Set Implicit Arguments.

Section Env.
Variable E : env.
Hypothesis HE : env_ok E.
Let SZ := e_sz E.
Notation HOK := (HOK E).
Notation evo := (evo E).
Notation WWF := (WWF E).
Notation CAP := (SZ - 1).

Lemma qrun_app : forall xs ys q, qrun CAP q (xs ++ ys) =
  (let '(q1, s1) := qrun CAP q xs in let '(q2, s2) := qrun CAP q1 ys in (q2, s1 ++ s2)).
Proof.
  induction xs as [|x xs IH]; intros ys q; cbn [qrun app].
  - destruct (qrun CAP q ys). reflexivity.
  - destruct (qstep CAP q x) as [q1 s1]. rewrite IH. destruct (qrun CAP q1 xs) as [q2 s2].
    destruct (qrun CAP q2 ys) as [q3 s3]. now rewrite app_assoc.
Qed.

(** What traffic leaves alone. *)
Definition frame (o o' : sobj) : Prop :=
  cls_of o' = cls_of o /\ s_readers o' = s_readers o /\ s_writers o' = s_writers o /\ s_type o' = s_type o /\
  s_state o' = s_state o /\ s_req o' = s_req o /\ s_log o' = s_log o /\ s_lopt o' = s_lopt o /\
  o_open (s_ring o') = o_open (s_ring o) /\ o_eof (s_ring o') = o_eof (s_ring o) /\ is_quiet (s_ring o') = is_quiet (s_ring o) /\
  is_suspended (s_ring o') = is_suspended (s_ring o).
Lemma frame_refl o : frame o o. Proof. unfold frame. auto 20. Qed.
Lemma frame_trans a b c : frame a b -> frame b c -> frame a c.
Proof. unfold frame. intuition congruence. Qed.
Lemma frame_cls o o' : frame o o' -> client_b o' = client_b o /\ console_b o' = console_b o /\ log_b o' = log_b o /\
  telnet_b o' = telnet_b o /\ is_client (s_ring o') = is_client (s_ring o).
Proof.
  intros (A & _ & _ & B & _). rewrite !client_b_eq, !console_b_eq, !log_b_eq. unfold telnet_b. rewrite !console_b_eq, !is_client_kcls.
  unfold cls_of in *. rewrite A, B. auto.
Qed.

(** What the operations [xs] do to the queue of the object [x]; [out] is sent. *)
Definition took (x : nat) (o o' : sobj) (xs : list op) (out : list Z) : Prop :=
  (log_b o = false -> (abs SZ (s_ring o'), out) = qrun CAP (abs SZ (s_ring o)) xs) /\
  (log_b o = true -> log_hist SZ (e_dbg E) (e_clock E x) (s_lopt o) (fun _ => e_wbuf E) (s_ring o) (s_stamps o) (log_evs xs) =
                     Ok (s_ring o', s_stamps o', out)).
Lemma hist_app dbg clock p j : forall xs ys r k, log_hist SZ dbg clock p (fun _ => j) r k (xs ++ ys) =
  (do a <- log_hist SZ dbg clock p (fun _ => j) r k xs; let '(r1, k1, s1) := a in
   do b <- log_hist SZ dbg clock p (fun _ => j) r1 k1 ys; let '(r2, k2, s2) := b in Ok (r2, k2, s1 ++ s2)).
Proof.
  induction xs as [|x xs IH]; intros ys r k; cbn [app log_hist].
  - cbn [bind]. destruct (log_hist SZ dbg clock p (fun _ => j) r k ys) as [[[r2 k2] s2]|]; reflexivity.
  - destruct x as [[d|m]|rs].
    + destruct (write_log_data _ _ _ _ _ _ _ _) as [[[n r1] k1]|]; cbn [bind]; [apply IH|reflexivity].
    + destruct (write_obj_data _ _ _ _) as [[n r1]|]; cbn [bind snd]; [apply IH|reflexivity].
    + destruct (write_to_obj _ _ _) as [[[s dead] r1]|]; cbn [bind]; [|reflexivity]. rewrite IH.
      destruct (log_hist SZ dbg clock p (fun _ => j) r1 k xs) as [[[r2 k2] s2]|]; cbn [bind]; [|reflexivity].
      destruct (log_hist SZ dbg clock p (fun _ => j) r2 k2 ys) as [[[r3 k3] s3]|]; cbn [bind]; [|reflexivity].
      now rewrite app_assoc.
Qed.
Lemma took_nil x o : took x o o [] [].
Proof. split; reflexivity. Qed.
Lemma took_app x o o1 o2 xs ys s1 s2 : frame o o1 -> took x o o1 xs s1 -> took x o1 o2 ys s2 -> took x o o2 (xs ++ ys) (s1 ++ s2).
Proof.
  intros F (A1 & A2) (B1 & B2). destruct (frame_cls F) as (_ & _ & LL & _). destruct F as (_ & _ & _ & _ & _ & _ & _ & FL & _).
  rewrite LL, FL in *. split; intros LB.
  - now rewrite qrun_app, <- A1, <- B1 by exact LB.
  - unfold log_evs in *. rewrite flat_map_app, hist_app, A2 by exact LB. cbn [bind]. rewrite B2 by exact LB. reflexivity.
Qed.

Lemma took_frame x o o1 o2 xs out : frame o o1 -> s_ring o1 = s_ring o -> s_stamps o1 = s_stamps o ->
  took x o1 o2 xs out -> took x o o2 xs out.
Proof.
  intros F R K (A & B). destruct (frame_cls F) as (_ & _ & LL & _). destruct F as (_ & _ & _ & _ & _ & _ & _ & FL & _).
  unfold took. rewrite LL, FL, R, K in *. auto.
Qed.

(** One write: frame, decoder state, queue. *)
Definition wrote (x : nat) (d : list Z) (o o' : sobj) : Prop :=
  frame o o' /\ dstate_of o' = dstate_of o /\ took x o o' [OWrite d false] [].
Lemma qrun_write q d : qrun CAP q [OWrite d false] = (fst (qstep CAP q (OWrite d false)), []).
Proof.
  cbn [qrun]. assert (X : snd (qstep CAP q (OWrite d false)) = []).
  { destruct q. cbn [qstep]. destruct (accepts _ _); reflexivity. }
  destruct (qstep CAP q (OWrite d false)) as [q1 s1]. cbn [snd fst] in *. now subst s1.
Qed.

Lemma ring_frame o r : kcls (o_kind r) = kcls (o_kind (s_ring o)) -> o_open r = o_open (s_ring o) -> o_eof r = o_eof (s_ring o) ->
  is_quiet r = is_quiet (s_ring o) -> is_suspended r = is_suspended (s_ring o) -> frame o (set_ring o r).
Proof. intros. unfold frame, cls_of, set_ring. cbn. auto 20. Qed.

Lemma put_wrote h i o d : RI E h -> h i = Some o -> log_b o = false ->
  exists o', put_data E h i d false = Ok (upd h i (Some o')) /\ wrote i d o o' /\ oinv E o'.
Proof.
  intros HR Hi LB. destruct (put_data_ok HE i d false HR Hi) as (h' & A & S & n & r & B & ->).
  exists (set_ring o r). split; [exact A|].
  assert (OI : oinv E (set_ring o r)) by (apply (sim_RI S i); apply upd_same). split; [|exact OI].
  destruct (write_kind _ _ _ _ B) as (K1 & K2 & K3 & K4 & K5 & K6).
  split; [now apply ring_frame|]. split; [reflexivity|]. split; [|congruence]. intros _. cbn [s_ring set_ring].
  pose proof (HR i o Hi) as (I1 & _). rewrite qrun_write.
  destruct (@write_abs SZ (s_ring o) d false (HSZ HE) I1) as (n2 & r2 & B2 & _ & AB). unfold SZ in *.
  rewrite B in B2. injection B2 as <- <-. now rewrite AB.
Qed.

Lemma write_msgs_keeps : forall ms r n r', write_msgs SZ r ms = Ok (n, r') ->
  kcls (o_kind r') = kcls (o_kind r) /\ o_open r' = o_open r /\ o_eof r' = o_eof r.
Proof.
  induction ms as [|m ms IH]; intros r n r' H; cbn [write_msgs] in H.
  - injection H as _ <-. auto.
  - apply bind_ok in H. destruct H as ([n1 r1] & A & H). apply bind_ok in H. destruct H as ([n2 r2] & B & H).
    injection H as _ <-. cbn [snd] in *. destruct (write_kind _ _ _ _ A) as (K1 & K2 & K3 & _).
    destruct (IH _ _ _ B) as (L1 & L2 & L3). rewrite L1, L2, L3. auto.
Qed.
Lemma put_log_wrote h i o d : RI E h -> h i = Some o -> log_b o = true -> bytes_ok d ->
  exists o', put_log E h i d = Ok (upd h i (Some o')) /\ wrote i d o o' /\ oinv E o'.
Proof.
  intros HR Hi LB Hd. pose proof (proj1 (log_b_cls o) LB) as Hc.
  destruct (put_logs HE i HR Hi Hc Hd) as (o' & A & (n & r & k & B & ->) & OI).
  exists (set_stamps (set_ring o r) k). split; [exact A|]. split; [|exact OI].
  split; [|split; [reflexivity|split; [congruence|intros _; cbn [log_evs flat_map app log_hist]; unfold SZ; rewrite B; reflexivity]]].
  unfold write_log_data, line_state in B. unfold log_b in LB.
  destruct (o_kind (s_ring o)) as [q s|ls|] eqn:Hk; try discriminate. cbn [bind] in B.
  apply bind_ok in B. destruct B as ([[ms ls'] k'] & _ & B). apply bind_ok in B. destruct B as ([n2 r2] & B & B3).
  injection B3 as _ <- _. destruct (write_msgs_keeps _ _ B) as (L1 & L2 & L3).
  unfold frame, cls_of, is_quiet, is_suspended. cbn. rewrite Hk in *. cbn. auto 20.
Qed.

Lemma deliver_wrote h i o d : HOK h -> h i = Some o -> bytes_ok d -> d <> [] ->
  exists h', deliver E h i d = Ok h' /\ all_objs (fun j p p' => if mem j (s_readers o) then wrote j d p p' else p' = p) h h'.
Proof.
  intros HK Hi Hd Hne. unfold deliver. destruct d as [|b d]; [congruence|]. clear Hne. set (dd := b :: d) in *.
  rewrite (at_ok _ _ Hi). cbn [bind].
  destruct (wg_nd (proj1 HK) i (G_of _ _ Hi)) as [ND _]. cbn in ND.
  destruct (@fold_each E (fun j p p' => wrote j dd p p')
    (fun h r => do x <- at_ h r; if log_b x then put_log E h r dd else put_data E h r dd false) (s_readers o) h)
    as (h' & -> & R' & A & B); auto.
  - apply HK.
  - intros j Hj. destruct (read_live i j HK Hi Hj) as (p & X & _). eauto.
  - intros j h1 p _ R1 _ H1. rewrite (at_ok _ _ H1). cbn [bind]. destruct (log_b p) eqn:LB.
    + now apply put_log_wrote.
    + now apply put_wrote.
  - exists h'. split; [reflexivity|]. split; assumption.
Qed.

(** ** One read *)
Definition got (i : nat) (o : sobj) (s : dstate) (d : list Z) (own : list (list Z)) (x : nat) (p p' : sobj) : Prop :=
  frame p p' /\ dstate_of p' = (if x =? i then s else dstate_of p) /\
  took x p p' ((if x =? i then map (fun m => OWrite m false) own else []) ++
      (if mem x (s_readers o) then match d with [] => [] | _ => [OWrite d false] end else [])) [].

(** Delivery after the object [i] itself has changed to [o1]. *)
Lemma deliver_got h i o h1 o1 s d own : HOK h1 -> h i = Some o -> h1 i = Some o1 ->
  (forall j, j <> i -> h1 j = h j) -> frame o o1 -> dstate_of o1 = s -> bytes_ok d -> mem i (s_readers o) = false ->
  took i o o1 (map (fun m => OWrite m false) own) [] ->
  exists h', deliver E h1 i d = Ok h' /\ all_objs (got i o s d own) h h'.
Proof.
  intros K1 Hi H1 O1 F DS Hb NI Q.
  assert (FR : s_readers o1 = s_readers o) by apply F.
  destruct d as [|b d].
  - exists h1. split; [reflexivity|]. split.
    + intros x p Hx. unfold got. destruct (Nat.eqb_spec x i) as [->|N].
      * exists o1. rewrite Hi in Hx. injection Hx as <-. split; [exact H1|]. split; [exact F|]. split; [exact DS|].
        rewrite NI, app_nil_r. exact Q.
      * exists p. rewrite O1 by exact N. split; [exact Hx|]. split; [apply frame_refl|]. split; [reflexivity|].
        destruct (mem x (s_readers o)); apply took_nil.
    + intros x Hx. destruct (Nat.eq_dec x i) as [->|N]; [congruence|]. now rewrite O1.
  - assert (NE : b :: d <> []) by discriminate.
    destruct (deliver_wrote i K1 H1 Hb NE) as (h' & A & B & C). exists h'. split; [exact A|]. rewrite FR in B. split.
    + intros x p Hx. unfold got. destruct (Nat.eqb_spec x i) as [->|N].
      * destruct (B i o1 H1) as (p' & X & Y). rewrite NI in Y. subst p'. exists o1. rewrite Hi in Hx. injection Hx as <-.
        split; [exact X|]. split; [exact F|]. split; [exact DS|]. rewrite NI, app_nil_r. exact Q.
      * destruct (B x p) as (p' & X & Y); [now rewrite O1|]. exists p'. split; [exact X|].
        destruct (mem x (s_readers o)).
        -- destruct Y as (Y1 & Y2 & Y3). split; [exact Y1|]. split; [exact Y2|]. exact Y3.
        -- subst p'. split; [apply frame_refl|]. split; [reflexivity|]. apply took_nil.
    + intros x Hx. apply C. destruct (Nat.eq_dec x i) as [->|N]; [congruence|]. now rewrite O1.
Qed.

Lemma own_reader h i o : HOK h -> h i = Some o -> mem i (s_readers o) = false.
Proof.
  intros HK Hi. destruct (mem i (s_readers o)) eqn:M; [|reflexivity]. apply mem_In in M.
  destruct (read_live i i HK Hi M) as (p & X & _ & T). rewrite Hi in X. injection X as <-.
  destruct (cls_of o); cbn in T; discriminate.
Qed.

Lemma puts_own i : forall own h o, RI E h -> h i = Some o -> log_b o = false ->
  exists h' o', foldr_res (fun h m => put_data E h i m false) h own = Ok h' /\ h' i = Some o' /\
    (forall j, j <> i -> h' j = h j) /\ frame o o' /\ dstate_of o' = dstate_of o /\
    took i o o' (map (fun m => OWrite m false) own) [].
Proof.
  induction own as [|m own IH]; intros h o HR Hi LB; cbn [foldr_res map].
  - exists h, o. split; [reflexivity|]. split; [exact Hi|]. split; [auto|]. split; [apply frame_refl|]. split; [reflexivity|apply took_nil].
  - destruct (put_wrote i m HR Hi LB) as (o1 & -> & (W1 & W2 & W3) & OI). cbn [bind].
    destruct (IH (upd h i (Some o1)) o1) as (h' & o' & A & B & C & D & F & G).
    + now apply RI_upd.
    + apply upd_same.
    + rewrite <- LB. apply (frame_cls W1).
    + exists h', o'. split; [exact A|]. split; [exact B|]. split; [intros j N; rewrite C by exact N; now apply upd_other|].
      split; [eapply frame_trans; eauto|]. split; [congruence|].
      exact (took_app (x := i) (xs := [OWrite m false]) W1 W3 G).
Qed.

Lemma read_got rst h i o d ro s d' own : HOK h -> h i = Some o -> o_open (s_ring o) = true ->
  (telnet_b o = true -> s_state o = StUp) -> bytes_ok d ->
  (client_b o = true -> stream_cmds (pre (s_esc o) d) = []) ->
  decode o (dstate_of o) d = (s, d', own) ->
  exists h', read_from_obj E rst h i (RdData d) ro = Ok (h', false) /\ all_objs (got i o s d' own) h h'.
Proof.
  intros HK Hi Op TU Hb NC DE. unfold read_from_obj. rewrite (at_ok _ _ Hi). cbn [bind]. rewrite Op. cbn [negb].
  assert (TT : telnet_b o && negb (state_up o) = false).
  { destruct (telnet_b o); [|reflexivity]. unfold state_up. rewrite TU by reflexivity. reflexivity. }
  rewrite TT. pose proof (own_reader i HK Hi) as NI. unfold decode, dstate_of in DE. cbn [fst snd] in DE.
  destruct (client_b o) eqn:CB.
  - injection DE as <- <- <-. rewrite pce_ok. cbn [bind]. rewrite NC by reflexivity. cbn [foldr_res].
    destruct (@modify_sim E h i o (fun o => set_esc o (dangling (pre (s_esc o) d))) HK Hi) as (h1 & A1 & S1 & H1);
      [reflexivity|exact (proj2 HK i o Hi)|reflexivity|].
    replace (modify h i (fun o0 => set_esc o0 (dangling (pre (s_esc o) d)))) with (Ok h1).
    2:{ rewrite <- A1. unfold modify. now rewrite (at_ok _ _ Hi). }
    cbn [bind].
    assert (O1 : forall j, j <> i -> h1 j = h j).
    { intros j N. unfold modify in A1. rewrite (at_ok _ _ Hi) in A1. cbn in A1. injection A1 as <-. now rewrite upd_other. }
    destruct (@deliver_got h i o h1 _ (dangling (pre (s_esc o) d), s_iac o) (stream_data (pre (s_esc o) d)) []
      (sim_HOK S1 HK) Hi H1 O1) as (h3 & -> & D); auto.
    + unfold frame. cbn. auto 20.
    + exact (stream_bytes E (s_esc o) Hb).
    + split; reflexivity.
    + cbn [bind]. eauto.
  - destruct (telnet_b o) eqn:TB.
    + assert (OI : oinv E o) by exact (proj2 HK i o Hi). assert (IO : iac_ok (s_iac o)) by apply OI.
      rewrite (pte_ok (s_iac o) d IO). pose proof (trun_ok d (s_iac o) IO) as IO2. pose proof (trun_bytes (s_iac o) Hb) as TBy.
      destruct (trun (s_iac o) d) as [[iac dd] rs]. cbn [fst snd] in *. injection DE as <- <- <-. cbn [bind].
      destruct (@modify_sim E h i o (fun o => set_iac o iac) HK Hi) as (h1 & A1 & S1 & H1);
        [reflexivity|destruct OI as (X1 & _ & X2); split; [exact X1|split; [exact IO2|exact X2]]|reflexivity|].
      rewrite A1. cbn [bind].
      assert (O1 : forall j, j <> i -> h1 j = h j).
      { intros j N. unfold modify in A1. rewrite (at_ok _ _ Hi) in A1. cbn in A1. injection A1 as <-. now rewrite upd_other. }
      assert (LB : log_b o = false).
      { unfold telnet_b in TB. rewrite console_b_eq in TB. rewrite log_b_eq. destruct (cls_of o); [| |reflexivity];
          rewrite ?andb_false_r in TB; congruence. }
      assert (F1 : frame o (set_iac o iac)) by (unfold frame; cbn; auto 20).
      destruct (@puts_own i rs h1 (set_iac o iac) (sim_RI S1) H1) as (h2 & o2 & A2 & H2 & O2 & F2 & D2 & Q2);
        [rewrite <- LB; apply (frame_cls F1)|].
      rewrite A2. cbn [bind].
      assert (K2 : HOK h2).
      { destruct (@fold_sim E _ (fun h m => put_data E h i m false) rs h1 (sim_RI S1)) as (hh & AA & S2).
        { intros m ha _ S. destruct (sim_some i S H1) as (oo & X & _).
          destruct (put_data_ok HE i m false (sim_RI S) X) as (hb & Z & Z2 & _). eauto. }
        rewrite A2 in AA. injection AA as <-. exact (sim_HOK (sim_trans S1 S2) HK). }
      assert (O3 : forall j, j <> i -> h2 j = h j) by (intros j N; now rewrite O2, O1).
      pose proof (frame_trans F1 F2) as F3.
      destruct (@deliver_got h i o h2 o2 (s_esc o, iac) dd rs K2 Hi H2 O3 F3 D2 TBy NI (took_frame F1 eq_refl eq_refl Q2)) as (h3 & -> & D).
      cbn [bind]. eauto.
    + injection DE as <- <- <-.
      destruct (@deliver_got h i o h o (s_esc o, s_iac o) d [] HK Hi Hi) as (h3 & -> & D); auto; [apply frame_refl|apply took_nil|].
      cbn [bind]. eauto.
Qed.

(** ** One write *)
Lemma after_noerr : forall rs, ~ In WErr rs -> after_intr rs <> WErr.
Proof.
  induction rs as [|r rs IH]; intros N; cbn [after_intr]; [discriminate|]. destruct r; try discriminate.
  - apply IH. intros H. apply N. now right.
  - exfalso. apply N. now left.
Qed.
Lemma flush_lives r rs s dead r' : write_to_obj SZ r rs = Ok (s, dead, r') -> o_eof r = false -> ~ In WErr rs -> dead = false.
Proof.
  intros H EO NW. unfold write_to_obj in H. destruct (negb (o_open r)); [injection H as _ <- _; reflexivity|].
  apply bind_ok in H. destruct H as (u & _ & H). apply bind_ok in H. destruct H as (data & _ & H).
  pose proof (after_noerr rs NW) as NE.
  destruct (o_in r =? o_out r); [|destruct (after_intr rs); try congruence].
  all: apply bind_ok in H; destruct H as (v & _ & H); injection H as _ <- _; rewrite EO, andb_false_r; reflexivity.
Qed.
Lemma flush_keeps r rs s dead r' : write_to_obj SZ r rs = Ok (s, dead, r') ->
  o_kind r' = o_kind r /\ o_open r' = o_open r /\ o_eof r' = o_eof r.
Proof.
  intros H. unfold write_to_obj in H. destruct (negb (o_open r)); [injection H as _ _ <-; auto|].
  apply bind_ok in H. destruct H as (u & _ & H). apply bind_ok in H. destruct H as (data & _ & H).
  destruct (if o_in r =? o_out r then _ else _) as [[a b] c] in H.
  apply bind_ok in H; destruct H as (v & _ & H); injection H as _ _ <-. auto.
Qed.
Lemma flush_got h i o rs ro : HOK h -> h i = Some o -> o_open (s_ring o) = true -> o_eof (s_ring o) = false ->
  (telnet_b o = true -> s_state o = StUp) -> ~ In WErr rs ->
  exists o' s, flush_obj E h i rs ro = Ok (upd h i (Some o'), s, false) /\ frame o o' /\ dstate_of o' = dstate_of o /\
    took i o o' [OFlush rs] s.
Proof.
  intros HK Hi Op EO TU NW. unfold flush_obj. rewrite (at_ok _ _ Hi). cbn [bind]. rewrite Op. cbn [negb].
  assert (TT : (telnet_b o && match s_state o with StPending => true | _ => false end) = false).
  { destruct (telnet_b o); [|reflexivity]. rewrite TU by reflexivity. reflexivity. }
  rewrite TT. assert (OI : oinv E o) by exact (proj2 HK i o Hi). fold SZ.
  destruct (@flush_abs SZ (s_ring o) rs (HSZ HE) (proj1 OI)) as (dead & r' & W & I' & A & _ & _ & _ & K & _).
  rewrite W. cbn [bind]. rewrite (flush_lives _ _ W EO NW). 
  destruct (flush_keeps _ _ W) as (K1 & K2 & K3).
  do 2 eexists. split; [reflexivity|]. split; [apply ring_frame; auto; [now rewrite K1|unfold is_quiet; now rewrite K1|unfold is_suspended; now rewrite K1]|].
  split; [reflexivity|]. split; intros _.
  - cbn [s_ring set_ring qrun]. rewrite A.
    destruct (qstep CAP (abs SZ (s_ring o)) (OFlush rs)) as [q1 s1]. cbn [fst snd]. now rewrite app_nil_r.
  - cbn [log_evs flat_map app log_hist]. rewrite W. cbn [bind]. now rewrite app_nil_r.
Qed.

(** ** One event *)
Definition did (i : nat) (s : dstate) (ops : nat -> list op) (out : list Z) (x : nat) (p p' : sobj) : Prop :=
  frame p p' /\ dstate_of p' = (if x =? i then s else dstate_of p) /\
  took x p p' (ops x) (if x =? i then out else []).

Lemma event_did w i o rd wr ro rst : WWF w -> w_heap w i = Some o -> o_open (s_ring o) = true -> o_eof (s_ring o) = false ->
  (telnet_b o = true -> s_state o = StUp) ->
  (rd = None \/ rd = Some RdAgain \/ exists d, rd = Some (RdData d) /\ bytes_ok d) ->
  (forall rs, wr = Some rs -> ~ In WErr rs) ->
  (forall d, rd = Some (RdData d) -> client_b o = true -> stream_cmds (pre (s_esc o) d) = []) ->
  let '(s, d, own) := match rd with Some (RdData d) => decode o (dstate_of o) d | _ => (dstate_of o, [], []) end in
  exists w' out, step E w (EvMux i rd wr ro rst) = Ok (w', out) /\ WWF w' /\
    all_objs (did i s (fun x => (if x =? i then map (fun m => OWrite m false) own else []) ++
      (if mem x (s_readers o) then match d with [] => [] | _ => [OWrite d false] end else []) ++
      (if x =? i then match wr with Some rs => [OFlush rs] | None => [] end else [])) out) (w_heap w) (w_heap w').
Proof.
  intros W Hi Op EO TU RD WR NC. pose proof (ww_hok W) as HK.
  destruct (match rd with Some (RdData d) => _ | _ => _ end) as [[s d'] own] eqn:DE.
  assert (R : exists h1, (match rd with None => Ok (w_heap w, false) | Some ev => read_from_obj E rst (w_heap w) i ev ro end) = Ok (h1, false)
    /\ HOK h1 /\ all_objs (got i o s d' own) (w_heap w) h1).
  { assert (SAME : forall rd', s = dstate_of o -> d' = [] -> own = [] -> match rd' with None | Some RdAgain => True | _ => False end ->
      exists h1, (match rd' with None => Ok (w_heap w, false) | Some ev => read_from_obj E rst (w_heap w) i ev ro end) = Ok (h1, false)
        /\ HOK h1 /\ all_objs (got i o s d' own) (w_heap w) h1).
    { intros rd' -> -> -> Q. exists (w_heap w). split; [|split; [exact HK|]].
      - destruct rd' as [[]|]; try contradiction; [|reflexivity]. unfold read_from_obj. rewrite (at_ok _ _ Hi). cbn [bind].
        rewrite Op. cbn [negb]. destruct (telnet_b o && _); reflexivity.
      - split; [|auto]. intros x p Hx. exists p. split; [exact Hx|]. split; [apply frame_refl|]. split.
        + destruct (Nat.eqb_spec x i) as [->|]; [|reflexivity]. rewrite Hi in Hx. now injection Hx as <-.
        + destruct (x =? i); destruct (mem x (s_readers o)); apply took_nil. }
    destruct RD as [->|[->|(d & -> & Hb)]]; [injection DE as <- <- <-; now apply (SAME None)|injection DE as <- <- <-; now apply (SAME (Some RdAgain))|].
    destruct (@read_got rst (w_heap w) i o d ro s d' own HK Hi Op TU Hb (NC d eq_refl) DE) as (h1 & A & B).
    exists h1. split; [exact A|]. split; [|exact B].
    pose proof (@read_ok E HE rst (w_heap w) i o (RdData d) ro HK Hi) as RO. rewrite A in RO.
    exact (ev_hok (RO (fun d0 e => match e in _ = x return match x with RdData y => bytes_ok y | _ => True end with eq_refl => Hb end))). }
  assert (GO : exists w' out, step E w (EvMux i rd wr ro rst) = Ok (w', out) /\
    all_objs (did i s (fun x => (if x =? i then map (fun m => OWrite m false) own else []) ++
      (if mem x (s_readers o) then match d' with [] => [] | _ => [OWrite d' false] end else []) ++
      (if x =? i then match wr with Some rs => [OFlush rs] | None => [] end else [])) out) (w_heap w) (w_heap w')).
  { cbn [step]. assert (IV : In i (w_objs w)) by (apply (ww_live W), live_some; eauto).
    rewrite (proj2 (mem_In _ _) IV). cbn [negb]. destruct R as (h1 & -> & K1 & A & B). cbn [bind fst snd].
    destruct wr as [rs|].
    - destruct (A i o Hi) as (o1 & H1 & (F1 & D1 & Q1)). rewrite Nat.eqb_refl in *.
      pose proof (frame_cls F1) as FC. destruct (F1) as (_ & _ & _ & _ & FS & _ & _ & _ & FO & FE & _).
      destruct (@flush_got h1 i o1 rs ro K1 H1) as (o2 & out & -> & F2 & D2 & Q2); auto.
      + now rewrite FO.
      + now rewrite FE.
      + rewrite FS. destruct FC as (_ & _ & _ & -> & _). exact TU.
      + cbn [bind]. do 2 eexists. split; [reflexivity|]. cbn [set_heap w_heap]. split.
        * intros x p Hx. unfold did. destruct (Nat.eqb_spec x i) as [->|N].
          -- rewrite Hi in Hx. injection Hx as <-. exists o2. rewrite upd_same. split; [reflexivity|].
             split; [exact (frame_trans F1 F2)|]. split; [congruence|].
             rewrite app_assoc. exact (took_app F1 Q1 Q2).
          -- destruct (A x p Hx) as (p' & X & (Y1 & Y2 & Y3)). apply Nat.eqb_neq in N. rewrite N in *. exists p'.
             apply Nat.eqb_neq in N. rewrite upd_other by exact N. split; [exact X|]. split; [exact Y1|]. split; [exact Y2|].
             rewrite app_nil_r. exact Y3.
        * intros x Hx. destruct (Nat.eq_dec x i) as [->|N]; [congruence|]. rewrite upd_other by exact N. auto.
    - do 2 eexists. split; [reflexivity|]. cbn [set_heap w_heap]. split; [|exact B].
      intros x p Hx. destruct (A x p Hx) as (p' & X & (Y1 & Y2 & Y3)). exists p'. split; [exact X|]. split; [exact Y1|]. split; [exact Y2|].
      destruct (x =? i); rewrite ?app_nil_r in *; exact Y3. }
  destruct GO as (w' & out & A & B). exists w', out. split; [exact A|]. split; [|exact B].
  assert (EV : event_ok (EvMux i rd wr ro rst)).
  { cbn. destruct RD as [->|[->|(d & -> & Hb)]]; auto. }
  pose proof (step_ok HE _ W EV) as S. rewrite A in S. apply S.
Qed.

(** ** Histories *)
Lemma pre_app g d t : pre g (d ++ t) = pre g d ++ t.
Proof. destruct g; reflexivity. Qed.
Lemma stream_app g d t :
  stream_data (pre g (d ++ t)) = stream_data (pre g d) ++ stream_data (pre (dangling (pre g d)) t) /\
  stream_cmds (pre g (d ++ t)) = stream_cmds (pre g d) ++ stream_cmds (pre (dangling (pre g d)) t) /\
  dangling (pre g (d ++ t)) = dangling (pre (dangling (pre g d)) t).
Proof.
  rewrite pre_app. destruct (@parse_app (length (pre g d)) (pre g d) t (Nat.le_refl _)) as [A B].
  unfold stream_data, stream_cmds. rewrite A, B, !flat_map_app. auto.
Qed.
Lemma decode_app o s d t : decode o s (d ++ t) =
  (let '(s1, d1, r1) := decode o s d in let '(s2, d2, r2) := decode o s1 t in (s2, d1 ++ d2, r1 ++ r2)).
Proof.
  unfold decode. destruct (client_b o).
  - destruct (stream_app (fst s) d t) as (A & _ & B). cbn [fst snd]. rewrite A, B. reflexivity.
  - destruct (telnet_b o); [|reflexivity]. rewrite trun_app. destruct (trun (snd s) d) as [[i1 d1] r1]. cbn [fst snd].
    destruct (trun i1 t) as [[i2 d2] r2]. reflexivity.
Qed.
Lemma decode_nil o s : decode o s [] = (s, [], []) \/ client_b o = true.
Proof. unfold decode. destruct (client_b o); [now right|left]. destruct s; destruct (telnet_b o); reflexivity. Qed.
Lemma decode_nil_data o s : snd (fst (decode o s [])) = [].
Proof.
  unfold decode. destruct (client_b o); [destruct (fst s); reflexivity|]. destruct (telnet_b o); reflexivity.
Qed.

Lemma decode_frame o o' s d : frame o o' -> decode o' s d = decode o s d.
Proof. intros F. destruct (frame_cls F) as (A & _ & _ & B & _). unfold decode. now rewrite A, B. Qed.

Definition matches (h0 : heap) (st : nat -> dstate) (h : heap) : Prop :=
  all_objs (fun x p p' => frame p p' /\ dstate_of p' = st x) h0 h.

Lemma history_flow w0 : forall es w st, WWF w -> matches (w_heap w0) st (w_heap w) -> Forall (traffic w0) es ->
  (forall i o, w_heap w0 i = Some o -> client_b o = true -> stream_cmds (pre (fst (st i)) (heard i es)) = []) ->
  exists w' l, outputs E w es = Ok (w', l) /\ all_objs (fun x p p' => frame p p' /\
      took x p p' (queue_ops (w_heap w0) x st es) (sent_to x l))
    (w_heap w) (w_heap w').
Proof.
  induction es as [|e es IH]; intros w st W M F NC; cbn [outputs].
  - exists w, []. split; [reflexivity|]. split; [|auto]. intros x p Hx. exists p. split; [exact Hx|].
    split; [apply frame_refl|]. apply took_nil.
  - inversion F as [|? ? T F']; subst. destruct e as [| |i rd wr ro rst| | |]; try contradiction.
    cbn [traffic] in T. destruct T as (o0 & H0 & Op & EO & TU & RD & WR).
    destruct (proj1 M i o0 H0) as (o & Hi & Fo & Do).
    pose proof (frame_cls Fo) as FC. destruct (Fo) as (_ & FR & _ & _ & FS & _ & _ & _ & FO & FE & _).
    pose proof (@event_did w i o rd wr ro rst W Hi) as EV. rewrite FO, FE, FS in EV.
    destruct FC as (FC1 & _ & _ & FC2 & _). rewrite FC1, FC2 in EV. specialize (EV Op EO TU RD WR).
    assert (HD : heard i (EvMux i rd wr ro rst :: es) = match rd with Some (RdData d) => d | _ => [] end ++ heard i es).
    { cbn [heard flat_map]. destruct rd as [[]|]; try reflexivity. now rewrite Nat.eqb_refl. }
    assert (HN : forall j, j <> i -> heard j (EvMux i rd wr ro rst :: es) = heard j es).
    { intros j N. cbn [heard flat_map]. destruct rd as [[]|]; try reflexivity. destruct (Nat.eqb_spec i j); [congruence|reflexivity]. }
    assert (EC : forall d, rd = Some (RdData d) -> client_b o0 = true -> stream_cmds (pre (s_esc o) d) = []).
    { intros d -> CB. specialize (NC i o0 H0 CB). rewrite HD in NC. destruct (stream_app (fst (st i)) d (heard i es)) as (_ & X & _).
      rewrite X in NC. apply app_eq_nil in NC. rewrite <- Do in NC. exact (proj1 NC). }
    specialize (EV EC).
    assert (DD : match rd with Some (RdData d) => decode o (dstate_of o) d | _ => (dstate_of o, [], []) end =
                 match rd with Some (RdData d) => decode o0 (st i) d | _ => (st i, [], []) end).
    { rewrite Do. destruct rd as [[]|]; try reflexivity. now apply decode_frame. }
    rewrite DD in EV.
    assert (SD : forall d, rd = Some (RdData d) -> client_b o0 = true ->
      fst (fst (fst (decode o0 (st i) d))) = dangling (pre (fst (st i)) d)).
    { intros d _ CB. unfold decode. rewrite CB. reflexivity. }
    cbn [queue_ops]. rewrite H0.
    destruct (match rd with Some (RdData d) => decode o0 (st i) d | _ => (st i, [], []) end) as [[s d'] own] eqn:DE.
    destruct EV as (w1 & out & A & W1 & DA & DB). rewrite A. cbn [bind fst snd].
    set (st1 := fun j => if j =? i then s else st j).
    assert (M1 : matches (w_heap w0) st1 (w_heap w1)).
    { destruct M as [Ma Mb]. split; [|auto]. intros x p Hx. destruct (Ma x p Hx) as (q & Hq & Fq & Dq).
      destruct (DA x q Hq) as (q' & Hq' & (X1 & X2 & _)). exists q'. split; [exact Hq'|]. split; [exact (frame_trans Fq X1)|].
      rewrite X2. unfold st1. destruct (x =? i); [reflexivity|exact Dq]. }
    destruct (IH w1 st1 W1 M1 F') as (w' & l & B & CA & CB).
    { intros j oj Hj CJ. specialize (NC j oj Hj CJ). unfold st1. destruct (Nat.eqb_spec j i) as [->|N].
      - rewrite H0 in Hj. injection Hj as <-. rewrite HD in NC.
        destruct rd as [[| | |d]|]; try (injection DE as <- <- <-; exact NC).
        destruct (stream_app (fst (st i)) d (heard i es)) as (_ & X & _). rewrite X in NC. apply app_eq_nil in NC.
        rewrite <- (SD d eq_refl CJ), DE in NC. exact (proj2 NC).
      - now rewrite HN in NC. }
    rewrite B. cbn [bind fst snd]. do 2 eexists. split; [reflexivity|]. split; [|auto].
    intros x p Hx. destruct (DA x p Hx) as (p1 & H1 & (X1 & X2 & X3)). destruct (CA x p1 H1) as (p' & H' & (Y1 & Y2)).
    exists p'. split; [exact H'|]. split; [exact (frame_trans X1 Y1)|]. 
    fold st1. rewrite FR in X3. rewrite !app_assoc in *.
    pose proof (took_app X1 X3 Y2) as TA. unfold sent_to in *. cbn [flat_map fst snd app]. rewrite (Nat.eqb_sym i x). exact TA.
Qed.

(** ** What the queue operations say *)
Definition relayed (x : op) : Prop := match x with OWrite _ i => i = false | OFlush _ => True | _ => False end.
Lemma ops_relayed h x : forall es st, Forall relayed (queue_ops h x st es).
Proof.
  induction es as [|e es IH]; intros st; cbn [queue_ops]; [constructor|]. destruct e as [| |i rd wr ro rst| | |]; auto.
  destruct (h i) as [o|]; [|auto]. destruct (match rd with Some (RdData d) => _ | _ => _ end) as [[s d] own].
  apply Forall_app. split.
  { destruct (x =? i); [|constructor]. induction own; cbn; constructor; auto. reflexivity. }
  apply Forall_app. split.
  { destruct (mem x (s_readers o)); [|constructor]. destruct d; constructor; [reflexivity|constructor]. }
  apply Forall_app. split; [|apply IH]. destruct (x =? i); [|constructor]. destruct wr; constructor; [exact I|constructor].
Qed.
Lemma queued_messages : forall xs q, Forall relayed xs -> q_eof q = false -> queued CAP q xs = messages xs.
Proof.
  induction xs as [|x xs IH]; intros q F EO; [reflexivity|]. inversion F as [|? ? R F']; subst.
  cbn [queued messages flat_map]. destruct q as [p e c i o]. cbn in EO. subst e.
  destruct x; try contradiction; cbn in R; try subst isInfo; cbn [qstep accepts q_eof negb andb fst].
  - change (accepts {| q_pending := p; q_eof := false; q_client := c; q_quiet := i; q_open := o |} false) with true.
    cbn [fst]. f_equal. now apply IH.
  - apply IH; auto.
Qed.
Lemma fits_small : forall xs q, Forall relayed xs -> length (q_pending q) + length (messages xs) <= CAP -> fits CAP q xs.
Proof.
  induction xs as [|x xs IH]; intros q F L; [exact I|]. inversion F as [|? ? R F']; subst.
  cbn [fits]. destruct q as [p e c i o]. destruct x; try contradiction; cbn [messages flat_map q_pending qstep] in *;
    rewrite app_length in L.
  - split; [intros _; lia|]. apply IH; [exact F'|]. destruct (accepts _ _); cbn [fst q_pending]; [|fold (messages xs) in L; lia].
    unfold enqueue, lastn. rewrite skipn_length, app_length, firstn_length. fold (messages xs) in L. lia.
  - split; [exact I|]. apply IH; [exact F'|]. cbn [fst q_pending]. rewrite skipn_length. cbn in L. fold (messages xs) in L. lia.
Qed.

Lemma not_telnet_own o s d : telnet_b o = false -> snd (decode o s d) = [].
Proof. intros T. unfold decode. rewrite T. destruct (client_b o); reflexivity. Qed.

Lemma messages_app xs ys : messages (xs ++ ys) = messages xs ++ messages ys.
Proof. unfold messages. apply flat_map_app. Qed.
Lemma one_source h x k ok : h k = Some ok ->
  (forall i o, h i = Some o -> (mem x (s_readers o) = true <-> i = k)) ->
  forall es st, (forall o, h x = Some o -> snd (decode o (st x) (heard x es)) = []) ->
    messages (queue_ops h x st es) = snd (fst (decode ok (st k) (heard k es))).
Proof.
  intros Hk S. induction es as [|e es IH]; intros st T; cbn [queue_ops].
  - cbn. now rewrite decode_nil_data.
  - destruct e as [| |i rd wr ro rst| | |]; try (cbn [heard flat_map app] in *; apply IH; exact T).
    assert (HN : forall j, j <> i -> heard j (EvMux i rd wr ro rst :: es) = heard j es).
    { intros j N. cbn [heard flat_map]. destruct rd as [[]|]; try reflexivity. destruct (Nat.eqb_spec i j); [congruence|reflexivity]. }
    assert (HD : heard i (EvMux i rd wr ro rst :: es) = match rd with Some (RdData d) => d | _ => [] end ++ heard i es).
    { cbn [heard flat_map]. destruct rd as [[]|]; try reflexivity. now rewrite Nat.eqb_refl. }
    destruct (h i) as [o|] eqn:Hi.
    2:{ assert (k <> i) by congruence. rewrite HN by assumption. apply IH. intros o Ho. rewrite <- (T o Ho). rewrite HN; [reflexivity|congruence]. }
    destruct (match rd with Some (RdData d) => decode o (st i) d | _ => (st i, [], []) end) as [[s d'] own] eqn:DE.
    assert (OW : x = i -> own = [] /\ snd (decode o s (heard i es)) = []).
    { intros ->. specialize (T o Hi). rewrite HD in T.
      destruct rd as [[| | |d]|]; try (injection DE as <- <- <-; split; [reflexivity|exact T]).
      rewrite decode_app, DE in T. destruct (decode o s (heard i es)) as [[s2 d2] r2]. cbn [snd] in *. now apply app_eq_nil in T. }
    rewrite !messages_app, IH.
    2:{ intros ox Hx. destruct (Nat.eqb_spec x i) as [->|N]; [rewrite Hi in Hx; injection Hx as <-; now apply OW|].
        rewrite <- (T ox Hx), HN by exact N. reflexivity. }
    assert (M1 : messages (if x =? i then map (fun m => OWrite m false) own else []) = []).
    { destruct (Nat.eqb_spec x i) as [e|N]; [|reflexivity]. destruct (OW e) as [-> _]. reflexivity. }
    assert (M3 : messages (if x =? i then match wr with Some rs => [OFlush rs] | None => [] end else []) = []).
    { destruct (x =? i); [|reflexivity]. destruct wr; reflexivity. }
    rewrite M1, M3. cbn [app heard flat_map]. fold (heard k es).
    destruct (Nat.eqb_spec i k) as [->|N].
    + rewrite (proj2 (S k o Hi) eq_refl), Nat.eqb_refl. rewrite Hk in Hi. injection Hi as <-.
      assert (M2 : messages (match d' with [] => [] | _ => [OWrite d' false] end) = d').
      { destruct d'; [reflexivity|]. cbn. now rewrite app_nil_r. }
      rewrite M2. destruct rd as [[| | |d]|]; try (injection DE as <- <- <-; reflexivity).
      rewrite decode_app, DE. destruct (decode ok s (heard k es)) as [[s2 d2] r2]. reflexivity.
    + assert (mem x (s_readers o) = false) as ->.
      { destruct (mem x (s_readers o)) eqn:Q; [|reflexivity]. now apply (S i o Hi) in Q. }
      cbn [messages flat_map app]. destruct (Nat.eqb_spec k i); [congruence|].
      destruct rd as [[| | |d]|]; reflexivity.
Qed.

Lemma fed_mem w x k : WWF w -> fed_only_by (w_heap w) x k ->
  forall i o, w_heap w i = Some o -> (mem x (s_readers o) = true <-> i = k).
Proof.
  intros W F i o Hi. rewrite mem_In. rewrite <- (F i). split.
  - intros H. exists o. auto.
  - intros (o2 & A & B). rewrite Hi in A. injection A as <-. exact B.
Qed.

Lemma flow w es : WWF w -> Forall (traffic w) es -> no_commands w es ->
  exists w' l, outputs E w es = Ok (w', l) /\ all_objs (fun x o o' => frame o o' /\
    (log_b o = false -> exists p p', iov SZ (s_ring o) = Ok p /\ iov SZ (s_ring o') = Ok p' /\
       qrun CAP (queue_of o p) (ops_of w x es) = (queue_of o' p', sent_to x l)) /\
    (log_b o = true -> log_hist SZ (e_dbg E) (e_clock E x) (s_lopt o) (fun _ => e_wbuf E) (s_ring o) (s_stamps o)
       (log_evs (ops_of w x es)) = Ok (s_ring o', s_stamps o', sent_to x l))) (w_heap w) (w_heap w').
Proof.
  intros W T NC.
  destruct (@history_flow w es w (fun i => match w_heap w i with Some o => dstate_of o | None => (false, (-1)%Z) end) W)
    as (w' & l & A & B & C); auto.
  - split; [|auto]. intros x p Hx. exists p. split; [exact Hx|]. split; [apply frame_refl|]. now rewrite Hx.
  - intros i o Hi CB. rewrite Hi. cbn. now apply NC.
  - exists w', l. split; [exact A|]. split; [|exact C]. intros x o Hx. destruct (B x o Hx) as (o' & H' & F & Q).
    exists o'. split; [exact H'|]. split; [exact F|]. split; [|exact (proj2 Q)]. intros LB. apply proj1 in Q. specialize (Q LB).
    assert (W' : RI E (w_heap w')).
    { assert (EV : Forall event_ok es).
      { eapply Forall_impl; [|exact T]. intros e Te. destruct e as [| |i rd wr ro rst| | |]; try contradiction.
        destruct Te as (o1 & _ & _ & _ & _ & RD & _). cbn. destruct RD as [->|[->|(d & -> & Hb)]]; auto. }
      assert (RU : forall es1 w1 w2 l1, outputs E w1 es1 = Ok (w2, l1) -> run E w1 es1 = Ok w2).
      { clear. induction es1 as [|e es1 IH]; intros w1 w2 l1 H; cbn [outputs run] in *; [now injection H as <- _|].
        apply bind_ok in H. destruct H as (r & A & H). rewrite A. cbn [bind]. apply bind_ok in H. destruct H as ([w3 l3] & B & H).
        injection H as <- _. eauto. }
      exact (proj2 (ww_hok (@run_WWF E HE es w w' W EV (RU _ _ _ _ A)))). }
    pose proof (proj2 (ww_hok W) x o Hx) as (I1 & _). pose proof (W' x o' H') as (I2 & _).
    exists (pending SZ (s_ring o)), (pending SZ (s_ring o')). 
    split; [now apply iov_pending|]. split; [now apply iov_pending|]. symmetry. exact Q.
Qed.

Lemma flow_arrives o o' p p' x w es out : iov SZ (s_ring o) = Ok p -> oinv E o -> o_eof (s_ring o) = false ->
  qrun CAP (queue_of o p) (ops_of w x es) = (queue_of o' p', out) -> fits CAP (queue_of o p) (ops_of w x es) ->
  out ++ p' = p ++ messages (ops_of w x es).
Proof.
  intros IP (I1 & _) EO Q F. pose proof (ops_relayed (w_heap w) x es
    (fun i => match w_heap w i with Some o => dstate_of o | None => (false, (-1)%Z) end)) as OR. fold (ops_of w x es) in OR.
  pose proof (@qrun_conserve CAP (queue_of o p) (ops_of w x es)) as C. rewrite Q in C. cbn [fst snd] in C.
  rewrite (queued_messages (queue_of o p) OR EO) in C. symmetry. cbn [q_pending queue_of] in C. apply C; [|clear - OR|exact F].
  - rewrite iov_pending in IP by assumption. injection IP as <-. unfold SZ. 
    pose proof (pending_length I1) as PL. pose proof (nbb_lt I1). lia.
  - eapply Forall_impl; [|exact OR]. intros z Hz. destruct z; cbn in *; auto.
Qed.

(** ** Logs *)
Definition chunks (xs : list op) : list (list Z) :=
  flat_map (fun x => match x with OWrite d _ => [d] | _ => [] end) xs.
Lemma lops_evs : forall xs, lops (log_evs xs) = map LData (chunks xs).
Proof. induction xs as [|x xs IH]; [reflexivity|]. destruct x; try exact IH; exact (f_equal (cons _) IH). Qed.
Lemma concat_chunks : forall xs, concat (chunks xs) = messages xs.
Proof. induction xs as [|x xs IH]; [reflexivity|]. destruct x; try exact IH; exact (f_equal (app _) IH). Qed.
Lemma no_infos xs m : ~ In (VOp (LogModel.LInfo m)) (log_evs xs).
Proof.
  unfold log_evs. rewrite in_flat_map. intros (x & _ & H). destruct x; cbn in H; try destruct H as [H|[]]; try discriminate; contradiction.
Qed.

Lemma roomy_small dbg clock p j : forall es pend ls k ms ls' k',
  log_run SZ dbg clock p (fun _ => j) ls k (lops es) = Ok (ms, ls', k') ->
  length pend + length (concat ms) <= CAP -> roomy SZ dbg clock p (fun _ => j) pend ls k es.
Proof.
  induction es as [|e es IH]; intros pend ls k ms ls' k' H L; [exact I|]. destruct e as [x|rs]; cbn [roomy].
  - change (lops (VOp x :: es)) with (x :: lops es) in H. rewrite log_run_one in H.
    destruct (log_run SZ dbg clock p (fun _ => j) ls k [x]) as [[[ms1 ls1] k1]|] eqn:X; cbn [bind] in H; [|discriminate].
    destruct (log_run SZ dbg clock p (fun _ => j) ls1 k1 (lops es)) as [[[ms2 ls2] k2]|] eqn:Y; cbn [bind] in H; [|discriminate].
    injection H as <- <- <-. rewrite concat_app, app_length in L. split; [lia|]. eapply IH; [exact Y|]. rewrite app_length. lia.
  - change (lops (VFlush rs :: es)) with (lops es) in H. eapply IH; [exact H|]. rewrite skipn_length. lia.
Qed.

Lemma decode_bytes o s d : bytes_ok d -> bytes_ok (snd (fst (decode o s d))).
Proof.
  intros H. unfold decode. destruct (client_b o); [exact (stream_bytes E (fst s) H)|]. destruct (telnet_b o); [|exact H].
  pose proof (trun_bytes (snd s) H) as X. destruct (trun (snd s) d) as [[i dd] rs]. exact X.
Qed.
Lemma heard_bytes w i es : Forall (traffic w) es -> bytes_ok (heard i es).
Proof.
  induction 1 as [|e es T _ IH]; [constructor|]. destruct e as [| |j rd wr ro rst| | |]; try contradiction.
  destruct T as (o & _ & _ & _ & _ & RD & _). unfold heard in *. cbn [flat_map]. apply Forall_app. split; [|exact IH].
  destruct RD as [->|[->|(d & -> & Hb)]]; try constructor. destruct (j =? i); [exact Hb|constructor].
Qed.

Lemma log_flow w es x k ox ok pend ls : WWF w -> Forall (traffic w) es -> no_commands w es ->
  w_heap w x = Some ox -> w_heap w k = Some ok -> log_b ox = true -> fed_only_by (w_heap w) x k ->
  o_kind (s_ring ox) = KLogfile ls -> o_eof (s_ring ox) = false -> o_open (s_ring ox) = true -> iov SZ (s_ring ox) = Ok pend ->
  roomy SZ (e_dbg E) (e_clock E x) (s_lopt ox) (fun _ => e_wbuf E) pend ls (s_stamps ox) (log_evs (ops_of w x es)) ->
  exists w' l ox' rest cs ms ls', outputs E w es = Ok (w', l) /\ w_heap w' x = Some ox' /\ iov SZ (s_ring ox') = Ok rest /\
    concat cs = meant ok (heard k es) /\ Forall bytes_ok cs /\
    log_run SZ (e_dbg E) (e_clock E x) (s_lopt ox) (fun _ => e_wbuf E) ls (s_stamps ox) (map LData cs) = Ok (ms, ls', s_stamps ox') /\
    o_kind (s_ring ox') = KLogfile ls' /\ sent_to x l ++ rest = pend ++ concat ms.
Proof.
  intros W T NC Hx Hk LB FO KI EO OP IP RO. pose proof (proj2 (ww_hok W) x ox Hx) as (I1 & _).
  rewrite iov_pending in IP by assumption. injection IP as <-.
  destruct (flow W T NC) as (w' & l & A & B & _). destruct (B x ox Hx) as (ox' & Hx' & _ & _ & LH). specialize (LH LB).
  destruct (@hist_ok SZ (e_dbg E) (e_clock E x) (s_lopt ox) (fun _ => e_wbuf E) (HSZ HE) (log_evs (ops_of w x es)) (s_ring ox) (s_stamps ox) ls)
    as (r' & sent & ms & ls' & k' & LH2 & LR & I2 & K2 & O2 & EQ); auto.
  { intros m H. exfalso. exact (no_infos _ _ H). }
  rewrite LH in LH2. injection LH2 as <- <- <-. rewrite lops_evs in LR.
  assert (M : concat (chunks (ops_of w x es)) = meant ok (heard k es)).
  { rewrite concat_chunks. unfold ops_of, meant. rewrite (@one_source (w_heap w) x k ok); auto.
    - now rewrite Hk.
    - exact (fed_mem W FO).
    - intros o H. rewrite H. rewrite Hx in H. injection H as <-. apply not_telnet_own.
      unfold telnet_b. rewrite log_b_eq in LB. rewrite console_b_eq. destruct (cls_of ox); try discriminate. apply andb_false_r. }
  exists w', l, ox', (pending SZ (s_ring ox')), (chunks (ops_of w x es)), ms, ls'.
  split; [exact A|]. split; [exact Hx'|]. split; [now apply iov_pending|]. split; [exact M|].
  split; [|split; [exact LR|split; [exact K2|exact EQ]]].
  assert (BB : bytes_ok (concat (chunks (ops_of w x es)))).
  { rewrite M. unfold meant. apply decode_bytes. exact (heard_bytes k T). }
  clear - BB. induction (chunks (ops_of w x es)) as [|c cs IH]; [constructor|]. cbn in BB. apply Forall_app in BB. destruct BB. constructor; auto.
Qed.

(** ** Draining *)
Lemma takes_taken rs n : takes_some rs -> 0 < n -> 0 < taken rs n.
Proof. intros (j & m & rest & -> & M) N. induction j as [|j IH]; cbn [repeat app taken]; [lia|exact IH]. Qed.
Lemma taken_le : forall rs n, taken rs n <= n.
Proof. induction rs as [|r rs IH]; intros n; cbn; [lia|]. destruct r; try lia. apply IH. Qed.
Lemma qrun_drain : forall ws q, Forall takes_some ws -> q_open q = true -> length (q_pending q) <= length ws ->
  snd (qrun CAP q (map OFlush ws)) = q_pending q /\ q_pending (fst (qrun CAP q (map OFlush ws))) = [].
Proof.
  induction ws as [|rs ws IH]; intros [p e c i o] F OP L; cbn [q_open q_pending length map qrun] in *.
  - destruct p; [auto|cbn in L; lia].
  - inversion F as [|? ? T F']; subst. cbn [qstep].
    set (n := taken rs (length p)).
    assert (N : length (skipn n p) <= length ws).
    { rewrite skipn_length. destruct p as [|b p]; [cbn; lia|]. pose proof (@takes_taken rs (length (b :: p)) T ltac:(cbn; lia)). unfold n. cbn [length] in *. lia. }
    destruct (IH (mkQ (skipn n p) e c i true) F' eq_refl N) as [A B].
    destruct (qrun CAP (mkQ (skipn n p) e c i true) (map OFlush ws)) as [q2 s2]. cbn [fst snd q_pending] in *. rewrite A, B.
    split; [apply firstn_skipn|reflexivity].
Qed.
Lemma qrun_cons q x xs : qrun CAP q (x :: xs) =
  (fst (qrun CAP (fst (qstep CAP q x)) xs), snd (qstep CAP q x) ++ snd (qrun CAP (fst (qstep CAP q x)) xs)).
Proof. cbn [qrun]. destruct (qstep CAP q x) as [q1 s1]. cbn [fst snd]. destruct (qrun CAP q1 xs). reflexivity. Qed.
Lemma log_flushes dbg clock p j : forall ws r k r' k' out, Inv SZ r ->
  log_hist SZ dbg clock p j r k (map VFlush ws) = Ok (r', k', out) -> (abs SZ r', out) = qrun CAP (abs SZ r) (map OFlush ws).
Proof.
  induction ws as [|rs ws IH]; intros r k r' k' out I1 H; cbn [map log_hist] in *.
  - injection H as <- _ <-. reflexivity.
  - destruct (@flush_abs SZ r rs (HSZ HE) I1) as (dead & r1 & W & I2 & A & _).
    rewrite W in H. cbn [bind] in H. apply bind_ok in H. destruct H as ([[r2 k2] s2] & H & E2). injection E2 as <- <- <-.
    specialize (IH r1 k r2 k2 s2 I2 H).
    rewrite (@qrun_cons (abs SZ r) (OFlush rs) (map OFlush ws)), <- A, <- IH. reflexivity.
Qed.

Lemma quiet_ops h x : forall es st,
  (forall i o, h i = Some o -> mem x (s_readers o) = true \/ i = x /\ telnet_b o = true -> heard i es = []) ->
  (forall i rd wr ro rst, In (EvMux i rd wr ro rst) es -> h i <> None) ->
  Forall (fun e => exists i rd wr ro rst, e = EvMux i rd wr ro rst) es ->
  queue_ops h x st es = map OFlush (writes_to x es).
Proof.
  induction es as [|e es IH]; intros st Q L M; [reflexivity|]. inversion M as [|? ? (i & rd & wr & ro & rst & ->) M']; subst.
  cbn [queue_ops writes_to flat_map]. rewrite map_app. destruct (h i) as [o|] eqn:Hi.
  2:{ exfalso. refine (L i rd wr ro rst _ Hi). now left. }
  destruct (match rd with Some (RdData d) => _ | _ => _ end) as [[s d] own] eqn:DE.
  rewrite (IH (fun j => if j =? i then s else st j)).
  2:{ intros j oj Hj C. specialize (Q j oj Hj C). unfold heard in Q. cbn [flat_map] in Q. apply app_eq_nil in Q. exact (proj2 Q). }
  2:{ intros j rd0 wr0 ro0 rst0 H. apply (L j rd0 wr0 ro0 rst0). now right. }
  2:{ exact M'. }
  assert (HD : mem x (s_readers o) = true \/ i = x /\ telnet_b o = true -> match rd with Some (RdData d) => d | _ => [] end = []).
  { intros C. specialize (Q i o Hi C). unfold heard in Q. cbn [flat_map] in Q. apply app_eq_nil in Q. destruct Q as [Q _].
    destruct rd as [[]|]; try reflexivity. now rewrite Nat.eqb_refl in Q. }
  assert (A : (if x =? i then map (fun m => OWrite m false) own else []) = []).
  { destruct (Nat.eqb_spec x i) as [->|]; [|reflexivity]. destruct (telnet_b o) eqn:TB.
    - specialize (HD (or_intror (conj eq_refl eq_refl))). destruct rd as [[| | |z]|]; try (injection DE as <- <- <-; reflexivity).
      subst z. destruct (decode_nil o (st i)) as [N|CB]; [rewrite N in DE; injection DE as <- <- <-; reflexivity|].
      unfold decode in DE. rewrite CB in DE. injection DE as _ _ <-. reflexivity.
    - destruct rd as [[| | |z]|]; try (injection DE as <- <- <-; reflexivity).
      pose proof (not_telnet_own o (st i) z TB) as N. rewrite DE in N. cbn in N. now subst own. }
  assert (B : (if mem x (s_readers o) then match d with [] => [] | _ => [OWrite d false] end else []) = []).
  { destruct (mem x (s_readers o)); [|reflexivity]. specialize (HD (or_introl eq_refl)).
    destruct rd as [[| | |z]|]; try (injection DE as <- <- <-; reflexivity).
    subst z. pose proof (decode_nil_data o (st i)) as N. rewrite DE in N. cbn in N. now subst d. }
  rewrite A, B. cbn [app]. f_equal. rewrite (Nat.eqb_sym i x). destruct wr; destruct (x =? i); reflexivity.
Qed.

Lemma drained w es x o p : WWF w -> Forall (traffic w) es -> no_commands w es -> w_heap w x = Some o ->
  iov SZ (s_ring o) = Ok p -> o_open (s_ring o) = true ->
  (forall i, feeds (w_heap w) i x -> heard i es = []) -> (telnet_b o = true -> heard x es = []) ->
  Forall takes_some (writes_to x es) -> length p <= length (writes_to x es) ->
  exists w' l o', outputs E w es = Ok (w', l) /\ w_heap w' x = Some o' /\ iov SZ (s_ring o') = Ok [] /\ sent_to x l = p.
Proof.
  intros W T NC Hx IP OP QF QT TS L. pose proof (proj2 (ww_hok W) x o Hx) as (I1 & _).
  rewrite iov_pending in IP by assumption. injection IP as <-.
  assert (OO : ops_of w x es = map OFlush (writes_to x es)).
  { unfold ops_of. apply quiet_ops.
    - intros i oi Hi [M|[-> TB]]; [apply QF; exists oi; split; [exact Hi|now apply mem_In]|]. rewrite Hx in Hi. injection Hi as <-. auto.
    - intros i rd wr ro rst H. rewrite Forall_forall in T. specialize (T _ H). destruct T as (oi & Hi & _). congruence.
    - eapply Forall_impl; [|exact T]. intros e Te. destruct e as [| |i rd wr ro rst| | |]; try contradiction. eauto 10. }
  destruct (flow W T NC) as (w' & l & A & B & _). destruct (B x o Hx) as (o' & H' & F & Q1 & Q2). exists w', l, o'.
  split; [exact A|]. split; [exact H'|].
  assert (QR : exists p', iov SZ (s_ring o') = Ok p' /\ qrun CAP (queue_of o (pending SZ (s_ring o))) (ops_of w x es) = (queue_of o' p', sent_to x l)).
  { destruct (log_b o) eqn:LB.
    - specialize (Q2 eq_refl). rewrite OO in *.
      assert (LE : log_evs (map OFlush (writes_to x es)) = map VFlush (writes_to x es)).
      { clear. induction (writes_to x es) as [|z l IH]; [reflexivity|]. cbn. f_equal. exact IH. }
      rewrite LE in Q2.
      assert (RI' : Inv SZ (s_ring o')).
      { assert (GI : forall ws r k r' k' out, Inv SZ r -> log_hist SZ (e_dbg E) (e_clock E x) (s_lopt o) (fun _ => e_wbuf E) r k (map VFlush ws) = Ok (r', k', out) -> Inv SZ r').
        { clear - HE. induction ws as [|rs ws IH]; intros r k r' k' out I1 H; cbn [map log_hist] in *; [now injection H as <- _ _|].
          destruct (@flush_abs SZ r rs (HSZ HE) I1) as (dead & r1 & W & I2 & _). rewrite W in H. cbn [bind] in H. apply bind_ok in H.
          destruct H as ([[r2 k2] s2] & H & E2). injection E2 as <- <- <-. eauto. }
        eapply GI; eauto. }
      exists (pending SZ (s_ring o')). split; [now apply iov_pending|]. symmetry. exact (log_flushes _ _ _ _ _ _ I1 Q2).
    - destruct (Q1 eq_refl) as (p & p' & X & Y & Z). rewrite iov_pending in X by assumption. injection X as <-. eauto. }
  destruct QR as (p' & IP' & QR). rewrite OO in QR.
  destruct (@qrun_drain (writes_to x es) (queue_of o (pending SZ (s_ring o))) TS OP L) as [C D]. rewrite QR in C, D. cbn in C, D.
  subst p'. split; [exact IP'|exact C].
Qed.
End Env.
