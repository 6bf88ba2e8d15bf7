(** Exact effects of the operations on sessions. *)
From Verif Require Import Base BaseProof RingModel RingSpec RingProof LogModel LogSpec LogProof
  TelnetModel TelnetSpec TelnetProof EscModel EscSpec EscProof SessModel SessSpec SessInv SessLink SessStep SessWorld SessThread.
Set Implicit Arguments.

Section Env.
Variable E : env.
Hypothesis HE : env_ok E.
Let SZ := e_sz E.
Notation HOK := (HOK E).
Notation evo := (evo E).
Notation WWF := (WWF E).

Lemma quiet_client r : is_client r && is_quiet r = is_quiet r.
Proof. unfold is_client, is_quiet. destruct (o_kind r); cbn; try reflexivity; destruct quiet; reflexivity. Qed.

Lemma put_gets h i o d info : RI E h -> h i = Some o ->
  exists o', put_data E h i d info = Ok (upd h i (Some o')) /\ gets E d info o o' /\ oinv E o'.
Proof.
  intros HR Hi. destruct (put_data_ok HE i d info HR Hi) as (h' & A & S & n & r & B & ->).
  exists (set_ring o r). split; [exact A|].
  assert (OI : oinv E (set_ring o r)) by (apply (sim_RI S i); apply upd_same). split; [|exact OI].
  split; [reflexivity|]. cbn [s_ring set_ring].
  pose proof (HR i o Hi) as (I1 & _). destruct OI as (I2 & _). cbn in I2.
  exists (pending (e_sz E) (s_ring o)). rewrite !iov_pending by assumption. split; [reflexivity|]. f_equal.
  destruct (@write_abs (e_sz E) (s_ring o) d info (HSZ HE) I1) as (n2 & r2 & B2 & _ & AB). unfold SZ in *.
  rewrite B in B2. injection B2 as <- <-. apply (f_equal q_pending) in AB. cbn [abs q_pending qstep] in AB. rewrite AB.
  unfold accepts, abs. cbn [q_eof q_client q_quiet]. rewrite <- (andb_assoc info), quiet_client.
  destruct (o_eof (s_ring o)); [reflexivity|]. destruct (info && is_quiet (s_ring o)); reflexivity.
Qed.

Lemma put_logs h i o d : RI E h -> h i = Some o -> cls_of o = ClLog -> bytes_ok d ->
  exists o', put_log E h i d = Ok (upd h i (Some o')) /\ logs E i d o o' /\ oinv E o'.
Proof.
  intros HR Hi Hc Hd. destruct (put_log_ok HE i HR Hi Hc Hd) as (h' & A & S).
  assert (X := A). unfold put_log in X. rewrite (at_ok _ _ Hi) in X. cbn [bind] in X.
  apply bind_ok in X. destruct X as ([[n r] k] & B & X). injection X as <-.
  exists (set_stamps (set_ring o r) k). split; [exact A|]. split; [exists n, r, k; auto|].
  apply (sim_RI S i). apply upd_same.
Qed.

(** A fold that treats each object of the list once. *)
Lemma fold_each (R : nat -> sobj -> sobj -> Prop) (f : heap -> nat -> res heap) : forall l h,
  NoDup l -> RI E h -> (forall i, In i l -> exists o, h i = Some o) ->
  (forall i h1 o, In i l -> RI E h1 -> h i = Some o -> h1 i = Some o ->
     exists o', f h1 i = Ok (upd h1 i (Some o')) /\ R i o o' /\ oinv E o') ->
  exists h', foldr_res f h l = Ok h' /\ RI E h' /\
    all_objs (fun i o o' => if mem i l then R i o o' else o' = o) h h'.
Proof.
  induction l as [|a l IH]; intros h ND HR HL H; cbn [foldr_res].
  - exists h. split; [reflexivity|]. split; [exact HR|]. split; [|auto]. intros i o Hi. exists o. cbn. auto.
  - inversion ND as [|? ? N1 N2]; subst. destruct (HL a (or_introl eq_refl)) as (oa & Ha).
    destruct (H a h oa (or_introl eq_refl) HR Ha Ha) as (oa' & -> & Ra & Oa). cbn [bind].
    destruct (IH (upd h a (Some oa'))) as (h' & -> & R' & A1 & A2).
    + exact N2.
    + now apply RI_upd.
    + intros i Hi. destruct (HL i (or_intror Hi)) as (o & Ho). exists o. rewrite upd_other; [exact Ho|congruence].
    + intros i h1 o Hi R1 Ho Ho1. apply H; auto; [now right|]. rewrite upd_other in Ho; [exact Ho|congruence].
    + exists h'. split; [reflexivity|]. split; [exact R'|]. split.
      * intros i o Hi. destruct (Nat.eq_dec i a) as [->|N].
        -- destruct (A1 a oa' (upd_same _ _ _)) as (o' & X & Y). exists o'. split; [exact X|].
           apply mem_not in N1. rewrite N1 in Y. rewrite Ha in Hi. injection Hi as <-.
           unfold mem. cbn [existsb]. rewrite Nat.eqb_refl. cbn. now rewrite Y.
        -- destruct (A1 i o) as (o' & X & Y); [now rewrite upd_other|]. exists o'. split; [exact X|].
           unfold mem in *. cbn [existsb]. destruct (Nat.eqb_spec i a); [contradiction|]. exact Y.
      * intros i Hi. apply A2. rewrite upd_other; [exact Hi|]. congruence.
Qed.

Lemma fold_skip {A} (p : A -> bool) (f : heap -> A -> res heap) : forall l h,
  foldr_res (fun h i => if p i then Ok h else f h i) h l = foldr_res f h (filter (fun i => negb (p i)) l).
Proof.
  induction l as [|a l IH]; intros h; cbn [foldr_res filter]; [reflexivity|].
  destruct (p a); cbn [negb foldr_res bind]; [apply IH|]. destruct (f h a); cbn; [apply IH|reflexivity].
Qed.

(** notify_console_objs: one copy for each object linked with the console. *)
Lemma notify_each h k c m : HOK h -> h k = Some c -> cls_of c = ClCons -> m <> [] ->
  exists h', notify E h k m = Ok h' /\
    all_objs (fun i o o' => if mem i (s_readers c) || mem i (s_writers c) then gets E m true o o' else o' = o) h h'.
Proof.
  intros HK Hk Ck Hm. unfold notify. rewrite (at_ok _ _ Hk). cbn [bind].
  rewrite (proj2 (console_b_cls c) Ck). cbn [assert_ bind]. destruct m as [|b m]; [congruence|]. clear Hm.
  set (msg := b :: m).
  destruct (wg_nd (proj1 HK) k (G_of _ _ Hk)) as [ND1 ND2]. cbn in ND1, ND2.
  destruct (@fold_each (fun i => gets E msg true) (fun h i => put_data E h i msg true) (s_readers c) h) as (h1 & -> & R1 & A1 & B1); auto.
  - apply HK.
  - intros i Hi. destruct (read_live k i HK Hk Hi) as (o & X & _). eauto.
  - intros i h1 o _ R1 _ H1. now apply put_gets.
  - cbn [bind]. rewrite (fold_skip (fun i => mem i (s_readers c))).
    set (ws := filter _ _).
    assert (NDW : NoDup ws) by (apply NoDup_filter; exact ND2).
    destruct (@fold_each (fun i => gets E msg true) (fun h i => put_data E h i msg true) ws h1) as (h2 & -> & R2 & A2 & B2); auto.
    + intros i Hi. apply filter_In in Hi. destruct Hi as [Hi _]. destruct (write_live k i HK Hk Hi) as (o & X & _).
      destruct (A1 i o X) as (o' & Y & _). eauto.
    + intros i h2 o _ R2 _ H2. now apply put_gets.
    + exists h2. split; [reflexivity|]. split; [|intros i Hi; now apply B2, B1].
      intros i o Hi. destruct (A1 i o Hi) as (o1 & X1 & Y1). destruct (A2 i o1 X1) as (o2 & X2 & Y2).
      exists o2. split; [exact X2|]. assert (MW : mem i ws = mem i (s_writers c) && negb (mem i (s_readers c))).
      { destruct (mem i ws) eqn:X.
        - apply mem_In in X. apply filter_In in X. destruct X as [X3 X4]. apply mem_In in X3. now rewrite X3, X4.
        - apply mem_not in X. symmetry. apply andb_false_iff.
          destruct (mem i (s_writers c)) eqn:Z1; [|auto]. right. destruct (negb (mem i (s_readers c))) eqn:Z2; [|auto].
          exfalso. apply X. apply filter_In. split; [now apply mem_In|exact Z2]. }
      rewrite MW in Y2. destruct (mem i (s_readers c)); cbn [negb andb orb] in *.
      * rewrite andb_false_r in Y2. now rewrite Y2.
      * rewrite andb_true_r in Y2. rewrite Y1 in Y2. exact Y2.
Qed.

(** Data read from an object goes to each of its readers. *)
Lemma deliver_each h i o d : HOK h -> h i = Some o -> bytes_ok d -> d <> [] ->
  exists h', deliver E h i d = Ok h' /\
    all_objs (fun j p p' => if mem j (s_readers o) then (if log_b p then logs E j d p p' else gets E d false p p') else p' = p) h h'.
Proof.
  intros HK Hi Hd Hne. unfold deliver. destruct d as [|b d]; [congruence|]. clear Hne. set (dd := b :: d) in *.
  rewrite (at_ok _ _ Hi). cbn [bind].
  destruct (wg_nd (proj1 HK) i (G_of _ _ Hi)) as [ND _]. cbn in ND.
  destruct (@fold_each (fun j p p' => if log_b p then logs E j dd p p' else gets E dd false p p')
    (fun h r => do x <- at_ h r; if log_b x then put_log E h r dd else put_data E h r dd false) (s_readers o) h)
    as (h' & -> & R' & A & B); auto.
  - apply HK.
  - intros j Hj. destruct (read_live i j HK Hi Hj) as (p & X & _). eauto.
  - intros j h1 p _ R1 _ H1. rewrite (at_ok _ _ H1). cbn [bind]. destruct (log_b p) eqn:LB.
    + apply log_b_cls in LB. now apply put_logs.
    + now apply put_gets.
  - exists h'. split; [reflexivity|]. split; assumption.
Qed.

(** ** Stealing *)
Lemma link_arrival h s d os od : HOK h -> may_link (G h) s d -> h s = Some os -> h d = Some od ->
  cls_of os = ClClient -> cls_of od = ClCons ->
  exists h1 h', notify E h d (e_txt E (NArrived s d (stealing h s d))) = Ok h1 /\ sim E h h1 /\
    link_objs E h s d = Ok h' /\ mv E (linkg h s d) h h' /\ HOK h' /\ eofmono E h1 h'.
Proof.
  intros HK M Hs Hd Cs Cd. assert (HR : RI E h) by apply HK.
  assert (ST : stealing h s d = r_force (s_req os) && negb (length (s_writers od) =? 0)).
  { unfold stealing. rewrite Hs, Hd. rewrite (proj2 (client_b_cls os) Cs), (proj2 (console_b_cls od) Cd). reflexivity. }
  set (st := stealing h s d) in *.
  destruct (notify_ok HE d (e_txt E (NArrived s d st)) HK Hd Cd) as (h1 & A1 & S1).
  destruct (link_objs_ok HE HK M) as (h' & A & MV & K'). exists h1, h'. split; [exact A1|]. split; [exact S1|].
  split; [exact A|]. split; [exact MV|]. split; [exact K'|].
  pose proof (sim_HOK S1 HK) as K1.
  unfold link_objs in A. rewrite (at_ok _ _ Hs), (at_ok _ _ Hd) in A. cbn [bind] in A.
  rewrite (proj2 (client_b_cls os) Cs), (proj2 (console_b_cls od) Cd) in A. cbn [andb] in A. cbv zeta in A.
  rewrite <- ST in A. fold st in A. rewrite A1 in A. cbn [bind] in A.
  destruct (@fold_sim E _ (fun h w => do x <- at_ h w;
      if client_b x then put_data E h s (e_txt E (NWith w d st)) true else UB NullDeref) (s_writers od) h1 (sim_RI S1))
    as (h2 & B2 & S2).
  { intros w ha Hw Sa. pose proof (sim_trans S1 Sa) as Sa'.
    destruct (write_live d w HK Hd Hw) as (ow & A0 & _ & T).
    destruct (sim_some w Sa' A0) as (ow' & A' & Gw). rewrite (at_ok _ _ A'). cbn [bind].
    apply gn_parts in Gw. destruct Gw as (Cw & _).
    assert (client_b ow' = true) as ->.
    { apply client_b_cls. rewrite Cw. rewrite Cd in T. destruct (cls_of ow); cbn in T; congruence. }
    destruct (sim_some s Sa' Hs) as (os' & B' & _).
    destruct (put_data_ok HE s (e_txt E (NWith w d st)) true (sim_RI Sa) B') as (hb & P1 & P2 & _). eauto. }
  rewrite B2 in A. cbn [bind] in A. pose proof (sim_trans S1 S2) as S12. pose proof (sim_HOK S12 HK) as K2.
  destruct (sim_some d S12 Hd) as (od2 & Hd2 & G2). apply gn_parts in G2. destruct G2 as (_ & _ & W2 & _).
  assert (X : exists h3, (if st then foldr_res (fun h w => do d0 <- at_ h d;
                  if mem w (s_writers d0) then unlink_obj E h w else Ok h) h2 (s_writers od) else Ok h2) = Ok h3 /\
              eofmono E h2 h3 /\ (forall i oa ob, h2 i = Some oa -> h3 i = Some ob -> cls_of ob = cls_of oa) /\
              (forall i o, h2 i = Some o -> exists o', h3 i = Some o')).
  { destruct st.
    - destruct (@steal_ok E HE h2 d od2 K2 Hd2 (s_writers od) [] h2) as (h3 & C1 & C2 & C3); [exact W2|exact K2| |].
      + eapply mv_geq; [apply geq_sym, isos_nil|]. apply mv_refl, K2.
      + exists h3. split; [exact C1|]. split; [apply C3|]. split.
        * intros i oa ob Ha Hb. destruct (isos_at i (proj1 C3) Ha) as (ob' & X & _ & _ & Y). congruence.
        * intros i o Hi. destruct (isos_at i (proj1 C3) Hi) as (ob' & X & _). eauto.
    - exists h2. split; [reflexivity|]. split; [apply eofmono_refl|]. split; [intros; congruence|eauto]. }
  destruct X as (h3 & B3 & M3 & C3 & L3). rewrite B3 in A. cbn [bind] in A.
  assert (M5 : eofmono E h3 h').
  { apply bind_ok in A. destruct A as (s1 & X1 & A). apply bind_ok in A. destruct A as (u1 & _ & A).
    apply bind_ok in A. destruct A as (h4 & X2 & A). apply bind_ok in A. destruct A as (d1 & X3 & A).
    apply bind_ok in A. destruct A as (u2 & _ & A). apply bind_ok in A. destruct A as (h5 & X4 & A).
    apply bind_ok in A. destruct A as (u3 & _ & A). apply bind_ok in A. destruct A as (u4 & _ & A). injection A as <-.
    assert (MM : forall ha i f hb, modify ha i f = Ok hb -> (forall o, s_ring (f o) = s_ring o) -> eofmono E ha hb).
    { intros ha i f hb X F. unfold modify in X. apply bind_ok in X. destruct X as (o & Y & X). injection X as <-.
      unfold at_ in Y. destruct (ha i) as [o1|] eqn:Hi; [|discriminate]. injection Y as ->.
      intros j p Hj _. unfold upd. destruct (Nat.eqb_spec j i) as [->|].
      - exists (f o). split; [reflexivity|]. rewrite Hi in Hj. injection Hj as <-. rewrite F. apply kept_refl.
      - exists p. split; [exact Hj|apply kept_refl]. }
    pose proof (MM _ _ _ _ X2 (fun _ => eq_refl)) as Y1. pose proof (MM _ _ _ _ X4 (fun _ => eq_refl)) as Y2.
    eapply eofmono_trans; [|exact Y1|exact Y2].
    intros i oa ob Ha Hb. unfold modify in X2. rewrite X1 in X2. cbn in X2. injection X2 as <-. unfold upd in Hb.
    destruct (Nat.eqb_spec i s) as [->|]; [|congruence]. injection Hb as <-.
    unfold at_ in X1. rewrite Ha in X1. injection X1 as ->. reflexivity. }
  assert (M2 : eofmono E h1 h2) by apply S2.
  eapply eofmono_trans; [|exact M2|eapply eofmono_trans; [exact C3|exact M3|exact M5]].
  intros i oa ob Ha Hb. eapply geq_cls; [exact (proj1 S2)|exact Ha|exact Hb].
Qed.

(** ** What linking leaves alone: requests, and the modes of clients *)
Definition same (o o' : sobj) : Prop :=
  s_req o' = s_req o /\ (client_b o = true -> o_kind (s_ring o') = o_kind (s_ring o)).
Definition sames (h h' : heap) : Prop := forall i o, h i = Some o -> exists o', h' i = Some o' /\ same o o'.

Lemma same_client o o' : same o o' -> client_b o = true -> client_b o' = true.
Proof. intros [_ H] C. unfold client_b in *. now rewrite (H C). Qed.
Lemma same_refl o : same o o. Proof. split; auto. Qed.
Lemma same_trans a b c : same a b -> same b c -> same a c.
Proof.
  intros H K. split; [destruct H, K; congruence|]. intros C. pose proof (same_client H C) as C2.
  destruct H as [_ H], K as [_ K]. rewrite (K C2). auto.
Qed.
Lemma sames_refl h : sames h h. Proof. intros i o H. exists o. split; [exact H|apply same_refl]. Qed.
Lemma sames_trans a b c : sames a b -> sames b c -> sames a c.
Proof.
  intros H K i o Hi. destruct (H i o Hi) as (o1 & A & B). destruct (K i o1 A) as (o2 & C & D).
  exists o2. split; [exact C|eapply same_trans; eauto].
Qed.
Lemma sames_upd h i o o' : h i = Some o -> same o o' -> sames h (upd h i (Some o')).
Proof.
  intros Hi S j p Hj. unfold upd. destruct (Nat.eqb_spec j i) as [->|].
  - rewrite Hi in Hj. injection Hj as <-. eauto.
  - exists p. split; [exact Hj|apply same_refl].
Qed.
Lemma at_some h i o : at_ h i = Ok o -> h i = Some o.
Proof. unfold at_. destruct (h i); [|discriminate]. now intros X; injection X as <-. Qed.

Lemma write_client o d i n o' : write_obj_data SZ o d i = Ok (n, o') ->
  (match o_kind o with KClient _ _ => true | _ => false end) = true -> o_kind o' = o_kind o.
Proof.
  intros H HC. unfold write_obj_data in H. destruct d as [|b src]; [now injection H as _ <-|].
  destruct (o_eof o); [now injection H as _ <-|]. destruct (i && is_client o && is_quiet o); [now injection H as _ <-|].
  apply bind_ok in H. destruct H as (u & _ & H).
  apply bind_ok in H. destruct H as (c1 & _ & H).
  apply bind_ok in H. destruct H as (b1 & _ & H).
  apply bind_ok in H. destruct H as ([b2 i2] & _ & H).
  apply bind_ok in H. destruct H as (v & _ & H). injection H as _ <-.
  destruct (negb (is_suspended o)); cbn; destruct (o_kind o); reflexivity || discriminate.
Qed.

Lemma put_sames h i d f h' : put_data E h i d f = Ok h' -> sames h h'.
Proof.
  unfold put_data. intros H. apply bind_ok in H. destruct H as (o & A & H). apply at_some in A.
  apply bind_ok in H. destruct H as ([n r] & B & H). injection H as <-.
  apply sames_upd with o; [exact A|]. split; [reflexivity|]. intros C. cbn. eapply write_client; eauto.
Qed.
Lemma modify_sames h i f h' : modify h i f = Ok h' -> (forall o, same o (f o)) -> sames h h'.
Proof.
  unfold modify. intros H S. apply bind_ok in H. destruct H as (o & A & H). apply at_some in A. injection H as <-.
  eapply sames_upd; eauto.
Qed.
Lemma fold_sames {A} (f : heap -> A -> res heap) : (forall h a h', f h a = Ok h' -> sames h h') ->
  forall l h h', foldr_res f h l = Ok h' -> sames h h'.
Proof.
  intros F. induction l as [|a l IH]; intros h h' H; cbn [foldr_res] in H.
  - injection H as <-. apply sames_refl.
  - apply bind_ok in H. destruct H as (h1 & A1 & H). eapply sames_trans; eauto.
Qed.
Lemma notify_sames h k m h' : notify E h k m = Ok h' -> sames h h'.
Proof.
  unfold notify. intros H. apply bind_ok in H. destruct H as (o & _ & H). apply bind_ok in H. destruct H as (u & _ & H).
  destruct m as [|b m]; [injection H as <-; apply sames_refl|].
  apply bind_ok in H. destruct H as (h1 & A & H).
  eapply sames_trans; [eapply fold_sames; [|exact A]|eapply fold_sames; [|exact H]].
  - intros ha a hb X. exact (put_sames _ _ _ _ X).
  - intros ha a hb X. cbn beta in X. destruct (mem a (s_readers o)); [injection X as <-; apply sames_refl|]. eapply put_sames; eauto.
Qed.
Lemma unlink_objs_sames h s d h' : unlink_objs E h s d = Ok h' -> sames h h'.
Proof.
  unfold unlink_objs. intros H.
  apply bind_ok in H. destruct H as (h1 & A1 & H). apply bind_ok in H. destruct H as (d0 & _ & H).
  apply bind_ok in H. destruct H as (h2 & A2 & H). apply bind_ok in H. destruct H as (s1 & _ & H).
  apply bind_ok in H. destruct H as (h3 & A3 & H). apply bind_ok in H. destruct H as (s2 & _ & H).
  apply bind_ok in H. destruct H as (d2 & _ & H). apply bind_ok in H. destruct H as (h4 & A4 & H).
  apply bind_ok in H. destruct H as (u & _ & H). apply bind_ok in H. destruct H as (v & _ & H). injection H as <-.
  eapply sames_trans; [eapply modify_sames; [exact A1|intros; split; auto]|].
  eapply sames_trans; [eapply modify_sames; [exact A2|intros; split; auto]|].
  eapply sames_trans.
  - destruct (mem s (s_writers d0) && client_b s1 && console_b d0); [eapply notify_sames; exact A3|].
    injection A3 as <-. apply sames_refl.
  - destruct (client_b s2 && no_links s2); [|destruct (client_b d2 && no_links d2)].
    + apply bind_ok in A4. destruct A4 as (w & _ & A4). eapply modify_sames; [exact A4|intros; split; auto].
    + apply bind_ok in A4. destruct A4 as (w & _ & A4). eapply modify_sames; [exact A4|intros; split; auto].
    + injection A4 as <-. apply sames_refl.
Qed.
Lemma unlink_obj_sames h x h' : unlink_obj E h x = Ok h' -> sames h h'.
Proof.
  assert (W : forall n h h', unlink_writers E n h x = Ok h' -> sames h h').
  { induction n as [|n IH]; intros ha hb H; cbn [unlink_writers] in H; apply bind_ok in H; destruct H as (o & _ & H);
      destruct (s_writers o); try (injection H as <-; apply sames_refl); try discriminate.
    apply bind_ok in H. destruct H as (h1 & A & H). eapply sames_trans; [eapply unlink_objs_sames; exact A|eauto]. }
  assert (R : forall n h h', unlink_readers E n h x = Ok h' -> sames h h').
  { induction n as [|n IH]; intros ha hb H; cbn [unlink_readers] in H; apply bind_ok in H; destruct H as (o & _ & H);
      destruct (s_readers o); try (injection H as <-; apply sames_refl); try discriminate.
    apply bind_ok in H. destruct H as (h1 & A & H). eapply sames_trans; [eapply unlink_objs_sames; exact A|eauto]. }
  unfold unlink_obj. intros H. apply bind_ok in H. destruct H as (o & _ & H).
  apply bind_ok in H. destruct H as (h1 & A & H). apply bind_ok in H. destruct H as (o1 & _ & H).
  eapply sames_trans; eauto.
Qed.
Lemma link_sames h s d h' : link_objs E h s d = Ok h' -> sames h h'.
Proof.
  unfold link_objs. intros H.
  apply bind_ok in H. destruct H as (s0 & _ & H). apply bind_ok in H. destruct H as (d0 & _ & H).
  apply bind_ok in H. destruct H as (h3 & A3 & H). apply bind_ok in H. destruct H as (s1 & _ & H).
  apply bind_ok in H. destruct H as (u1 & _ & H). apply bind_ok in H. destruct H as (h4 & A4 & H).
  apply bind_ok in H. destruct H as (d1 & _ & H). apply bind_ok in H. destruct H as (u2 & _ & H).
  apply bind_ok in H. destruct H as (h5 & A5 & H).
  apply bind_ok in H. destruct H as (u & _ & H). apply bind_ok in H. destruct H as (v & _ & H). injection H as <-.
  eapply sames_trans; [|eapply sames_trans; [eapply modify_sames; [exact A4|intros; split; auto]|
                                             eapply modify_sames; [exact A5|intros; split; auto]]].
  destruct (client_b s0 && console_b d0); [|injection A3 as <-; apply sames_refl].
  cbv zeta in A3. apply bind_ok in A3. destruct A3 as (h1 & B1 & A3). apply bind_ok in A3. destruct A3 as (h2 & B2 & A3).
  eapply sames_trans; [eapply notify_sames; exact B1|]. eapply sames_trans.
  - eapply fold_sames; [|exact B2]. intros ha w hb X. cbn beta in X. apply bind_ok in X. destruct X as (y & _ & X).
    destruct (client_b y); [eapply put_sames; eauto|discriminate].
  - destruct (r_force (s_req s0) && negb (length (s_writers d0) =? 0)); [|injection A3 as <-; apply sames_refl].
    eapply fold_sames; [|exact A3]. intros ha w hb X. cbn beta in X. apply bind_ok in X. destruct X as (y & _ & X).
    destruct (mem w (s_writers y)); [eapply unlink_obj_sames; eauto|injection X as <-; apply sames_refl].
Qed.
Lemma open_console_sames h k ro h' : open_console E h k ro = Ok h' -> sames h h'.
Proof.
  unfold open_console. intros H. apply bind_ok in H. destruct H as (o & A & H). apply at_some in A.
  apply bind_ok in H. destruct H as (u & _ & H). cbv zeta in H. apply bind_ok in H. destruct H as (h2 & B & H).
  eapply sames_trans; [|eapply sames_trans; [eapply fold_sames; [|exact B]|eapply fold_sames; [|exact H]]].
  - apply sames_upd with o; [exact A|]. split; [reflexivity|]. intros _. cbn.
    destruct (ro_open ro), (ro_close ro); cbn; unfold open_fd; cbn; try reflexivity;
      destruct (o_open (s_ring o)); reflexivity.
  - intros ha a hb X. exact (notify_sames _ _ _ X).
  - intros ha a hb X. exact (put_sames _ _ _ _ X).
Qed.
Lemma check_sames h k c ro h' : check_console_state E h k c ro = Ok h' -> sames h h'.
Proof.
  unfold check_console_state. intros H. apply bind_ok in H. destruct H as (o & _ & H). cbv zeta in H.
  assert (T : forall hx hy, (do h1 <- put_data E hx c (e_txt E (NDown k)) true; open_console E h1 k ro) = Ok hy -> sames hx hy).
  { intros hx hy X. apply bind_ok in X. destruct X as (h1 & A & X). eapply sames_trans; [eapply put_sames; exact A|eapply open_console_sames; eauto]. }
  destruct (s_type o); try destruct (negb (o_open (s_ring o))); try destruct (s_state o);
    first [injection H as <-; apply sames_refl | eapply T; exact H | eapply put_sames; exact H].
Qed.
Lemma tstep_sames h c x ro h' : do_tstep E h c x ro = Ok h' -> sames h h'.
Proof. destruct x; cbn [do_tstep]; [apply link_sames|apply link_sames|apply check_sames]. Qed.

(** ** One link from a client to a console *)
Lemma to_link w t c k todo o : WWF w -> nth_error (w_thr w) t = Some (TRun c (ToConsole k :: todo)) ->
  w_heap w c = Some o -> cls_of o = ClClient /\ (exists ok, w_heap w k = Some ok /\ cls_of ok = ClCons) /\ may_link (G (w_heap w)) c k.
Proof.
  intros W Ht Hc. pose proof (ww_hok W) as HK.
  destruct (ww_thr W t Ht) as (LT & CO & TK).
  destruct (TK (gn o) (G_of _ _ Hc)) as [Cc TO]. cbn in Cc.
  destruct (CO k) as (nk & Hk & Ck); [now left|]. apply G_some in Hk. destruct Hk as (ok & Hk & <-).
  cbn in Ck. split; [exact Cc|]. split; [eauto|].
  assert (NR : ~ In k (s_readers o)).
  { unfold todo_ok in TO. cbn in TO. destruct (r_bcast (s_req o)).
    - destruct TO as (ks & [T|(k' & T)] & _ & TD); [|discriminate]. apply TD. destruct ks; [discriminate|].
      cbn in T. injection T as -> _. now left.
    - destruct TO as [T|[(k' & T & _)|(k' & T & _ & ->)]]; [discriminate|discriminate|]. intros []. }
  exists (gn o), (gn ok). split; [now apply G_of|]. split; [now apply G_of|]. cbn.
  split; [rewrite Cc, Ck; reflexivity|]. split; [exact NR|]. split.
  - intros X. destruct (write_live k c HK Hk X) as (o2 & A & B & _). rewrite Hc in A. injection A as <-. contradiction.
  - split; [|congruence]. intros _ EB. unfold todo_ok in TO. cbn in TO. rewrite EB in TO.
    destruct TO as [T|[(k' & T & _)|(k' & T & TW & TR)]]; [discriminate|discriminate|].
    rewrite TW, TR. split; [reflexivity|]. intros z [].
Qed.

Lemma stealing_force h c k oc ok : h c = Some oc -> h k = Some ok -> cls_of oc = ClClient -> cls_of ok = ClCons ->
  stealing h c k = r_force (s_req oc) && negb (length (s_writers ok) =? 0).
Proof.
  intros Hc Hk Cc Ck. unfold stealing. rewrite Hc, Hk, (proj2 (client_b_cls oc) Cc), (proj2 (console_b_cls ok) Ck). reflexivity.
Qed.

(** The link graph afterwards. *)
Lemma link_writers h h' c k oc ok : HOK h -> may_link (G h) c k -> mv E (linkg h c k) h h' ->
  h c = Some oc -> h k = Some ok -> cls_of oc = ClClient -> cls_of ok = ClCons ->
  let f := r_force (s_req oc) in
  (exists ok', h' k = Some ok' /\ s_writers ok' = (if f then [] else s_writers ok) ++ [c]) /\
  (forall j oj, j <> k -> j <> c -> h j = Some oj -> exists oj', h' j = Some oj' /\ cls_of oj' = cls_of oj /\
     s_readers oj' = (if f then drop (s_writers ok) j (s_readers oj) else s_readers oj) /\
     s_writers oj' = (if f then drop (s_writers ok) j (s_writers oj) else s_writers oj)) /\
  ~ In c (s_writers ok) /\ ~ In k (s_writers ok).
Proof.
  intros HK ML M Hc Hk Cc Ck f.
  assert (NC : ~ In c (s_writers ok)).
  { destruct ML as (ns & nd & A & B & _ & _ & N & _). rewrite (G_of _ _ Hk) in B. injection B as <-. exact N. }
  assert (NK : ~ In k (s_writers ok)).
  { intros X. destruct (write_live k k HK Hk X) as (oa & A & _ & B). rewrite Hk in A. injection A as <-. now apply typed_neq in B. }
  assert (CK : c <> k) by (intros ->; rewrite Hc in Hk; injection Hk as <-; congruence).
  pose proof (stealing_force h c k Hc Hk Cc Ck) as ST. fold f in ST.
  assert (BS : forall j oj, h j = Some oj -> base h c k j = Some (mkG (cls_of oj)
      (if f then drop (s_writers ok) j (s_readers oj) else s_readers oj)
      (if f then drop (s_writers ok) j (s_writers oj) else s_writers oj) (r_bcast (s_req oj)) (s_log oj))).
  { intros j oj Hj. unfold base. rewrite Hk, ST. destruct f; cbn [andb]; [|now rewrite (G_of _ _ Hj)].
    destruct (s_writers ok) as [|w ws] eqn:EW; cbn [length Nat.eqb negb].
    - rewrite (G_of _ _ Hj). unfold gn. now rewrite !drop_nil.
    - unfold isos. now rewrite (gmap_of _ _ _ _ (G_of _ _ Hj)). }
  pose proof (proj1 M) as Q.
  split; [|split; [|split; assumption]].
  - pose proof (Q k) as Qk. unfold linkg, joing in Qk. rewrite (gmap_of _ _ _ _ (BS k ok Hk)) in Qk.
    unfold at1 in Qk. rewrite Nat.eqb_refl in Qk. destruct (Nat.eqb_spec k c); [congruence|].
    apply G_some in Qk. destruct Qk as (ok' & A & B). exists ok'. split; [exact A|]. cbn [g_wr] in B.
    apply (f_equal g_wr) in B. cbn [gn g_wr] in B. rewrite B. f_equal. destruct f; [|reflexivity].
    destruct (drop (s_writers ok) k (s_writers ok)) as [|z l] eqn:D; [reflexivity|].
    assert (X : In z (drop (s_writers ok) k (s_writers ok))) by (rewrite D; now left). apply drop_In in X. tauto.
  - intros j oj Nk Nc Hj. pose proof (Q j) as Qj. unfold linkg, joing in Qj. rewrite (gmap_of _ _ _ _ (BS j oj Hj)) in Qj.
    unfold at1 in Qj. destruct (Nat.eqb_spec j k); [congruence|]. destruct (Nat.eqb_spec j c); [congruence|].
    apply G_some in Qj. destruct Qj as (oj' & A & B). exists oj'. split; [exact A|]. unfold gn in B. injection B as B1 B2 B3 B4 B5. auto.
Qed.

Definition gone (h : heap) (v : nat) : Prop :=
  exists ov, h v = Some ov /\ cls_of ov = ClClient /\ unlinked ov /\ o_eof (s_ring ov) = true.

Lemma drop_nil_r ws i : drop ws i [] = [].
Proof. unfold drop. destruct (mem i ws); reflexivity. Qed.

Lemma gone_link h h' c k oc ok v : HOK h -> may_link (G h) c k -> mv E (linkg h c k) h h' ->
  h c = Some oc -> h k = Some ok -> cls_of oc = ClClient -> cls_of ok = ClCons ->
  v <> c -> gone h v -> gone h' v.
Proof.
  intros HK ML M Hc Hk Cc Ck Nc (ov & Hv & Cv & [U1 U2] & Ev).
  destruct (link_writers HK ML M Hc Hk Cc Ck) as (_ & L & _).
  assert (Nk : v <> k) by (intros ->; rewrite Hk in Hv; injection Hv as <-; congruence).
  destruct (L v ov Nk Nc Hv) as (ov' & A & C & R & W). exists ov'. split; [exact A|]. split; [congruence|].
  split.
  - unfold unlinked. rewrite R, W, U1, U2. rewrite !drop_nil_r. destruct (r_force (s_req oc)); auto.
  - destruct M as (_ & _ & M & _). destruct (M v ov Hv Cv) as (o2 & X & Y & _). rewrite A in X. injection X as <-. auto.
Qed.
Lemma gone_new h h' c k oc ok v : HOK h -> may_link (G h) c k -> mv E (linkg h c k) h h' ->
  h c = Some oc -> h k = Some ok -> cls_of oc = ClClient -> cls_of ok = ClCons ->
  r_force (s_req oc) = true -> In v (s_writers ok) -> gone h' v.
Proof.
  intros HK ML M Hc Hk Cc Ck F Hv.
  destruct (link_writers HK ML M Hc Hk Cc Ck) as (_ & L & N1 & N2). rewrite F in L.
  destruct (write_live k v HK Hk Hv) as (ov & A & B & T).
  assert (Cv : cls_of ov = ClClient) by (rewrite Ck in T; destruct (cls_of ov); cbn in T; congruence).
  destruct (L v ov) as (ov' & A' & C & R & W); [intros ->; contradiction|intros ->; contradiction|exact A|].
  assert (DV : forall l, drop (s_writers ok) v l = []) by (intros; unfold drop; now rewrite (proj2 (mem_In v (s_writers ok)) Hv)).
  rewrite !DV in *. exists ov'. split; [exact A'|]. split; [congruence|]. split; [split; assumption|].
  destruct M as (_ & _ & _ & M). destruct (M v ov ov' A A' Cv) as [[U _]|]; [split; assumption| |assumption].
  rewrite U in B. destruct B.
Qed.

(** ** A whole connect request *)
Definition conn (h0 : heap) (c : nat) (f : bool) (sel dn : list nat) (h : heap) : Prop :=
  (exists oc, h c = Some oc /\ cls_of oc = ClClient /\ r_force (s_req oc) = f) /\
  (forall k ok0, In k sel -> h0 k = Some ok0 -> exists ok, h k = Some ok /\ cls_of ok = ClCons /\
    (if mem k dn then s_writers ok = (if f then [] else s_writers ok0) ++ [c]
     else incl (s_writers ok) (s_writers ok0) /\ (f = false -> s_writers ok = s_writers ok0)) /\
    (f = true -> forall v, In v (s_writers ok0) -> In v (s_writers ok) \/ gone h v)).

Lemma conn_to h0 h h' c k f sel dn : HOK h -> may_link (G h) c k -> mv E (linkg h c k) h h' -> sames h h' ->
  (forall k ok0, In k sel -> h0 k = Some ok0 -> ~ In c (s_writers ok0)) -> h0 c = None ->
  mem k dn = false -> (exists ok0, h0 k = Some ok0) -> In k sel ->
  conn h0 c f sel dn h -> conn h0 c f sel (k :: dn) h'.
Proof.
  intros HK ML M SM FR H0 Hdn (ok0 & Hk0) Hsel ((oc & Hc & Cc & Fc) & C).
  destruct (C k ok0 Hsel Hk0) as (ok & Hk & Ck & Dk & Gk). rewrite Hdn in Dk.
  destruct (link_writers HK ML M Hc Hk Cc Ck) as ((ok' & Hk' & Wk') & L & NC & NK). rewrite Fc in *.
  split.
  - destruct (SM c oc Hc) as (oc' & A & S). exists oc'. split; [exact A|]. split.
    + apply client_b_cls. eapply same_client; [exact S|]. now apply client_b_cls.
    + destruct S as [S _]. now rewrite S.
  - intros j oj0 Hj Hj0. destruct (Nat.eq_dec j k) as [->|N].
    + rewrite Hk0 in Hj0. injection Hj0 as <-. exists ok'. split; [exact Hk'|]. split.
      * apply (@gcls_heap h h' (linkg h c k)) with (i := k) (oa := ok) (ob := ok') in Hk; auto; [congruence|apply M|].
        intros i n n' X Y. unfold linkg, joing in Y. destruct (base_at h c k i X) as (n1 & Z & _ & Z2 & _).
        rewrite (gmap_of _ _ _ _ Z) in Y. injection Y as <-. exact Z2.
      * unfold mem. cbn [existsb]. rewrite Nat.eqb_refl. cbn [orb]. split.
        -- rewrite Wk'. destruct f; [reflexivity|]. destruct Dk as [_ Dk]. now rewrite Dk.
        -- intros -> v Hv. right. destruct (Gk eq_refl v Hv) as [X|X].
           ++ eapply gone_new; eauto.
           ++ eapply gone_link; eauto. intros ->. eapply FR; eauto.
    + destruct (C j oj0 Hj Hj0) as (oj & A & Cj & Dj & Gj).
      assert (Nc : j <> c) by (intros ->; congruence).
      destruct (L j oj N Nc A) as (oj' & A' & C' & R' & W'). exists oj'. split; [exact A'|]. split; [congruence|].
      assert (MJ : mem j (k :: dn) = mem j dn).
      { unfold mem. cbn [existsb]. destruct (Nat.eqb_spec j k); [contradiction|reflexivity]. }
      rewrite MJ. rewrite W'. split.
      * destruct (mem j dn); destruct f; auto.
        -- rewrite Dj. cbn [app]. unfold drop.
           assert (JN : ~ In j (s_writers ok)).
           { intros X. destruct (write_live k j HK Hk X) as (o2 & Y & _ & T). rewrite A in Y. injection Y as <-. rewrite Cj, Ck in T. discriminate. }
           rewrite (proj2 (mem_not j (s_writers ok)) JN). unfold keep. cbn [filter].
           rewrite (proj2 (mem_not c (s_writers ok)) NC). reflexivity.
        -- split; [|discriminate]. intros v Hv. apply drop_In in Hv. apply (proj1 Dj). tauto.
      * intros -> v Hv. destruct (Gj eq_refl v Hv) as [X|X].
        -- destruct (mem v (s_writers ok)) eqn:MV.
           ++ apply mem_In in MV. right. eapply gone_new; eauto.
           ++ left. apply drop_In. split; [exact X|]. split; [now apply mem_not|].
              intros Y. destruct (write_live k j HK Hk Y) as (o2 & Z & _ & T). rewrite A in Z. injection Z as <-. rewrite Cj, Ck in T. discriminate.
        -- right. eapply gone_link; eauto. intros ->. eapply FR; eauto.
Qed.

Lemma gone_evo h h' v : evo any h h' -> geq (G h') (G h) -> gone h v -> gone h' v.
Proof.
  intros A Q (ov & Hv & Cv & [U1 U2] & Ev). pose proof (Q v) as Qv. rewrite (G_of _ _ Hv) in Qv.
  apply G_some in Qv. destruct Qv as (ov' & H' & X). apply gn_parts in X. destruct X as (X1 & X2 & X3 & _).
  exists ov'. split; [exact H'|]. split; [congruence|]. assert (U : unlinked ov') by (split; congruence).
  split; [exact U|]. destruct (ev_cl A v I Hv H' Cv) as (_ & _ & B). destruct (B U) as [|[_ Y]]; [assumption|congruence].
Qed.
Lemma conn_geq h0 h h' c f sel dn : geq (G h') (G h) -> sames h h' -> (forall v, gone h v -> gone h' v) ->
  conn h0 c f sel dn h -> conn h0 c f sel dn h'.
Proof.
  intros Q SM GG ((oc & Hc & Cc & Fc) & C). split.
  - destruct (SM c oc Hc) as (oc' & A & S). exists oc'. split; [exact A|]. split.
    + apply client_b_cls. eapply same_client; [exact S|]. now apply client_b_cls.
    + destruct S as [S _]. now rewrite S.
  - intros k ok0 Hk H0. destruct (C k ok0 Hk H0) as (ok & A & B & D & F).
    pose proof (Q k) as Qv. rewrite (G_of _ _ A) in Qv.
    apply G_some in Qv. destruct Qv as (ok' & H' & X). apply gn_parts in X. destruct X as (X1 & X2 & X3 & _).
    exists ok'. split; [exact H'|]. split; [congruence|]. rewrite X3. split; [exact D|].
    intros Ff v Hv. destruct (F Ff v Hv); auto.
Qed.
(** the link back from the console changes nobody's list of writers but the client's *)
Lemma conn_from h0 h h' c k ok f sel dn : HOK h -> h k = Some ok -> cls_of ok = ClCons -> mv E (linkg h k c) h h' -> sames h h' ->
  h0 c = None -> (forall k ok0, In k sel -> h0 k = Some ok0 -> ~ In c (s_writers ok0)) ->
  conn h0 c f sel dn h -> conn h0 c f sel dn h'.
Proof.
  intros HK Hk Ck M SM H0 FR ((oc & Hc & Cc & Fc) & C).
  assert (BS : base h k c = G h).
  { unfold base, stealing. rewrite Hk, Hc. assert (client_b ok = false) as ->; [|reflexivity].
    rewrite client_b_eq, Ck. reflexivity. }
  pose proof (proj1 M) as Q. unfold linkg in Q. rewrite BS in Q.
  assert (L : forall j oj, j <> c -> h j = Some oj -> exists oj', h' j = Some oj' /\ cls_of oj' = cls_of oj /\
      s_writers oj' = s_writers oj /\ (j <> k -> s_readers oj' = s_readers oj)).
  { intros j oj N Hj. pose proof (Q j) as Qj. unfold joing in Qj. rewrite (gmap_of _ _ _ _ (G_of _ _ Hj)) in Qj.
    unfold at1 in Qj. destruct (Nat.eqb_spec j c); [congruence|].
    apply G_some in Qj. destruct Qj as (oj' & A & B). exists oj'. split; [exact A|]. unfold gn in B. injection B as B1 B2 B3 B4 B5.
    split; [exact B1|]. split; [exact B3|]. intros NK. destruct (Nat.eqb_spec j k); [contradiction|exact B2]. }
  split.
  - destruct (SM c oc Hc) as (oc' & A & S). exists oc'. split; [exact A|]. split.
    + apply client_b_cls. eapply same_client; [exact S|]. now apply client_b_cls.
    + destruct S as [S _]. now rewrite S.
  - intros j ok0 Hj Hj0. destruct (C j ok0 Hj Hj0) as (oj & A & B & D & F).
    assert (Nc : j <> c) by (intros ->; congruence).
    destruct (L j oj Nc A) as (oj' & A' & C' & W' & _). exists oj'. split; [exact A'|]. split; [congruence|].
    rewrite W'. split; [exact D|]. intros Ff v Hv. destruct (F Ff v Hv) as [X|(ov & X1 & X2 & [X3 X4] & X5)]; [auto|]. right.
    destruct (L v ov) as (ov' & A1 & A2 & A3 & A4); [intros ->; eapply FR; eauto|exact X1|].
    assert (NK : v <> k) by (intros ->; rewrite Hk in X1; injection X1 as <-; congruence).
    exists ov'. split; [exact A1|]. split; [congruence|]. split; [split; [rewrite A4; auto|congruence]|].
    destruct M as (_ & _ & M & _). destruct (M v ov X1 X2) as (o2 & Y & Z & _). rewrite A1 in Y. injection Y as <-. auto.
Qed.

Lemma from_link w t c k todo o : WWF w -> nth_error (w_thr w) t = Some (TRun c (FromConsole k :: todo)) ->
  w_heap w c = Some o -> cls_of o = ClClient /\ (exists ok, w_heap w k = Some ok /\ cls_of ok = ClCons) /\ may_link (G (w_heap w)) k c.
Proof.
  intros W Ht Hc. pose proof (ww_hok W) as HK.
  destruct (ww_thr W t Ht) as (LT & CO & TK).
  destruct (TK (gn o) (G_of _ _ Hc)) as [Cc TO]. cbn in Cc.
  destruct (CO k) as (nk & Hk & Ck); [now left|]. apply G_some in Hk. destruct Hk as (ok & Hk & <-).
  cbn in Ck. split; [exact Cc|]. split; [eauto|].
  assert (TO' : r_bcast (s_req o) = false /\ s_writers o = [] /\ incl (s_readers o) [k] /\ todo = [CheckState k]).
  { unfold todo_ok in TO. cbn in TO. destruct (r_bcast (s_req o)).
    - destruct TO as (ks & [T|(k' & T)] & _ & TD); [|discriminate]. destruct ks; discriminate.
    - destruct TO as [T|[(k' & T & T2 & T3)|(k' & T & _)]]; [discriminate| |discriminate].
      injection T as <- ->. auto. }
  destruct TO' as (EB & EW & ER & ->).
  exists (gn ok), (gn o). split; [now apply G_of|]. split; [now apply G_of|]. cbn.
  split; [rewrite Cc, Ck; reflexivity|]. split.
  - intros X. destruct (read_live k c HK Hk X) as (o2 & A & B & _). rewrite Hc in A. injection A as <-.
    rewrite EW in B. exact B.
  - rewrite EW. split; [intros []|]. split; [congruence|]. intros _. split; [exact EB|]. split; [reflexivity|].
    intros z Hz. apply ER in Hz. destruct Hz as [<-|[]]. reflexivity.
Qed.

Lemma step_run w t c x todo sent ro h1 : nth_error (w_thr w) t = Some (TRun c (x :: todo)) ->
  do_tstep E (w_heap w) c x ro = Ok h1 -> step E w (EvThread t sent ro) = Ok (set_thr (set_heap w h1) t (TRun c todo), []).
Proof. intros Ht A. cbn [step]. rewrite Ht, A. reflexivity. Qed.
Lemma thr_set w h1 t x y : nth_error (w_thr w) t = Some y -> nth_error (w_thr (set_thr (set_heap w h1) t x)) t = Some x.
Proof. intros Ht. change (nth_error (puts (w_thr w) t x) t = Some x). rewrite (nth_puts E _ _ _ _ Ht). now rewrite Nat.eqb_refl. Qed.
Lemma thr_set0 w t x y : nth_error (w_thr w) t = Some y -> nth_error (w_thr (set_thr w t x)) t = Some x.
Proof. intros Ht. change (nth_error (puts (w_thr w) t x) t = Some x). rewrite (nth_puts E _ _ _ _ Ht). now rewrite Nat.eqb_refl. Qed.

Lemma run_end t e : forall ros w, nth_error (w_thr w) t = Some (TEnd e) -> run E w (alone t ros) = Ok w.
Proof.
  induction ros as [|r ros IH]; intros w H; [reflexivity|]. cbn [alone map run step]. rewrite H. cbn [bind fst]. now apply IH.
Qed.

Section Conn.
Variable h0 : heap.
Variables (t c : nat) (f : bool) (sel : list nat).
Hypothesis H0 : h0 c = None.
Hypothesis FR : forall k ok0, In k sel -> h0 k = Some ok0 -> ~ In c (s_writers ok0).
Hypothesis LV : forall k, In k sel -> exists ok0, h0 k = Some ok0.

Lemma conn_do_to w dn k todo ro : WWF w -> nth_error (w_thr w) t = Some (TRun c (ToConsole k :: todo)) ->
  conn h0 c f sel dn (w_heap w) -> In k sel -> mem k dn = false ->
  exists h1, step E w (EvThread t true ro) = Ok (set_thr (set_heap w h1) t (TRun c todo), []) /\
    WWF (set_thr (set_heap w h1) t (TRun c todo)) /\ conn h0 c f sel (k :: dn) h1.
Proof.
  intros W Ht C Hs Hd. assert (C2 := C). destruct C2 as ((oc & Hc & Cc & Fc) & _).
  destruct (to_link t W Ht Hc) as (_ & (ok & Hk & Ck) & ML).
  destruct (link_objs_ok HE (ww_hok W) ML) as (h1 & A & M & K1).
  destruct (link_step HE t ro W Ht Hc eq_refl) as (h1' & A' & W' & _).
  assert (h1' = h1) as -> by (cbn [do_tstep] in A'; congruence).
  exists h1. split; [now apply step_run with (x := ToConsole k)|]. split; [exact W'|].
  eapply conn_to with (h := w_heap w); eauto; [apply W|]. eapply link_sames; eauto.
Qed.
Lemma conn_do_from w dn k todo ro : WWF w -> nth_error (w_thr w) t = Some (TRun c (FromConsole k :: todo)) ->
  conn h0 c f sel dn (w_heap w) ->
  exists h1, step E w (EvThread t true ro) = Ok (set_thr (set_heap w h1) t (TRun c todo), []) /\
    WWF (set_thr (set_heap w h1) t (TRun c todo)) /\ conn h0 c f sel dn h1.
Proof.
  intros W Ht C. assert (C2 := C). destruct C2 as ((oc & Hc & Cc & Fc) & _).
  destruct (from_link t W Ht Hc) as (_ & (ok & Hk & Ck) & ML).
  destruct (link_objs_ok HE (ww_hok W) ML) as (h1 & A & M & K1).
  destruct (link_step HE t ro W Ht Hc eq_refl) as (h1' & A' & W' & _).
  assert (h1' = h1) as -> by (cbn [do_tstep] in A'; congruence).
  exists h1. split; [now apply step_run with (x := FromConsole k)|]. split; [exact W'|].
  eapply conn_from with (h := w_heap w); eauto; [apply W|]. eapply link_sames; eauto.
Qed.
Lemma conn_do_check w dn k todo ro : WWF w -> nth_error (w_thr w) t = Some (TRun c (CheckState k :: todo)) ->
  conn h0 c f sel dn (w_heap w) ->
  exists h1, step E w (EvThread t true ro) = Ok (set_thr (set_heap w h1) t (TRun c todo), []) /\
    WWF (set_thr (set_heap w h1) t (TRun c todo)) /\ conn h0 c f sel dn h1.
Proof.
  intros W Ht C. assert (C2 := C). destruct C2 as ((oc & Hc & Cc & Fc) & _).
  destruct (check_step HE t ro W Ht Hc) as (h1 & A & W' & B).
  destruct (ww_thr W t Ht) as (_ & CO & _). destruct (CO k) as (nk & Hk & Ck); [now left|].
  apply G_some in Hk. destruct Hk as (ok & Hk & <-). cbn in Ck.
  destruct (check_ok HE k c ro (ww_hok W) Hk Ck Hc) as (h1' & A' & _ & Q).
  assert (h1' = h1) as -> by (cbn [do_tstep] in A; congruence).
  exists h1. split; [now apply step_run with (x := CheckState k)|]. split; [exact W'|].
  eapply conn_geq; [exact Q|eapply check_sames; eauto| |exact C]. intros v. now apply gone_evo.
Qed.
Lemma conn_do_end w ros dn : nth_error (w_thr w) t = Some (TRun c []) -> conn h0 c f sel dn (w_heap w) -> 0 < length ros ->
  exists w', run E w (alone t ros) = Ok w' /\ nth_error (w_thr w') t = Some (TEnd ERR_NONE) /\ conn h0 c f sel dn (w_heap w').
Proof.
  intros Ht C L. destruct ros as [|r ros]; [cbn in L; lia|]. cbn [alone map run step]. rewrite Ht. cbn [bind fst].
  exists (set_thr w t (TEnd ERR_NONE)). assert (X := thr_set0 w t (TEnd ERR_NONE) Ht).
  split; [now apply run_end with ERR_NONE|]. split; [exact X|exact C].
Qed.

Lemma run_bcast : forall ks w dn ros, WWF w -> nth_error (w_thr w) t = Some (TRun c (bprog ks)) ->
  conn h0 c f sel dn (w_heap w) -> (forall k, In k ks -> In k sel /\ mem k dn = false) -> NoDup ks ->
  2 * length ks < length ros ->
  exists w', run E w (alone t ros) = Ok w' /\ nth_error (w_thr w') t = Some (TEnd ERR_NONE) /\
    conn h0 c f sel (rev ks ++ dn) (w_heap w').
Proof.
  induction ks as [|k ks IH]; intros w dn ros W Ht C HS ND L.
  - apply conn_do_end; [exact Ht|exact C|cbn in L; lia].
  - cbn [length] in L. destruct ros as [|r1 [|r2 ros]]; cbn [length] in L; try lia.
    cbn [alone map run]. inversion ND as [|? ? N1 N2]; subst. destruct (HS k (or_introl eq_refl)) as [S1 S2].
    change (bprog (k :: ks)) with (ToConsole k :: CheckState k :: bprog ks) in Ht.
    destruct (conn_do_to (dn := dn) r1 W Ht C S1 S2) as (h1 & -> & W1 & C1). cbn [bind fst].
    assert (T1 := thr_set w h1 t (TRun c (CheckState k :: bprog ks)) Ht).
    destruct (conn_do_check (dn := k :: dn) r2 W1 T1 C1) as (h2 & -> & W2 & C2). cbn [bind fst].
    set (w1 := set_thr (set_heap w h1) t (TRun c (CheckState k :: bprog ks))) in *.
    assert (T2 := thr_set w1 h2 t (TRun c (bprog ks)) T1).
    destruct (IH _ (k :: dn) ros W2 T2 C2) as (w' & A & B & D); [|exact N2|lia|].
    + intros j Hj. destruct (HS j (or_intror Hj)) as [X Y]. split; [exact X|].
      unfold mem. cbn [existsb]. destruct (Nat.eqb_spec j k) as [->|]; [contradiction|exact Y].
    + exists w'. split; [exact A|]. split; [exact B|]. cbn [rev]. rewrite <- app_assoc. exact D.
Qed.
Lemma run_single k w ros : WWF w -> nth_error (w_thr w) t = Some (TRun c [ToConsole k; FromConsole k; CheckState k]) ->
  conn h0 c f sel [] (w_heap w) -> In k sel -> 3 < length ros ->
  exists w', run E w (alone t ros) = Ok w' /\ nth_error (w_thr w') t = Some (TEnd ERR_NONE) /\
    conn h0 c f sel [k] (w_heap w').
Proof.
  intros W Ht C HS L. destruct ros as [|r1 [|r2 [|r3 ros]]]; cbn [length] in L; try lia. cbn [alone map run].
  destruct (conn_do_to (dn := []) r1 W Ht C HS eq_refl) as (h1 & -> & W1 & C1). cbn [bind fst].
  assert (T1 := thr_set w h1 t (TRun c [FromConsole k; CheckState k]) Ht).
  set (w1 := set_thr (set_heap w h1) t (TRun c [FromConsole k; CheckState k])) in *.
  destruct (conn_do_from (dn := [k]) r2 W1 T1 C1) as (h2 & -> & W2 & C2). cbn [bind fst].
  assert (T2 := thr_set w1 h2 t (TRun c [CheckState k]) T1).
  set (w2 := set_thr (set_heap w1 h2) t (TRun c [CheckState k])) in *.
  destruct (conn_do_check (dn := [k]) r3 W2 T2 C2) as (h3 & -> & W3 & C3). cbn [bind fst].
  assert (T3 := thr_set w2 h3 t (TRun c []) T2).
  apply conn_do_end; [exact T3|exact C3|lia].
Qed.
End Conn.

Lemma connect_alone w t q m ros : WWF w -> nth_error (w_thr w) t = Some (TStart q m) -> r_cmd q = CmdConnect ->
  3 + 3 * length (w_objs w) <= length ros ->
  exists w' e, run E w (alone t ros) = Ok w' /\ nth_error (w_thr w') t = Some (TEnd e) /\
    (e <> ERR_NONE -> w_heap w' = w_heap w /\ w_objs w' = w_objs w) /\
    (e = ERR_NONE -> forall k, matching w m k -> exists ok ok', w_heap w k = Some ok /\ w_heap w' k = Some ok' /\
       s_writers ok' = (if r_force q then [] else s_writers ok) ++ [w_next w] /\
       (r_force q = true -> forall v, In v (s_writers ok) -> gone (w_heap w') v) /\
       (r_force q = false -> r_join q = false -> s_writers ok = [])).
Proof.
  intros W Ht Hq L. destruct ros as [|r1 ros]; [cbn in L; lia|]. cbn [alone map run step]. rewrite Ht.
  destruct (admit_ok q m W) as (r & A & P). unfold SZ in *. rewrite A. cbn [bind fst].
  destruct r as [e|(q', sel)].
  - exists (set_thr w t (TEnd e)), e. pose proof (thr_set0 w t (TEnd e) Ht) as T.
    split; [now apply run_end with e|]. split; [exact T|]. split; [auto|].
    intros ->. exfalso. revert A. unfold admit.
    destruct (query (w_heap w) m (w_objs w)) as [s1|]; [|discriminate]. cbn [bind].
    destruct (length s1 =? 0); [discriminate|].
    destruct (length s1 =? 1); cbn [r_cmd r_bcast r_force r_join orb]; rewrite Hq; cbn [orb].
    + destruct (r_force q || r_join q); [discriminate|]. destruct (any_busy (w_heap w) s1) as [b|]; [|discriminate].
      cbn [bind]. destruct b; discriminate.
    + destruct (r_bcast q); [|discriminate]. destruct (r_force q || r_join q); [discriminate|].
      destruct (any_busy (w_heap w) s1) as [b|]; [|discriminate]. cbn [bind]. destruct b; discriminate.
  - destruct P as (ND & NE & SP & Q1 & Q2 & Q3 & Q4 & Q5 & Q6 & Q7 & Q8).
    set (w1 := set_thr w t (TGranted q' sel)).
    assert (W1 : WWF w1).
    { pose proof (step_ok HE (EvThread t true r1) W I) as S. unfold step in S. rewrite Ht, A in S. cbn in S. apply S. }
    assert (T1 : nth_error (w_thr w1) t = Some (TGranted q' sel)) by (exact (thr_set0 w t _ Ht)).
    assert (LS : length sel <= length (w_objs w)).
    { apply NoDup_incl_length; [exact ND|]. intros k Hk. apply SP in Hk. apply Hk. }
    assert (LP : 1 <= length sel) by (destruct sel; [congruence|cbn; lia]).
    cbn [length] in L. destruct ros as [|r2 ros]; [cbn [length] in L; lia|]. cbn [length] in L.
    cbn [map run step]. rewrite T1. cbn [negb bind fst].
    set (c := w_next w1). set (w2 := set_thr _ t (TRun c _)).
    assert (W2 : WWF w2) by exact (create_step HE t W1 T1).
    assert (T2 : nth_error (w_thr w2) t = Some (TRun c (program (r_cmd q') sel))).
    { unfold w2. eapply thr_set0. exact T1. }
    assert (H0 : w_heap w c = None).
    { destruct (w_heap w c) as [o|] eqn:X; [|reflexivity]. assert (Y : In c (w_objs w)) by (apply (ww_live W), live_some; eauto).
      apply (ww_fresh W) in Y. unfold c in Y. cbn in Y. lia. }
    assert (LIVEK : forall k, In k sel -> exists ok0, w_heap w k = Some ok0 /\ cls_of ok0 = ClCons).
    { intros k Hk. apply SP in Hk. destruct Hk as (_ & _ & (o & X & Y)). exists o. split; [exact X|]. now apply console_b_cls. }
    assert (FR : forall k ok0, In k sel -> w_heap w k = Some ok0 -> ~ In c (s_writers ok0)).
    { intros k ok0 _ Hk X. destruct (write_live k c (ww_hok W) Hk X) as (oc & Y & _). congruence. }
    assert (C0 : conn (w_heap w) c (r_force q) sel [] (w_heap w2)).
    { split.
      - exists (new_client E q'). split; [cbn; apply upd_same|]. split; [reflexivity|exact Q2].
      - intros k ok0 Hk Hk0. destruct (LIVEK k Hk) as (ok1 & X & Y). rewrite Hk0 in X. injection X as <-.
        exists ok0. assert (k <> c) by congruence. split; [cbn; rewrite upd_other; auto|]. split; [exact Y|].
        cbn [mem existsb]. split; [split; [apply incl_refl|reflexivity]|auto]. }
    assert (FIN : exists dn w', run E w2 (alone t ros) = Ok w' /\ nth_error (w_thr w') t = Some (TEnd ERR_NONE) /\
               conn (w_heap w) c (r_force q) sel dn (w_heap w') /\ (forall k, In k sel -> mem k dn = true)).
    { assert (LV : forall k, In k sel -> exists ok0, w_heap w k = Some ok0) by (intros k Hk; destruct (LIVEK k Hk) as (o & X & _); eauto).
      assert (PR : (exists k, sel = [k] /\ program (r_cmd q') sel = [ToConsole k; FromConsole k; CheckState k]) \/
                   program (r_cmd q') sel = bprog sel).
      { rewrite Q1, Hq. destruct sel as [|k [|k2 sel]]; [congruence|left; exists k; auto|right; reflexivity]. }
      destruct PR as [(k & -> & PR)|PR]; rewrite PR in T2.
      - destruct (@run_single (w_heap w) t c (r_force q) [k] H0 FR LV k w2 ros W2 T2 C0 (or_introl eq_refl)) as (w' & X & Y & Z); [cbn [length] in *; lia|].
        exists [k], w'. split; [exact X|]. split; [exact Y|]. split; [exact Z|]. intros j [<-|[]]. cbn. now rewrite Nat.eqb_refl.
      - destruct (@run_bcast (w_heap w) t c (r_force q) sel H0 FR LV sel w2 [] ros W2 T2 C0) as (w' & X & Y & Z); [intros k Hk; auto|exact ND|lia|].
        exists (rev sel ++ []), w'. split; [exact X|]. split; [exact Y|]. split; [exact Z|].
        intros j Hj. apply mem_In. rewrite app_nil_r. now apply in_rev in Hj. }
    destruct FIN as (dn & w' & X & Y & (_ & C) & DN). exists w', ERR_NONE. split; [exact X|]. split; [exact Y|].
    split; [congruence|]. intros _ k Hk. apply SP in Hk. destruct (LIVEK k Hk) as (ok & K1 & K2).
    destruct (C k ok Hk K1) as (ok' & K3 & _ & K4 & K5). rewrite (DN k Hk) in K4.
    exists ok, ok'. split; [exact K1|]. split; [exact K3|]. split; [exact K4|]. split.
    + intros F v Hv. destruct (K5 F v Hv) as [Z|Z]; [|exact Z]. rewrite K4, F in Z. cbn in Z. destruct Z as [<-|[]].
      exfalso. eapply FR; eauto.
    + intros F J. destruct (s_writers ok) eqn:EW; [reflexivity|]. exfalso. apply (Q8 Hq F J k Hk). exists ok. split; [exact K1|congruence].
Qed.
End Env.
