(** Every operation of the daemon keeps the sessions consistent. *)
From Verif Require Import Base BaseProof RingModel RingSpec RingProof LogModel LogSpec LogProof
  TelnetModel TelnetSpec TelnetProof EscModel EscSpec EscProof SessModel SessSpec SessInv SessLink.
Set Implicit Arguments.

(** How a client's place in the graph may change by other hands: it loses links;
    or it is a client with a console to read from, changing what it likes. *)
Definition gevo (n n' : gnode) : Prop :=
  g_bc n' = g_bc n /\ g_cls n' = g_cls n /\
  ((incl (g_rd n') (g_rd n) /\ incl (g_wr n') (g_wr n)) \/ (g_bc n = false /\ g_wr n <> [])).

Lemma gevo_refl n : gevo n n.
Proof. split; [reflexivity|]. split; [reflexivity|]. left. split; apply incl_refl. Qed.
Lemma gevo_trans a b c : gevo a b -> gevo b c -> gevo a c.
Proof.
  intros (A1 & A2 & A3) (B1 & B2 & B3). split; [congruence|]. split; [congruence|].
  destruct A3 as [[I1 I2]|]; [|auto]. destruct B3 as [[J1 J2]|[J1 J2]].
  - left. split; eapply incl_tran; eauto.
  - right. split; [congruence|]. intros X. rewrite X in I2. apply J2. destruct (g_wr b); [reflexivity|].
    exfalso. apply (I2 n). now left.
Qed.

Section Env.
Variable E : env.
Hypothesis HE : env_ok E.
Let SZ := e_sz E.

Notation HOK := (HOK E).

Record evo (P : bool -> nat -> Prop) (h h' : heap) : Prop := mkEvo {
  ev_hok : HOK h';
  ev_keep : forall i o, h i = Some o -> exists o', h' i = Some o' /\ cls_of o' = cls_of o;
  ev_new : forall i, h i = None -> h' i = None;
  ev_rd : forall c o o', P false c -> h c = Some o -> h' c = Some o' -> cls_of o = ClClient ->
    incl (s_readers o') (s_readers o) /\ incl (s_writers o') (s_writers o);
  ev_cl : forall c o o', P true c -> h c = Some o -> h' c = Some o' -> cls_of o = ClClient ->
    gevo (gn o) (gn o') /\ o_open (s_ring o') = o_open (s_ring o) /\
    (unlinked o' -> o_eof (s_ring o') = true \/ (unlinked o /\ o_eof (s_ring o) = false)) }.

(** [P true]: objects whose open and end-of-file marks are accounted for;
    [P false]: objects that gain no links. *)
Definition any (b : bool) (i : nat) : Prop := True.
Definition by_ (c : nat) (b : bool) (i : nat) : Prop := b = true \/ i <> c.
Definition sw (c : nat) (xs : list scmd) (b : bool) (i : nat) : Prop :=
  b = true \/ i <> c \/ existsb switches xs = false.

Lemma evo_refl P h : HOK h -> evo P h h.
Proof.
  intros H. constructor; auto.
  - intros i o Hi. eauto.
  - intros c o o' _ A B _. rewrite A in B. injection B as <-. split; apply incl_refl.
  - intros c o o' _ A B _. rewrite A in B. injection B as <-. split; [apply gevo_refl|]. split; [reflexivity|].
    intros U. destruct (o_eof (s_ring o)) eqn:X; auto.
Qed.
Lemma evo_trans P a b c : evo P a b -> evo P b c -> evo P a c.
Proof.
  intros A B. constructor.
  - apply (ev_hok B).
  - intros i o Hi. destruct (ev_keep A i Hi) as (o1 & H1 & C1). destruct (ev_keep B i H1) as (o2 & H2 & C2).
    exists o2. split; [exact H2|congruence].
  - intros i Hi. apply (ev_new B), (ev_new A), Hi.
  - intros x o o' Px Hx Hx' Hc. destruct (ev_keep A x Hx) as (o1 & H1 & C1).
    destruct (ev_rd A x Px Hx H1 Hc) as (R1 & W1).
    destruct (ev_rd B x Px H1 Hx') as (R2 & W2); [congruence|]. split; eapply incl_tran; eauto.
  - intros x o o' Px Hx Hx' Hc. destruct (ev_keep A x Hx) as (o1 & H1 & C1).
    destruct (ev_cl A x Px Hx H1 Hc) as (G1 & O1 & U1).
    destruct (ev_cl B x Px H1 Hx') as (G2 & O2 & U2); [congruence|].
    split; [eapply gevo_trans; eauto|]. split; [congruence|].
    intros U. destruct (U2 U) as [|[X Y]]; [auto|]. destruct (U1 X) as [|]; [congruence|auto].
Qed.
Lemma evo_weak (P Q : bool -> nat -> Prop) h h' : (forall b i, Q b i -> P b i) -> evo P h h' -> evo Q h h'.
Proof. intros H A. constructor; [apply A|apply A|apply A| |]; intros c o o' Qc; [apply (ev_rd A)|apply (ev_cl A)]; auto. Qed.

Lemma mv_evo (P : bool -> nat -> Prop) g' h h' : HOK h' -> mv E g' h h' ->
  (forall i n, G h i = Some n -> exists n', g' i = Some n' /\ g_cls n' = g_cls n /\
      (P true i -> g_cls n = ClClient -> gevo n n') /\
      (P false i -> g_cls n = ClClient -> incl (g_rd n') (g_rd n) /\ incl (g_wr n') (g_wr n))) ->
  (forall i, G h i = None -> g' i = None) ->
  evo P h h'.
Proof.
  intros HK (Q & R & M & F) H1 H2. constructor.
  - exact HK.
  - intros i o Hi. destruct (H1 i (gn o) (G_of _ _ Hi)) as (n' & A & B & _). rewrite <- Q in A. apply G_some in A.
    destruct A as (o' & X & Y). exists o'. split; [exact X|]. rewrite <- Y in B. exact B.
  - intros i Hi. assert (X : G h i = None) by (unfold G; now rewrite Hi). apply H2 in X. rewrite <- Q in X.
    unfold G in X. destruct (h' i); [discriminate|reflexivity].
  - intros c o o' Pc Hc Hc' Cc. destruct (H1 c (gn o) (G_of _ _ Hc)) as (n' & A & B & _ & C).
    rewrite <- Q, (G_of _ _ Hc') in A. injection A as <-. now apply C.
  - intros c o o' Pc Hc Hc' Cc. destruct (H1 c (gn o) (G_of _ _ Hc)) as (n' & A & B & C & _).
    rewrite <- Q, (G_of _ _ Hc') in A. injection A as <-. split; [now apply C|].
    destruct (M c o Hc Cc) as (o2 & X & K1 & K2 & K3 & K4). rewrite Hc' in X. injection X as <-. split; [exact K3|].
    intros U. destruct (F c o o' Hc Hc' Cc U) as [Y|]; [|auto].
    destruct (o_eof (s_ring o)) eqn:Z; auto.
Qed.

Lemma sim_evo P h h' : HOK h -> sim E h h' -> evo P h h'.
Proof.
  intros HK S. apply mv_evo with (g' := G h); [eapply sim_HOK; eauto|now apply sim_mv| |auto].
  intros i n Hn. exists n. split; [exact Hn|]. split; [reflexivity|]. split; intros _ _; [apply gevo_refl|].
  split; apply incl_refl.
Qed.

(** Removing links *)
Lemma gmap_evo (P : bool -> nat -> Prop) g' h h' fr fw : HOK h' -> mv E g' h h' -> geq g' (gmap (G h) fr fw) ->
  (forall i l, incl (fr i l) l) -> (forall i l, incl (fw i l) l) -> evo P h h'.
Proof.
  intros HK M Q R W. apply mv_evo with (g' := g'); auto.
  - intros i n Hn. rewrite Q. eexists. split; [apply gmap_of, Hn|]. split; [reflexivity|].
    split; intros _ _; [|cbn; auto]. split; [reflexivity|]. split; [reflexivity|]. left. cbn. auto.
  - intros i Hi. rewrite Q. unfold gmap. now rewrite Hi.
Qed.
Lemma isos_evo P h h' ws : HOK h' -> mv E (isos ws (G h)) h h' -> evo P h h'.
Proof.
  intros HK M. eapply gmap_evo; [exact HK|exact M|apply geq_refl| |].
  - intros i l y. rewrite drop_In. tauto.
  - intros i l y. rewrite drop_In. tauto.
Qed.
Lemma cut_evo P h h' s d : HOK h' -> mv E (cutg s d (G h)) h h' -> evo P h h'.
Proof.
  intros HK M. eapply gmap_evo; [exact HK|exact M|apply geq_refl| |]; intros i l y; unfold at1;
    match goal with |- context [if ?b then _ else _] => destruct b end; rewrite ?del_In; tauto.
Qed.

(** Adding a link: everybody but the client concerned loses links only. *)
Lemma base_at h s d i n : G h i = Some n -> exists n', base h s d i = Some n' /\
  g_bc n' = g_bc n /\ g_cls n' = g_cls n /\ g_log n' = g_log n /\
  incl (g_rd n') (g_rd n) /\ incl (g_wr n') (g_wr n).
Proof.
  intros Hn. unfold base. destruct (stealing h s d); [|exists n; auto 9 using incl_refl].
  destruct (h d) as [od|]; [|exists n; auto 9 using incl_refl].
  eexists. split; [apply gmap_of, Hn|]. cbn. repeat split; auto; intros y; rewrite drop_In; tauto.
Qed.
Lemma base_none h s d i : G h i = None -> base h s d i = None.
Proof.
  intros Hn. unfold base. destruct (stealing h s d); [|exact Hn]. destruct (h d); [|exact Hn].
  unfold isos, gmap. now rewrite Hn.
Qed.
Lemma link_evo (P : bool -> nat -> Prop) h h' s d : HOK h' -> mv E (linkg h s d) h h' ->
  (forall n, G h s = Some n -> g_cls n = ClClient -> ~ P false s /\ (~ P true s \/ (g_bc n = false /\ g_wr n <> []))) ->
  (forall n, G h d = Some n -> g_cls n = ClClient -> ~ P false d /\ (~ P true d \/ (g_bc n = false /\ g_wr n <> []))) ->
  evo P h h'.
Proof.
  intros HK M Hs Hd. apply mv_evo with (g' := linkg h s d); auto.
  - intros i n Hn. destruct (base_at h s d i Hn) as (n1 & A & B1 & B2 & B3 & B4 & B5).
    unfold linkg, joing. eexists. split; [apply gmap_of, A|]. cbn. split; [exact B2|].
    split.
    + intros Pi Hc. split; [exact B1|]. split; [exact B2|]. cbn. unfold at1.
      destruct (Nat.eqb_spec i s) as [->|].
      { destruct (Hs n Hn Hc) as [_ [|]]; [contradiction|]. now right. }
      destruct (Nat.eqb_spec i d) as [->|].
      { destruct (Hd n Hn Hc) as [_ [|]]; [contradiction|]. now right. }
      left. auto.
    + intros Pi Hc. unfold at1.
      destruct (Nat.eqb_spec i s) as [->|]; [destruct (Hs n Hn Hc); contradiction|].
      destruct (Nat.eqb_spec i d) as [->|]; [destruct (Hd n Hn Hc); contradiction|]. auto.
  - intros i Hi. unfold linkg, joing, gmap. now rewrite base_none.
Qed.

(** One buffer replaced. *)
Lemma step_cls (r r' : obj) x s : RingModel.step SZ r x = Ok (r', s) -> kcls (o_kind r') = kcls (o_kind r).
Proof.
  destruct x as [d i|rs| | | | | |]; cbn [RingModel.step].
  - intros H. apply bind_ok in H. destruct H as ([n r1] & A & H). injection H as <- _. now apply write_kind with (1 := A).
  - intros H. apply bind_ok in H. destruct H as ([[snt dd] r1] & A & H). injection H as <- _.
    unfold write_to_obj in A. destruct (negb (o_open r)); [injection A as _ _ <-; reflexivity|].
    apply bind_ok in A. destruct A as (? & ? & A). apply bind_ok in A. destruct A as (? & ? & A).
    destruct (if o_in r =? o_out r then _ else _) as [[s1 o1] d1].
    apply bind_ok in A. destruct A as (? & ? & A). injection A as _ _ <-. reflexivity.
  - intros H. injection H as <- _. reflexivity.
  - unfold toggle_quiet. destruct (o_kind r) eqn:K; try discriminate. intros H. injection H as <- _. reflexivity.
  - unfold toggle_suspend. destruct (o_kind r) as [q s0| |] eqn:K; try discriminate. intros H. injection H as <- _.
    destruct s0; reflexivity.
  - intros H. injection H as <- _. unfold shutdown_buf. destruct (negb (o_open r)); reflexivity.
  - intros H. injection H as <- _. reflexivity.
  - intros H. injection H as <- _. unfold open_fd. destruct (o_open r); reflexivity.
Qed.

Lemma ring_oinv o x r s : oinv E o -> op_allowed (is_client (s_ring o)) x ->
  (cls_of o = ClClient -> op_no_reopen x) -> RingModel.step SZ (s_ring o) x = Ok (r, s) -> oinv E (set_ring o r).
Proof.
  intros (A & B & C) H1 H2 H3. destruct (@step_abs SZ (s_ring o) x (HSZ HE) A H1) as (r' & X & I' & _).
  assert (X' := H3). rewrite X in X'. injection X' as -> _.
  split; [exact I'|]. split; [exact B|]. unfold cls_of. cbn [s_ring set_ring].
  rewrite (step_cls _ _ H3). intros Hc. apply (@step_sched SZ (s_ring o) x r s (HSZ HE) A (H2 Hc) (C Hc) H3).
Qed.
Lemma gn_ring o r : kcls (o_kind r) = cls_of o -> gn (set_ring o r) = gn o.
Proof. unfold gn, cls_of. cbn. now intros ->. Qed.

(** An object replaced by another with the same place in the graph. *)
Lemma geq_upd h i o o' : h i = Some o -> gn o' = gn o -> geq (G (upd h i (Some o'))) (G h).
Proof.
  intros Hi Hg j. rewrite G_upd. destruct (Nat.eqb_spec j i) as [->|]; [|reflexivity].
  rewrite (G_of _ _ Hi). cbn. now rewrite Hg.
Qed.
Lemma upd_HOK h i o o' : HOK h -> h i = Some o -> gn o' = gn o -> oinv E o' -> HOK (upd h i (Some o')).
Proof.
  intros [W R] Hi Hg Ho. split; [|now apply RI_upd]. eapply WFg_geq; [apply geq_sym; eapply geq_upd; eauto|exact W].
Qed.
Lemma upd_evo (P : bool -> nat -> Prop) h i o o' : HOK h -> h i = Some o -> gn o' = gn o -> oinv E o' ->
  (P true i -> cls_of o = ClClient -> o_open (s_ring o') = o_open (s_ring o) /\
     (o_eof (s_ring o) = true -> o_eof (s_ring o') = true)) ->
  evo P h (upd h i (Some o')).
Proof.
  intros HK Hi Hg Ho Hp. pose proof (upd_HOK i HK Hi Hg Ho) as HK'. constructor.
  - exact HK'.
  - intros j p Hj. unfold upd. destruct (Nat.eqb_spec j i) as [->|]; [|eauto].
    exists o'. split; [reflexivity|]. rewrite Hi in Hj. injection Hj as <-. now apply gn_parts in Hg.
  - intros j Hj. rewrite upd_other; [exact Hj|]. congruence.
  - intros c p p' Pc Hc Hc' Cc. destruct (Nat.eq_dec c i) as [->|N].
    + rewrite upd_same in Hc'. injection Hc' as <-. rewrite Hi in Hc. injection Hc as <-.
      apply gn_parts in Hg. destruct Hg as (_ & -> & -> & _). split; apply incl_refl.
    + rewrite upd_other in Hc' by exact N. rewrite Hc in Hc'. injection Hc' as <-. split; apply incl_refl.
  - intros c p p' Pc Hc Hc' Cc. destruct (Nat.eq_dec c i) as [->|N].
    + rewrite upd_same in Hc'. injection Hc' as <-. rewrite Hi in Hc. injection Hc as <-.
      rewrite Hg. split; [apply gevo_refl|]. destruct (Hp Pc Cc) as [X1 X2]. split; [exact X1|].
      intros U. apply gn_parts in Hg. unfold unlinked in *. destruct Hg as (_ & R1 & R2 & _). rewrite R1, R2 in U.
      destruct (o_eof (s_ring o)) eqn:X; auto.
    + rewrite upd_other in Hc' by exact N. rewrite Hc in Hc'. injection Hc' as <-.
      split; [apply gevo_refl|]. split; [reflexivity|]. intros U. destruct (o_eof (s_ring p)) eqn:X; auto.
Qed.

(** A fold of operations. *)
Lemma fold_evo {A} P (f : heap -> A -> res heap) (l : list A) h : HOK h ->
  (forall a h1, In a l -> evo P h h1 -> exists h2, f h1 a = Ok h2 /\ evo P h1 h2) ->
  exists h', foldr_res f h l = Ok h' /\ evo P h h'.
Proof.
  intros HK. assert (X : forall h0, evo P h h0 ->
     (forall a h1, In a l -> evo P h h1 -> exists h2, f h1 a = Ok h2 /\ evo P h1 h2) ->
     exists h', foldr_res f h0 l = Ok h' /\ evo P h0 h').
  { induction l as [|a l IH]; intros h0 S0 H; cbn [foldr_res].
    - exists h0. split; [reflexivity|]. apply evo_refl. apply (ev_hok S0).
    - destruct (H a h0 (or_introl eq_refl) S0) as (h1 & A1 & A2). rewrite A1. cbn [bind].
      destruct (IH h1) as (h' & B1 & B2).
      + eapply evo_trans; eauto.
      + intros b h2 Hb. apply H. now right.
      + exists h'. split; [exact B1|]. eapply evo_trans; eauto. }
  intros H. apply X; [now apply evo_refl|exact H].
Qed.

(** open_*_obj *)
Lemma open_console_ok h k c ro : HOK h -> h k = Some c -> cls_of c = ClCons ->
  exists h', open_console E h k ro = Ok h' /\ evo any h h' /\ geq (G h') (G h).
Proof.
  intros HK Hk Hc. unfold open_console. rewrite (at_ok _ _ Hk). cbn [bind].
  rewrite (proj2 (console_b_cls c) Hc). cbn [assert_ bind].
  set (r1 := if ro_close ro then close_fd (s_ring c) else s_ring c).
  set (r2 := if ro_open ro then open_fd r1 else r1).
  set (o1 := set_state (set_ring c r2) (ro_state ro)). set (h1 := upd h k (Some o1)).
  assert (O1 : oinv E (set_ring c r1)).
  { unfold r1. destruct (ro_close ro).
    - apply (@ring_oinv c OClose (close_fd (s_ring c)) []); [eapply (proj2 HK); eauto|exact I|intros; exact I|reflexivity].
    - destruct c; apply (proj2 HK k); exact Hk. }
  assert (C1 : kcls (o_kind r1) = cls_of c) by (unfold r1; destruct (ro_close ro); reflexivity).
  assert (O2 : oinv E (set_ring c r2)).
  { unfold r2. destruct (ro_open ro); [|exact O1].
    apply (@ring_oinv (set_ring c r1) OOpen (open_fd r1) []); [exact O1|exact I| |reflexivity].
    unfold cls_of at 1. cbn [s_ring set_ring]. rewrite C1, Hc. discriminate. }
  assert (C2 : kcls (o_kind r2) = cls_of c).
  { unfold r2. destruct (ro_open ro); [|exact C1]. unfold open_fd. destruct (o_open r1); exact C1. }
  assert (G1 : gn o1 = gn c) by (apply (gn_ring c r2 C2)).
  assert (OI : oinv E o1) by exact O2.
  assert (HK1 : HOK h1) by (eapply upd_HOK; eauto).
  assert (E1 : evo any h h1). { eapply upd_evo; eauto. intros _ X. congruence. }
  assert (H1k : h1 k = Some o1) by (unfold h1; now rewrite upd_same).
  destruct (@fold_sim E _ (fun h m => notify E h k m) (ro_msgs ro) h1 (proj2 HK1)) as (h2 & A2 & S2).
  { intros m h2 _ S. destruct (sim_some k S H1k) as (c2 & X & Y).
    apply (notify_ok HE k m (sim_HOK S HK1) X). apply gn_parts in Y. destruct Y as (Y & _).
    rewrite Y. transitivity (cls_of c); [|exact Hc]. now apply gn_parts in G1. }
  rewrite A2. cbn [bind].
  destruct (@fold_sim E _ (fun h d => put_data E h k d false) (ro_own ro) h2 (sim_RI S2)) as (h3 & A3 & S3).
  { intros m h3 _ S. destruct (sim_some k (sim_trans S2 S) H1k) as (c2 & X & Y).
    destruct (put_data_ok HE k m false (sim_RI S) X) as (h4 & Z & Z2 & _). eauto. }
  rewrite A3. pose proof (sim_trans S2 S3) as S13.
  exists h3. split; [reflexivity|]. split.
  - eapply evo_trans; [exact E1|]. now apply sim_evo.
  - eapply geq_trans; [apply geq_sym, S13|]. eapply geq_upd; eauto.
Qed.

(** shutdown_obj *)
Definition dead_ok (h h' : heap) (i : nat) : Prop :=
  evo (fun _ j => j <> i) h h' /\ exists o, h i = Some o /\ cls_of o = ClClient /\
  exists o', h' i = Some o' /\ unlinked o'.

Definition served (P : bool -> nat -> Prop) (h : heap) (i : nat) (r : heap * bool) : Prop :=
  if snd r then dead_ok h (fst r) i else evo P h (fst r).

Lemma shutdown_ok h i o ro : HOK h -> h i = Some o ->
  exists r, shutdown_obj E h i ro = Ok r /\ served any h i r /\
    (o_open (s_ring o) = true -> cls_of o = ClClient -> snd r = true).
Proof.
  intros HK Hi. unfold shutdown_obj. rewrite (at_ok _ _ Hi). cbn [bind].
  destruct (o_open (s_ring o)) eqn:Op; cbn [negb].
  2:{ exists (h, false). split; [reflexivity|]. split; [now apply evo_refl|discriminate]. }
  set (o1 := set_ring o (shutdown_buf (s_ring o))). set (h1 := upd h i (Some o1)).
  assert (OI : oinv E o1).
  { apply (@ring_oinv o OShutdown _ []); [eapply (proj2 HK); eauto|exact I|intros; exact I|reflexivity]. }
  assert (G1 : gn o1 = gn o).
  { apply gn_ring. unfold shutdown_buf. rewrite Op. reflexivity. }
  assert (HK1 : HOK h1) by (eapply upd_HOK; eauto).
  assert (H1 : h1 i = Some o1) by (unfold h1; now rewrite upd_same).
  destruct (client_b o) eqn:CB.
  - apply client_b_cls in CB. destruct (unlink_obj_ok HE i HK1 H1) as (h2 & -> & M & K2). cbn [bind].
    exists (h2, true). split; [reflexivity|]. split; [|reflexivity].
    cbn. split.
    + eapply evo_trans; [|eapply isos_evo; eauto]. eapply upd_evo; eauto. intros X. now destruct X.
    + exists o. split; [exact Hi|]. split; [exact CB|].
      destruct (isos_at i (proj1 M) H1) as (o2 & A & B & C & _). exists o2. split; [exact A|].
      unfold unlinked. rewrite B, C. unfold drop. cbn [mem existsb]. rewrite Nat.eqb_refl. cbn. auto.
  - assert (E1 : evo any h h1).
    { eapply upd_evo; eauto. intros _ X. apply client_b_cls in X. congruence. }
    assert (NC : cls_of o <> ClClient) by (intros X; apply client_b_cls in X; congruence).
    destruct (log_b o) eqn:LB.
    + exists (h1, false). split; [reflexivity|]. split; [exact E1|]. contradiction.
    + assert (CC : cls_of o1 = ClCons).
      { apply gn_parts in G1. destruct G1 as (-> & _). rewrite log_b_eq in LB. destruct (cls_of o); congruence. }
      destruct (open_console_ok i ro HK1 H1 CC) as (h2 & -> & E2 & _). cbn [bind].
      exists (h2, false). split; [reflexivity|]. split; [eapply evo_trans; eauto|]. contradiction.
Qed.

(** Log replay outside debug builds *)
Lemma replay_total (lo : obj) b e : Inv SZ lo -> length e + 2 = length b -> e_rl E + 2 * length b < SZ ->
  exists m, replay_message SZ (e_rl E) false lo b e = Ok m.
Proof.
  intros HI Hbe Hsz. unfold replay_message.
  destruct (Nat.leb_spec (SZ - 1) (length b)); [eauto|].
  destruct (Nat.leb_spec (SZ - 1 - length b) (length b - 2)); [eauto|].
  destruct HI as (HB & HI1 & HI2).
  assert (X : exists body, replay_bytes SZ (e_rl E) false lo (SZ - 1 - length b - (length b - 2)) = Ok body /\
            length body <= e_rl E).
  { unfold replay_bytes.
    set (n0 := if negb (o_wrap lo) then o_in lo else SZ - 1).
    set (n := Nat.min (Nat.min n0 (e_rl E)) (SZ - 1 - length b - (length b - 2))).
    assert (Hn : n <= e_rl E) by (unfold n; lia). assert (Hn2 : n <= n0) by (unfold n; lia). clearbody n.
    destruct (Nat.leb_spec n (o_in lo)); cbn [assert_if bind].
    - rewrite slice_ok by lia. eexists. split; [reflexivity|]. rewrite firstn_length, skipn_length. lia.
    - assert (n0 = SZ - 1) by (unfold n0 in *; destruct (o_wrap lo); cbn in *; lia).
      rewrite slice_ok by lia. cbn [bind]. rewrite slice_ok by lia. cbn [bind].
      eexists. split; [reflexivity|]. rewrite app_length, !firstn_length, !skipn_length, HB. cbn [skipn].
      clear - Hn. lia. }
  destruct X as (body & -> & HL). cbn [bind assert_if].
  destruct (Nat.ltb_spec (length e) (SZ - 1 - length b - length body)); [eauto|lia].
Qed.

(** ** Escape commands of client [c] *)
Definition no_console (o : sobj) : Prop := r_bcast (s_req o) = false /\ s_writers o = [].
Definition cmd_danger (o : sobj) (x : scmd) : Prop :=
  (switches x = true /\ no_console o) \/ (e_dbg E = true /\ x = SReplay).

Definition mine (h h' : heap) (c : nat) : Prop :=
  exists o o', h c = Some o /\ h' c = Some o' /\ s_writers o' = s_writers o /\
    r_bcast (s_req o') = r_bcast (s_req o) /\ cls_of o' = cls_of o.

Lemma mine_geq h h' c o : h c = Some o -> geq (G h') (G h) -> mine h h' c.
Proof.
  intros H Q. specialize (Q c). rewrite (G_of _ _ H) in Q. apply G_some in Q. destruct Q as (o' & A & B).
  apply gn_parts in B. destruct B as (B1 & B2 & B3 & B4 & B5). exists o, o'. auto.
Qed.
Lemma mine_sim h h' c o : h c = Some o -> sim E h h' -> mine h h' c.
Proof. intros H S. eapply mine_geq; eauto. apply geq_sym, S. Qed.

Lemma sets_fj h c o f j : HOK h -> h c = Some o ->
  exists h', set_fj h c f j = Ok h' /\ sim E h h' /\ h' = upd h c (Some (set_req o
    (mkReq (r_cmd (s_req o)) f j (r_bcast (s_req o)) (r_quiet (s_req o))))).
Proof.
  intros HK Hc. unfold set_fj. rewrite (modify_ok _ _ _ Hc). eexists; split; [reflexivity|]. split; [|reflexivity].
  apply sim_upd with o; auto.
  - apply HK.
  - exact (proj2 HK c o Hc).
  - intros _. apply kept_refl.
Qed.

Lemma writer_linkage_ok h c o : HOK h -> h c = Some o -> cls_of o = ClClient ->
  chk (writer_linkage E h c) (fun h' => evo (by_ c) h h' /\ mine h h' c) (no_console o).
Proof.
  intros HK Hc Cc. unfold writer_linkage. rewrite (at_ok _ _ Hc). cbn [bind].
  pose proof (wg_cl (proj1 HK) c (G_of _ _ Hc) Cc) as CO. unfold client_ok in CO. cbn [g_bc gn g_rd g_wr] in CO.
  destruct (r_bcast (s_req o)) eqn:EB.
  { cbn. split; [now apply evo_refl|]. eapply mine_geq; eauto. apply geq_refl. }
  destruct CO as (L1 & L2 & L3).
  destruct (Nat.leb_spec (length (s_readers o)) 1); [|lia].
  assert (AT : assert_if (e_dbg E) true = Ok tt) by (destruct (e_dbg E); reflexivity).
  rewrite AT. cbn [bind].
  destruct (s_writers o) as [|k ws] eqn:EW.
  { cbn [length Nat.eqb]. destruct (e_dbg E); cbn; split; auto. }
  assert (ws = []) as -> by (destruct ws; [reflexivity|cbn in L2; lia]).
  cbn [length Nat.eqb]. rewrite AT. cbn [bind].
  destruct (write_live c k HK Hc) as (ok & Hk & Rk & Tk); [rewrite EW; now left|].
  rewrite Cc in Tk. assert (Ck : cls_of ok = ClCons) by (destruct (cls_of ok); cbn in Tk; congruence).
  assert (NK : c <> k) by (intros ->; rewrite Hc in Hk; injection Hk as <-; congruence).
  destruct (s_readers o) as [|x rs] eqn:ER; cbn [length Nat.eqb negb].
  - destruct (@link_objs_ok E HE h c k HK) as (h' & -> & M & K').
    { exists (gn o), (gn ok). split; [now apply G_of|]. split; [now apply G_of|]. cbn.
      split; [rewrite Cc, Ck; reflexivity|]. rewrite ER, EW.
      split; [intros []|]. split.
      - intros X. destruct (write_live k c HK Hk X) as (o2 & A & B & _). rewrite Hc in A. injection A as <-.
        rewrite ER in B. exact B.
      - split; [|congruence]. intros _ _. split; [reflexivity|]. intros z [<-|[]]. reflexivity. }
    cbn. split.
    + eapply link_evo; [exact K'|exact M| |].
      * intros n Hn _. split; [intros [|X]; [discriminate|now apply X]|]. right. rewrite (G_of _ _ Hc) in Hn.
        injection Hn as <-. cbn. rewrite EW. split; [exact EB|discriminate].
      * intros n Hn X. rewrite (G_of _ _ Hk) in Hn. injection Hn as <-. cbn in X. congruence.
    + destruct (base_at h c k c (G_of _ _ Hc)) as (n1 & A & B1 & B2 & B3 & B4 & B5).
      pose proof (proj1 M c) as Q. unfold linkg, joing in Q. rewrite (gmap_of _ _ _ _ A) in Q.
      apply G_some in Q. destruct Q as (o' & X & Y). unfold gn in Y. injection Y as Y1 Y2 Y3 Y4 Y5.
      exists o, o'. split; [exact Hc|]. split; [exact X|]. cbn in B1, B2. split; [|split; congruence].
      rewrite Y3. unfold at1. destruct (Nat.eqb_spec c k); [contradiction|].
      unfold base in A. rewrite Hk in A. destruct (stealing h c k); [|rewrite (G_of _ _ Hc) in A; injection A as <-; reflexivity].
      unfold isos in A. rewrite (gmap_of _ _ _ _ (G_of _ _ Hc)) in A. injection A as <-. cbn. rewrite EW.
      assert (N1 : ~ In c (s_writers ok)).
      { intros Z. destruct (write_live k c HK Hk Z) as (o2 & A & B & _). rewrite Hc in A. injection A as <-.
        rewrite ER in B. exact B. }
      assert (N2 : ~ In k (s_writers ok)).
      { intros Z. destruct (write_live k k HK Hk Z) as (o2 & A & B & T). rewrite Hk in A. injection A as <-.
        now apply typed_neq in T. }
      unfold drop, keep. apply mem_not in N1, N2. rewrite N1. cbn. now rewrite N2.
  - destruct (unlink_objs_ok HE c k HK Hc Hk) as (h' & -> & M & K'); [rewrite Cc, Ck; reflexivity|].
    cbn. split; [eapply cut_evo; eauto|].
    destruct (cut_at c (proj1 M) Hc) as (o' & A & B & C & D).
    pose proof (proj1 M c) as Q. unfold cutg in Q. rewrite (gmap_of _ _ _ _ (G_of _ _ Hc)), (G_of _ _ A) in Q.
    unfold gn in Q. injection Q as Q1 Q2 Q3 Q4 Q5.
    exists o, o'. split; [exact Hc|]. split; [exact A|].
    split; [rewrite C; unfold at1; destruct (Nat.eqb_spec c k); [contradiction|reflexivity]|]. split; [congruence|exact D].
Qed.

Lemma log_replay_ok h c o : HOK h -> h c = Some o -> cls_of o = ClClient ->
  chk (log_replay E h c) (fun h' => evo any h h' /\ mine h h' c) (e_dbg E = true).
Proof.
  intros HK Hc Cc. unfold log_replay. rewrite (at_ok _ _ Hc). cbn [bind].
  assert (SAME : evo any h h /\ mine h h c).
  { split; [now apply evo_refl|]. eapply mine_geq; eauto. apply geq_refl. }
  assert (PUT : forall d, chk (put_data E h c d false) (fun h' => evo any h h' /\ mine h h' c) (e_dbg E = true)).
  { intros d. destruct (put_data_ok HE c d false (proj2 HK) Hc) as (h' & -> & S & _). cbn.
    split; [now apply sim_evo|]. eapply mine_sim; eauto. }
  destruct (s_writers o) as [|k ws] eqn:EW; [exact SAME|].
  pose proof (wg_cl (proj1 HK) c (G_of _ _ Hc) Cc) as CO. unfold client_ok in CO. cbn [g_bc gn g_rd g_wr] in CO.
  assert (L : length (s_writers o) = 1).
  { destruct (r_bcast (s_req o)); [congruence|]. destruct CO as (_ & CO & _). rewrite EW in CO |- *. cbn in *. lia. }
  rewrite <- EW, L. cbn [Nat.eqb].
  assert (AT : assert_if (e_dbg E) true = Ok tt) by (destruct (e_dbg E); reflexivity).
  rewrite AT. cbn [bind].
  destruct (write_live c k HK Hc) as (ok & Hk & Rk & Tk); [rewrite EW; now left|].
  rewrite (at_ok _ _ Hk). cbn [bind]. unfold console_logfile.
  assert (NOL : chk (if e_sz E - 1 <=? length (e_txt E (NNotLogged k)) then Ok h
          else put_data E h c (e_txt E (NNotLogged k)) false) (fun h' => evo any h h' /\ mine h h' c) (e_dbg E = true)).
  { destruct (_ <=? _); [exact SAME|apply PUT]. }
  destruct (s_log ok) as [l|] eqn:EL; [|exact NOL].
  destruct (wg_log (proj1 HK) k (G_of _ _ Hk) EL) as (nl & A & B). apply G_some in A. destruct A as (lo & Hl & <-).
  rewrite (at_ok _ _ Hl). cbn [bind]. destruct (o_open (s_ring lo)); [|exact NOL].
  rewrite (at_ok _ _ Hl). cbn [bind].
  destruct (replay_message (e_sz E) (e_rl E) (e_dbg E) (s_ring lo) (e_txt E (NBegin k)) (e_txt E (NEnd k))) as [m|u] eqn:ER.
  - cbn [bind]. destruct m; [apply PUT|exact SAME].
  - cbn. destruct (e_dbg E) eqn:ED; [reflexivity|].
    destruct HE as (_ & _ & _ & _ & _ & _ & HB & HS).
    destruct (@replay_total (s_ring lo) (e_txt E (NBegin k)) (e_txt E (NEnd k))) as (m & X).
    + apply (proj2 HK l lo Hl).
    + apply HB.
    + apply HS.
    + unfold SZ in X. rewrite X in ER. discriminate.
Qed.

Lemma readers_cons h c o k : HOK h -> h c = Some o -> cls_of o = ClClient -> In k (s_readers o) ->
  exists ok, h k = Some ok /\ cls_of ok = ClCons.
Proof.
  intros HK Hc Cc Hk. destruct (read_live c k HK Hc Hk) as (ok & A & _ & T). exists ok. split; [exact A|].
  rewrite Cc in T. destruct (cls_of ok); cbn in T; congruence.
Qed.

Lemma fold_sim_cmd {A} h c o (f : heap -> A -> res heap) (l : list A) B : HOK h -> h c = Some o ->
  (forall a h1, In a l -> sim E h h1 -> exists h2, f h1 a = Ok h2 /\ sim E h1 h2) ->
  chk (foldr_res f h l) (fun h' => evo any h h' /\ mine h h' c) B.
Proof.
  intros HK Hc H. destruct (@fold_sim E _ f l h (proj2 HK) H) as (h' & -> & S). cbn.
  split; [now apply sim_evo|]. eapply mine_sim; eauto.
Qed.

Lemma exec_cmd_ok rst h c o x : HOK h -> h c = Some o -> cls_of o = ClClient ->
  chk (exec_cmd E rst h c x) (fun h' => evo (sw c [x]) h h' /\ mine h h' c) (cmd_danger o x).
Proof.
  intros HK Hc Cc.
  assert (ANY : forall r B, chk r (fun h' => evo any h h' /\ mine h h' c) B ->
                  chk r (fun h' => evo (sw c [x]) h h' /\ mine h h' c) B).
  { intros r B X. eapply chk_mono; [exact X| |auto]. intros h' [Y Z]. split; [|exact Z].
    eapply evo_weak; [|exact Y]. intros; exact I. }
  assert (SW : forall f j, switches x = true ->
    chk (do h1 <- set_fj h c f j; writer_linkage E h1 c) (fun h' => evo (sw c [x]) h h' /\ mine h h' c) (cmd_danger o x)).
  { intros f j SX. destruct (sets_fj c f j HK Hc) as (h1 & -> & S1 & EH). cbn [bind].
    assert (H1 : h1 c = Some (set_req o (mkReq (r_cmd (s_req o)) f j (r_bcast (s_req o)) (r_quiet (s_req o)))))
      by (rewrite EH; apply upd_same).
    eapply chk_mono; [eapply writer_linkage_ok; [exact (sim_HOK S1 HK)|exact H1|exact Cc]| |].
    - intros h' [A B]. split.
      { eapply evo_trans; [apply (sim_evo _ HK S1)|]. eapply evo_weak; [|exact A].
        intros b i [X|[X|X]]; [now left|now right|]. cbn in X. rewrite SX in X. discriminate. }
      destruct B as (o1 & o' & B1 & B2 & B3 & B4 & B5). rewrite H1 in B1. injection B1 as <-.
      exists o, o'. cbn in *. auto.
    - intros [A B]. left. split; [exact SX|]. split; assumption. }
  destruct x; cbn [exec_cmd]; try (apply SW; reflexivity); apply ANY.
  - (* break *)
    rewrite (at_ok _ _ Hc). cbn [bind]. apply fold_sim_cmd with o; auto.
    intros k h1 Hk S. destruct (readers_cons c k HK Hc Cc Hk) as (ok & A & Ck).
    destruct (sim_some k S A) as (ok1 & A1 & _). unfold break_one. rewrite (at_ok _ _ A1). cbn [bind].
    destruct (s_type ok1); try (exists h1; split; [reflexivity|]; apply sim_refl; eapply sim_RI; eauto);
      match goal with |- exists h2, put_data E h1 k ?d false = _ /\ _ =>
        destruct (put_data_ok HE k d false (sim_RI S) A1) as (h2 & X & Y & _) end; eauto.
  - (* del *)
    rewrite (at_ok _ _ Hc). cbn [bind]. apply fold_sim_cmd with o; auto.
    intros k h1 Hk S. destruct (readers_cons c k HK Hc Cc Hk) as (ok & A & Ck).
    destruct (sim_some k S A) as (ok1 & A1 & _).
    destruct (put_data_ok HE k [127%Z] false (sim_RI S) A1) as (h2 & X & Y & _). eauto.
  - (* replay *)
    eapply chk_mono; [eapply log_replay_ok; eauto|auto|]. intros D. right. auto.
  - (* quiet *)
    rewrite (at_ok _ _ Hc). cbn [bind]. unfold toggle_quiet. unfold cls_of in Cc.
    destruct (o_kind (s_ring o)) as [q s| |] eqn:Kd; try discriminate. cbn [bind].
    match goal with |- context [upd h c (Some (set_ring o ?r))] => set (r1 := r) end.
    assert (OI : oinv E (set_ring o r1)).
    { apply (@ring_oinv o OQuiet r1 []); [eapply (proj2 HK); eauto| |intros; exact I|].
      - cbn. unfold is_client. now rewrite Kd.
      - cbn. unfold toggle_quiet. now rewrite Kd. }
    assert (G1 : gn (set_ring o r1) = gn o) by (apply gn_ring; unfold cls_of; rewrite Kd; reflexivity).
    assert (S1 : sim E h (upd h c (Some (set_ring o r1)))).
    { apply sim_upd with o; auto; [apply HK|]. intros _. unfold kept. cbn. auto. }
    destruct (put_data_ok HE c (e_txt E (NQuiet (is_quiet r1))) false (sim_RI S1) (upd_same h c _)) as (h2 & -> & S2 & _).
    cbn. pose proof (sim_trans S1 S2). split; [now apply sim_evo|]. eapply mine_sim; eauto.
  - (* reset *)
    rewrite (at_ok _ _ Hc). cbn [bind]. apply fold_sim_cmd with o; auto.
    intros k h1 Hk S. destruct (readers_cons c k HK Hc Cc Hk) as (ok & A & Ck).
    destruct (sim_some k S A) as (ok1 & A1 & G1).
    apply fold_sim; [apply (sim_RI S)|]. intros m h2 _ S2. destruct (sim_some k S2 A1) as (ok2 & A2 & G2).
    apply (notify_ok HE k m (sim_HOK (sim_trans S S2) HK) A2).
    apply gn_parts in G1, G2. destruct G1 as (G1 & _), G2 as (G2 & _). congruence.
  - (* suspend *)
    rewrite (at_ok _ _ Hc). cbn [bind].
    assert (Kd : exists q s, o_kind (s_ring o) = KClient q s).
    { unfold cls_of in Cc. destruct (o_kind (s_ring o)); try discriminate. eauto. }
    destruct Kd as (q & s & Kd).
    assert (X : exists r1, toggle_suspend (s_ring o) = Ok r1 /\ kcls (o_kind r1) = ClClient /\
              o_open r1 = o_open (s_ring o) /\ o_eof r1 = o_eof (s_ring o)).
    { unfold toggle_suspend. rewrite Kd. destruct s; cbn; eexists; (split; [reflexivity|]); cbn; auto. }
    destruct X as (r1 & A & B & C & D). rewrite A. cbn.
    assert (OI : oinv E (set_ring o r1)).
    { apply (@ring_oinv o OSuspend r1 []); [eapply (proj2 HK); eauto| |intros; exact I|].
      - cbn. unfold is_client. now rewrite Kd.
      - cbn. now rewrite A. }
    assert (G1 : gn (set_ring o r1) = gn o) by (apply gn_ring; congruence).
    split.
    + apply upd_evo with o; auto. intros _ _. cbn. split; congruence.
    + eapply mine_geq; eauto. eapply geq_upd; eauto.
Qed.

Lemma exec_cmds_ok rst c : forall xs h o, HOK h -> h c = Some o -> cls_of o = ClClient ->
  chk (foldr_res (fun h x => exec_cmd E rst h c x) h xs) (fun h' => evo (sw c xs) h h' /\ mine h h' c)
      (exists x, In x xs /\ cmd_danger o x).
Proof.
  induction xs as [|x xs IH]; intros h o HK Hc Cc; cbn [foldr_res].
  - cbn. split; [now apply evo_refl|]. eapply mine_geq; eauto. apply geq_refl.
  - eapply chk_bind with (P := fun h' => evo (sw c [x]) h h' /\ mine h h' c).
    + eapply chk_mono; [eapply exec_cmd_ok; eauto|auto|]. intros D. exists x. split; [now left|exact D].
    + intros h1 _ [E1 M1]. assert (M1' := M1). destruct M1' as (o0 & o1 & A & B & C & D & F).
      rewrite Hc in A. injection A as <-.
      eapply chk_mono; [apply (IH h1 o1 (ev_hok E1) B); congruence| |].
      * intros h2 [E2 M2]. split.
        { eapply evo_trans; [eapply evo_weak; [|exact E1]|eapply evo_weak; [|exact E2]];
            intros b i [X|[X|X]]; unfold sw; auto; cbn in X; apply orb_false_iff in X; destruct X as [X1 X2]; auto.
          right. right. cbn. now rewrite X1. }
        destruct M2 as (p & o2 & A2 & B2 & C2 & D2 & F2).
        rewrite B in A2. injection A2 as <-. exists o, o2. repeat split; auto; congruence.
      * intros (y & Hy & Dy). exists y. split; [now right|].
        unfold cmd_danger, no_console in *. rewrite <- C, <- D. exact Dy.
Qed.

(** Data passed on to the readers *)
Lemma deliver_ok h i o d : HOK h -> h i = Some o -> bytes_ok d ->
  exists h', deliver E h i d = Ok h' /\ sim E h h'.
Proof.
  intros HK Hi Hd. unfold deliver. destruct d as [|b d]; [exists h; split; [reflexivity|apply sim_refl, HK]|].
  remember (b :: d) as dd. rewrite (at_ok _ _ Hi). cbn [bind].
  apply fold_sim; [apply HK|]. intros r h1 Hr S.
  destruct (read_live i r HK Hi Hr) as (ro & A & _). destruct (sim_some r S A) as (ro1 & A1 & _).
  rewrite (at_ok _ _ A1). cbn [bind]. destruct (log_b ro1) eqn:LB.
  - apply log_b_cls in LB. apply (put_log_ok HE r (sim_RI S) A1 LB Hd).
  - destruct (put_data_ok HE r dd false (sim_RI S) A1) as (h2 & X & Y & _). eauto.
Qed.

Lemma stream_bytes got d : bytes_ok d -> bytes_ok (stream_data (pre got d)).
Proof.
  intros H. assert (H2 : bytes_ok (pre got d)).
  { unfold pre. destruct got; [constructor; [|exact H]|exact H]. unfold byte_ok. lia. }
  revert H2. generalize (pre got d). clear. intros l. unfold stream_data.
  assert (X : forall n l, length l <= n -> bytes_ok l -> bytes_ok (flat_map item_data (parse l))).
  2:{ intros H. apply (X (length l)); auto. }
  clear. induction n as [|n IH]; intros l L H.
  { destruct l; [constructor|cbn in L; lia]. }
  destruct l as [|b l]; [constructor|]. inversion H as [|? ? B1 B2]; subst.
  assert (K : parse (b :: l) = Data b :: parse l \/ parse (b :: l) = [] \/
              exists c t, l = c :: t /\ (parse (b :: l) = Data c :: parse t \/ parse (b :: l) = Cmd c :: parse t)).
  { destruct (Z.eq_dec b 255) as [->|N].
    - destruct l as [|c t]; [right; left; reflexivity|]. right. right. exists c, t. split; [reflexivity|].
      destruct (Z.eq_dec c 255) as [->|Nc]; [left; reflexivity|]. right. now apply parse_esc.
    - left. now apply parse_data. }
  destruct K as [->|[->|(c & t & -> & [->| ->])]]; cbn [flat_map item_data app].
  - constructor; [exact B1|]. apply IH; [cbn in L; lia|exact B2].
  - constructor.
  - inversion B2; subst. constructor; [assumption|]. apply IH; [cbn in L; lia|assumption].
  - inversion B2; subst. apply IH; [cbn in L; lia|assumption].
Qed.
End Env.
