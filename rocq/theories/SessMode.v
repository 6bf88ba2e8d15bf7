(** Clients without write access, broadcast clients, suspended clients and
    console output. *)
From Verif Require Import Base BaseProof RingModel RingSpec RingProof LogModel LogSpec LogProof
  TelnetModel TelnetSpec TelnetProof EscModel EscSpec EscProof SessModel SessSpec SessInv SessLink SessStep SessWorld SessThread SessFacts SessMux.
Set Implicit Arguments.

Section Env.
Variable E : env.
Hypothesis HE : env_ok E.
Let SZ := e_sz E.
Notation HOK := (HOK E).
Notation evo := (evo E).
Notation WWF := (WWF E).

(** ** Clients without write access *)
Definition rings (c : nat) (h h' : heap) : Prop :=
  forall j o, j <> c -> h j = Some o -> exists o', h' j = Some o' /\ s_ring o' = s_ring o.
Lemma rings_refl c h : rings c h h. Proof. intros j o _ H. eauto. Qed.
Lemma rings_trans c a b d : rings c a b -> rings c b d -> rings c a d.
Proof. intros H K j o N Hj. destruct (H j o N Hj) as (o1 & A & B). destruct (K j o1 N A) as (o2 & C & D). exists o2. split; [exact C|congruence]. Qed.
Lemma rings_upd c h o : rings c h (upd h c o).
Proof. intros j p N Hj. exists p. split; [now rewrite upd_other|reflexivity]. Qed.

Definition rdonly (c : nat) (h : heap) : Prop := forall o, h c = Some o -> s_readers o = [].

Lemma put_self h c d f h' : rdonly c h -> put_data E h c d f = Ok h' -> rdonly c h' /\ rings c h h'.
Proof.
  intros R H. unfold put_data in H. apply bind_ok in H. destruct H as (o & A & H). apply at_some in A.
  apply bind_ok in H. destruct H as (r & _ & H). injection H as <-. split; [|apply rings_upd].
  intros o' X. rewrite upd_same in X. injection X as <-. exact (R o A).
Qed.

Lemma ro_cmd rst h c x h' : rdonly c h -> switches x = false -> exec_cmd E rst h c x = Ok h' -> rdonly c h' /\ rings c h h'.
Proof.
  intros R SW H. assert (SAME : forall ha, rdonly c ha -> rdonly c ha /\ rings c ha ha) by (intros; split; [assumption|apply rings_refl]).
  destruct x; try discriminate; cbn [exec_cmd] in H; unfold log_replay in H; apply bind_ok in H; destruct H as (o & A & H); apply at_some in A;
    try (rewrite (R o A) in H; cbn [foldr_res] in H; injection H as <-; now apply SAME).
  - (* replay *)
    destruct (s_writers o) as [|k ws]; [injection H as <-; now apply SAME|].
    apply bind_ok in H. destruct H as (u & _ & H). apply bind_ok in H. destruct H as (co & _ & H).
    apply bind_ok in H. destruct H as (lf & _ & H). destruct lf as [l|].
    + apply bind_ok in H. destruct H as (lo & _ & H). apply bind_ok in H. destruct H as (m & _ & H).
      destruct m; [eapply put_self; eauto|injection H as <-; now apply SAME].
    + destruct (e_sz E - 1 <=? _); [injection H as <-; now apply SAME|eapply put_self; eauto].
  - (* quiet *)
    apply bind_ok in H. destruct H as (r & _ & H). assert (R1 : rdonly c (upd h c (Some (set_ring o r)))).
    + intros o' X. rewrite upd_same in X. injection X as <-. exact (R o A).
    + destruct (put_self _ _ R1 H) as [X Y]. split; [exact X|]. eapply rings_trans; [apply rings_upd|exact Y].
  - (* suspend *)
    apply bind_ok in H. destruct H as (r & _ & H). injection H as <-. split; [|apply rings_upd].
    intros o' X. rewrite upd_same in X. injection X as <-. exact (R o A).
Qed.
Lemma ro_cmds rst c : forall xs h h', rdonly c h -> existsb switches xs = false ->
  foldr_res (fun h x => exec_cmd E rst h c x) h xs = Ok h' -> rdonly c h' /\ rings c h h'.
Proof.
  induction xs as [|x xs IH]; intros h h' R SW H; cbn [foldr_res existsb] in *.
  - injection H as <-. split; [exact R|apply rings_refl].
  - apply orb_false_iff in SW. destruct SW as [S1 S2]. apply bind_ok in H. destruct H as (h1 & A & H).
    destruct (ro_cmd _ _ R S1 A) as [R1 G1]. destruct (IH _ _ R1 S2 H) as [R2 G2]. split; [exact R2|eapply rings_trans; eauto].
Qed.

(** the link from a console is removed without any message *)
Lemma modify_rings h i f h' c : modify h i f = Ok h' -> (forall o, s_ring (f o) = s_ring o) -> rings c h h'.
Proof.
  intros H F. unfold modify in H. apply bind_ok in H. destruct H as (o & A & H). apply at_some in A. injection H as <-.
  intros j p N Hj. unfold upd. destruct (Nat.eqb_spec j i) as [->|]; [|eauto].
  rewrite A in Hj. injection Hj as <-. eexists; split; [reflexivity|apply F].
Qed.
Lemma modify_rdonly h i f h' c : modify h i f = Ok h' -> (forall o, s_readers o = [] -> s_readers (f o) = []) -> rdonly c h -> rdonly c h'.
Proof.
  intros H F R. unfold modify in H. apply bind_ok in H. destruct H as (o & A & H). apply at_some in A. injection H as <-.
  intros p Hp. unfold upd in Hp. destruct (Nat.eqb_spec c i) as [->|]; [|now apply R].
  injection Hp as <-. apply F, R, A.
Qed.

Lemma unlink_quiet h s c h' os : unlink_objs E h s c = Ok h' -> h s = Some os -> client_b os = false ->
  rdonly c h -> rdonly c h' /\ rings c h h'.
Proof.
  unfold unlink_objs. intros H Hs CS R.
  apply bind_ok in H. destruct H as (h1 & A1 & H). apply bind_ok in H. destruct H as (d0 & _ & H).
  apply bind_ok in H. destruct H as (h2 & A2 & H). apply bind_ok in H. destruct H as (s1 & B1 & H).
  assert (R2 : rings s h2 h2) by apply rings_refl.
  assert (RR : rings (S (s + c)) h h2).
  { eapply rings_trans; eapply modify_rings; eauto. }
  assert (CS1 : client_b s1 = false).
  { destruct (RR s os) as (o' & X & Y); [lia|exact Hs|]. apply at_some in B1. rewrite X in B1. injection B1 as <-.
    unfold client_b in *. now rewrite Y. }
  rewrite CS1, andb_false_r in H. cbn [andb bind] in H. rewrite B1 in H. cbn [bind] in H.
  apply bind_ok in H. destruct H as (d2 & _ & H). rewrite CS1 in H. cbn [andb] in H.
  apply bind_ok in H. destruct H as (h4 & A4 & H).
  apply bind_ok in H. destruct H as (u & _ & H). apply bind_ok in H. destruct H as (v & _ & H). injection H as <-.
  assert (RO : rdonly c h2).
  { eapply modify_rdonly; [exact A2|auto|]. eapply modify_rdonly; [exact A1| |exact R].
    intros o X. cbn. now rewrite X. }
  assert (RG : rings c h h2).
  { eapply rings_trans; eapply modify_rings; eauto. }
  destruct (client_b d2 && no_links d2); [|injection A4 as <-; auto].
  apply bind_ok in A4. destruct A4 as (w & _ & A4).
  split; [eapply modify_rdonly; eauto|]. eapply rings_trans; [exact RG|].
  unfold modify in A4. apply bind_ok in A4. destruct A4 as (o & A & A4). injection A4 as <-. apply rings_upd.
Qed.

Lemma unlink_writers_quiet c : forall n h o h', HOK h -> h c = Some o -> cls_of o = ClClient -> length (s_writers o) <= n ->
  unlink_writers E n h c = Ok h' -> rdonly c h -> rdonly c h' /\ rings c h h'.
Proof.
  induction n as [|n IH]; intros h o h' HK Hc Cc L H R; cbn [unlink_writers] in H; rewrite (at_ok _ _ Hc) in H; cbn [bind] in H;
    destruct (s_writers o) as [|w ws] eqn:EW; try (injection H as <-; split; [exact R|apply rings_refl]); try discriminate.
  apply bind_ok in H. destruct H as (h1 & A & H).
  destruct (write_live c w HK Hc) as (ow & Hw & _ & T); [rewrite EW; now left|].
  assert (Cw : cls_of ow = ClCons) by (rewrite Cc in T; destruct (cls_of ow); cbn in T; congruence).
  destruct (@unlink_quiet h w c h1 ow A Hw) as [R1 G1]; [rewrite client_b_eq, Cw; reflexivity|exact R|].
  destruct (unlink_objs_ok HE w c HK Hw Hc) as (h1' & A' & M & K1); [rewrite Cc, Cw; reflexivity|].
  assert (h1' = h1) as -> by congruence.
  destruct (cut_at c (proj1 M) Hc) as (o1 & H1 & B1 & B2 & B3).
  destruct (IH h1 o1 h' K1 H1) as [R2 G2]; auto.
  - congruence.
  - rewrite B2. unfold at1. rewrite Nat.eqb_refl, EW. pose proof (wg_nd (proj1 HK) c (G_of _ _ Hc)) as [_ ND]. cbn in ND. rewrite EW in ND.
    rewrite (del_head ND). cbn [length] in L. lia.
  - split; [exact R2|eapply rings_trans; eauto].
Qed.
Lemma unlink_obj_quiet c h o h' : HOK h -> h c = Some o -> cls_of o = ClClient -> unlink_obj E h c = Ok h' ->
  rdonly c h -> rings c h h'.
Proof.
  intros HK Hc Cc H R. unfold unlink_obj in H. rewrite (at_ok _ _ Hc) in H. cbn [bind] in H.
  apply bind_ok in H. destruct H as (h1 & A & H). destruct (unlink_writers_quiet HK Hc Cc (le_n _) A R) as [R1 G1].
  apply bind_ok in H. destruct H as (o1 & B & H). pose proof (R1 o1 (at_some _ _ B)) as RN. rewrite RN in H.
  cbn [length unlink_readers] in H. rewrite B in H. cbn [bind] in H. rewrite RN in H. injection H as <-. exact G1.
Qed.
Lemma shutdown_quiet c h o ro r : HOK h -> h c = Some o -> cls_of o = ClClient -> rdonly c h ->
  shutdown_obj E h c ro = Ok r -> rings c h (fst r).
Proof.
  intros HK Hc Cc R H. unfold shutdown_obj in H. rewrite (at_ok _ _ Hc) in H. cbn [bind] in H.
  destruct (negb (o_open (s_ring o))) eqn:Op; [injection H as <-; apply rings_refl|].
  rewrite (proj2 (client_b_cls o) Cc) in H. apply bind_ok in H. destruct H as (h2 & A & H). injection H as <-. cbn [fst].
  eapply rings_trans; [apply rings_upd|]. eapply unlink_obj_quiet; [| | |exact A|].
  - eapply upd_HOK; [exact HK|exact Hc| |].
    + apply gn_ring. unfold shutdown_buf. rewrite Op. unfold cls_of in *. exact eq_refl.
    + apply (@ring_oinv E HE o OShutdown _ []); [exact (proj2 HK c o Hc)|exact I|intros; exact I|reflexivity].
  - apply upd_same.
  - unfold cls_of, shutdown_buf in *. cbn [set_ring s_ring]. rewrite Op. exact Cc.
  - intros o' X. rewrite upd_same in X. injection X as <-. exact (R o Hc).
Qed.

Definition no_switch (w : world) (c : nat) (rd : option rdev) : Prop :=
  forall o d, rd = Some (RdData d) -> w_heap w c = Some o -> existsb switches (stream_cmds (pre (s_esc o) d)) = false.

Lemma ro_read rst w c o ev ro r : WWF w -> w_heap w c = Some o -> client_b o = true -> rdonly c (w_heap w) ->
  no_switch w c (Some ev) -> (forall d, ev = RdData d -> bytes_ok d) -> read_from_obj E rst (w_heap w) c ev ro = Ok r ->
  rings c (w_heap w) (fst r) /\ (snd r = false -> rdonly c (fst r) /\ HOK (fst r) /\
    exists o', fst r c = Some o' /\ client_b o' = true).
Proof.
  intros W Hc CB R NS Hb H. pose proof (ww_hok W) as HK. pose proof (proj1 (client_b_cls o) CB) as Cc.
  assert (STEP : snd r = false -> HOK (fst r) /\ exists o', fst r c = Some o' /\ client_b o' = true).
  { intros F. pose proof (read_ok HE rst c (ev := ev) ro HK Hc Hb) as RK. rewrite H in RK. cbn in RK. unfold served in RK.
    rewrite F in RK. split; [apply RK|]. destruct (ev_keep RK c Hc) as (o' & A & B). exists o'. split; [exact A|].
    apply client_b_cls. congruence. }
  cut (rings c (w_heap w) (fst r) /\ (snd r = false -> rdonly c (fst r))).
  { intros [A B]. split; [exact A|]. intros F. split; [auto|]. apply STEP, F. }
  unfold read_from_obj in H. rewrite (at_ok _ _ Hc) in H. cbn [bind] in H.
  destruct (negb (o_open (s_ring o))); [injection H as <-; split; [apply rings_refl|auto]|].
  assert (TB : telnet_b o = false).
  { unfold telnet_b. rewrite console_b_eq, Cc. now rewrite andb_false_r. }
  rewrite TB in H. cbn [andb] in H. destruct ev as [| | |d].
  - injection H as <-. split; [apply rings_refl|auto].
  - split; [eapply shutdown_quiet; eauto|]. intros F. exfalso.
    destruct (shutdown_ok HE c ro HK Hc) as (r' & A & _ & B). rewrite H in A. injection A as <-.
    rewrite (B (ww_open W c Hc CB) Cc) in F. discriminate.
  - set (h1 := upd _ _ _) in *.
    assert (E1 : evo any (w_heap w) h1) by (apply (eof_evo HE c HK Hc)).
    assert (H1 : h1 c = Some (set_ring o (mark_eof (s_ring o)))) by apply upd_same.
    assert (R1 : rdonly c h1) by (intros o' X; rewrite H1 in X; injection X as <-; exact (R o Hc)).
    destruct (o_in (s_ring o) =? o_out (s_ring o)).
    + split.
      * eapply rings_trans; [apply rings_upd|]. eapply shutdown_quiet; [apply E1|exact H1|exact Cc|exact R1|exact H].
      * intros F. exfalso. destruct (shutdown_ok HE c ro (ev_hok E1) H1) as (r' & A & _ & B). rewrite H in A. injection A as <-.
        rewrite (B (ww_open W c Hc CB) Cc) in F. discriminate.
    + injection H as <-. cbn [fst snd]. split; [apply rings_upd|]. auto.
  - rewrite CB in H. rewrite pce_ok in H. cbn [bind] in H.
    apply bind_ok in H. destruct H as (h1 & A1 & H). apply bind_ok in H. destruct H as (h2 & A2 & H).
    apply bind_ok in H. destruct H as (h3 & A3 & H). injection H as <-. cbn [fst snd].
    assert (R1 : rdonly c h1) by (eapply modify_rdonly; eauto).
    destruct (ro_cmds _ _ R1 (NS o d eq_refl Hc) A2) as [R2 G2].
    assert (h3 = h2) as ->.
    { unfold deliver in A3. destruct (stream_data (pre (s_esc o) d)); [congruence|].
      apply bind_ok in A3. destruct A3 as (o2 & B & A3). rewrite (R2 o2 (at_some _ _ B)) in A3. cbn in A3. congruence. }
    split; [|auto]. eapply rings_trans; [|exact G2]. eapply modify_rings; eauto.
Qed.

(** Whatever a client without write access sends (short of asking for it), and
    whatever happens to its connection, no other object gets anything. *)
Lemma ro_mux w c o rd wr ro rst r : WWF w -> event_ok (EvMux c rd wr ro rst) -> w_heap w c = Some o -> client_b o = true ->
  s_readers o = [] -> no_switch w c rd -> step E w (EvMux c rd wr ro rst) = Ok r -> rings c (w_heap w) (w_heap (fst r)).
Proof.
  intros W He Hc CB RN NS H. pose proof (ww_hok W) as HK. cbn [step] in H.
  assert (IV : In c (w_objs w)) by (apply (ww_live W), live_some; eauto).
  rewrite (proj2 (mem_In _ _) IV) in H. cbn [negb] in H. apply bind_ok in H. destruct H as ([h1 d1] & A & H). cbn [fst snd] in H.
  assert (R0 : rdonly c (w_heap w)) by (intros o' X; rewrite Hc in X; injection X as <-; exact RN).
  assert (X : rings c (w_heap w) h1 /\ (d1 = false -> rdonly c h1 /\ HOK h1 /\ exists o', h1 c = Some o' /\ client_b o' = true)).
  { destruct rd as [ev|].
    - assert (Hb : forall d, ev = RdData d -> bytes_ok d) by (intros d ->; exact He).
      destruct (@ro_read rst w c o ev ro _ W Hc CB R0 NS Hb A) as [G1 K1]. cbn [fst snd] in *. split; assumption.
    - injection A as <- <-. split; [apply rings_refl|]. intros _. split; [exact R0|]. split; [exact HK|]. eauto. }
  destruct X as [G1 X]. destruct d1.
  - injection H as <-. cbn [fst destroy w_heap set_heap]. eapply rings_trans; [exact G1|apply rings_upd].
  - destruct (X eq_refl) as (R1 & K1 & o1 & H1 & C1). pose proof (proj1 (client_b_cls o1) C1) as Cc1.
    destruct wr as [rs|]; [|injection H as <-; exact G1].
    apply bind_ok in H. destruct H as ([[h2 sent] dead] & F & H). injection H as <-. cbn [fst].
    assert (G2 : rings c h1 h2).
    { unfold flush_obj in F. rewrite (at_ok _ _ H1) in F. cbn [bind] in F.
      destruct (negb (o_open (s_ring o1))); [injection F as <- _ _; apply rings_refl|].
      assert (TB : telnet_b o1 = false).
      { unfold telnet_b. rewrite console_b_eq, Cc1. now rewrite andb_false_r. }
      rewrite TB in F. cbn [andb] in F. 
      destruct (@flush_abs (e_sz E) (s_ring o1) rs (HSZ HE) (proj1 (proj2 K1 c o1 H1))) as (d & r' & WR & I' & AB & _ & _ & _ & KK & _).
      rewrite WR in F. cbn [bind] in F. destruct d.
      - apply bind_ok in F. destruct F as (x & S & F). injection F as <- _ _.
        eapply rings_trans; [apply rings_upd|]. eapply shutdown_quiet; [|apply upd_same| | |exact S].
        + eapply upd_HOK; [exact K1|exact H1| |].
          * apply gn_ring. rewrite KK. reflexivity.
          * apply (@ring_oinv E HE o1 (OFlush rs) r' (snd (qstep (e_sz E - 1) (abs (e_sz E) (s_ring o1)) (OFlush rs)))); [exact (proj2 K1 c o1 H1)|exact I|intros; exact I|].
            cbn [RingModel.step]. rewrite WR. reflexivity.
        + unfold cls_of in *. cbn. now rewrite KK.
        + intros o' Y. rewrite upd_same in Y. injection Y as <-. exact (R1 o1 H1).
      - injection F as <- _ _. apply rings_upd. }
    destruct dead; cbn [destroy w_heap set_heap].
    + eapply rings_trans; [exact G1|]. eapply rings_trans; [exact G2|apply rings_upd].
    + eapply rings_trans; eauto.
Qed.

(** ** Objects and threads appear only when a request is granted *)
Lemma set_thr_nth w t x y t' : nth_error (w_thr w) t = Some y ->
  nth_error (w_thr (set_thr w t x)) t' = if t' =? t then Some x else nth_error (w_thr w) t'.
Proof. intros Ht. change (nth_error (puts (w_thr w) t x) t' = if t' =? t then Some x else nth_error (w_thr w) t'). now rewrite (nth_puts E _ _ _ _ Ht). Qed.

Lemma step_new w e r : step E w e = Ok r -> w_next w <= w_next (fst r) /\
  (forall i, In i (w_objs (fst r)) -> In i (w_objs w) \/ i = w_next w) /\
  (forall t c todo, nth_error (w_thr (fst r)) t = Some (TRun c todo) ->
     c = w_next w \/ exists p, nth_error (w_thr w) t = Some (TRun c (p ++ todo))).
Proof.
  assert (SAME : forall t c todo, nth_error (w_thr w) t = Some (TRun c todo) ->
     c = w_next w \/ exists p, nth_error (w_thr w) t = Some (TRun c (p ++ todo))) by (intros t c todo H; right; exists []; exact H).
  assert (DEL : forall x i, In i (del x (w_objs w)) -> In i (w_objs w) \/ i = w_next w) by (intros x i H; apply del_In in H; tauto).
  intros H. destruct e as [q m|t sent ro|i rd wr ro rst|k ro|l m|l ok m]; cbn [step] in H.
  - injection H as <-. cbn. split; [lia|]. split; [auto|]. intros t c todo H.
    destruct (le_lt_dec (length (w_thr w)) t) as [L|L].
    + rewrite nth_error_app2 in H by exact L. destruct (t - length (w_thr w)) as [|j]; [|destruct j]; discriminate.
    + rewrite nth_error_app1 in H by exact L. auto.
  - destruct (nth_error (w_thr w) t) as [x|] eqn:Ht; [|injection H as <-; cbn; auto].
    assert (PUT : forall w1 y, w_thr w1 = w_thr w -> (forall c todo, y = TRun c todo -> c = w_next w \/ exists p, x = TRun c (p ++ todo)) ->
      forall t' c todo, nth_error (w_thr (set_thr w1 t y)) t' = Some (TRun c todo) ->
      c = w_next w \/ exists p, nth_error (w_thr w) t' = Some (TRun c (p ++ todo))).
    { intros w1 y Hw Hy t' c todo X. assert (Ht1 : nth_error (w_thr w1) t = Some x) by congruence.
      rewrite (set_thr_nth _ _ _ _ Ht1) in X. rewrite Hw in X. destruct (Nat.eqb_spec t' t) as [->|]; [|auto].
      injection X as X. destruct (Hy c todo X) as [Y|(p & Y)]; [auto|]. right. exists p. congruence. }
    destruct x as [q m|q sel|c [|x todo]|e].
    + apply bind_ok in H. destruct H as (a & _ & H). injection H as <-. cbn [fst set_thr w_next w_objs]. split; [lia|]. split; [auto|].
      apply (PUT w); [reflexivity|]. intros c todo X. destruct a as [e|[q' sel]]; discriminate.
    + destruct (negb sent).
      * injection H as <-. cbn [fst set_thr w_next w_objs]. split; [lia|]. split; [auto|]. apply (PUT w); [reflexivity|discriminate].
      * injection H as <-. cbn [fst set_thr w_next w_objs]. split; [lia|]. split.
        -- intros i X. apply in_app_or in X. destruct X as [X|[X|[]]]; auto.
        -- apply (PUT (mkW (upd (w_heap w) (w_next w) (Some (new_client E q))) (S (w_next w)) (w_objs w ++ [w_next w]) (w_thr w)));
             [reflexivity|]. intros c todo X. injection X as <- _. auto.
    + injection H as <-. cbn [fst set_thr w_next w_objs]. split; [lia|]. split; [auto|]. apply (PUT w); [reflexivity|discriminate].
    + apply bind_ok in H. destruct H as (h1 & _ & H). injection H as <-. cbn [fst set_thr w_next w_objs set_heap]. split; [lia|]. split; [auto|].
      apply (PUT (set_heap w h1)); [reflexivity|]. intros c' todo' X. injection X as <- <-. right. exists [x]. reflexivity.
    + injection H as <-. cbn. auto.
  - destruct (negb (mem i (w_objs w))); [injection H as <-; cbn; auto|].
    apply bind_ok in H. destruct H as (r1 & _ & H). destruct (snd r1); [injection H as <-; cbn; eauto|].
    destruct wr; [|injection H as <-; cbn; auto]. apply bind_ok in H. destruct H as ([[h2 s2] d2] & _ & H).
    injection H as <-. cbn [fst]. destruct d2; cbn; eauto.
  - destruct (negb (mem k (w_objs w))); [injection H as <-; cbn; auto|].
    apply bind_ok in H. destruct H as (o & _ & H). destruct (console_b o); [|injection H as <-; cbn; auto].
    apply bind_ok in H. destruct H as (h1 & _ & H). injection H as <-. cbn; auto.
  - destruct (negb (mem l (w_objs w))); [injection H as <-; cbn; auto|].
    apply bind_ok in H. destruct H as (o & _ & H). destruct (log_b o); [|injection H as <-; cbn; auto].
    apply bind_ok in H. destruct H as (h1 & _ & H). injection H as <-. cbn; auto.
  - destruct (negb (mem l (w_objs w))); [injection H as <-; cbn; auto|].
    apply bind_ok in H. destruct H as (o & _ & H). destruct (log_b o); [|injection H as <-; cbn; auto].
    destruct ok; [|injection H as <-; cbn; auto].
    apply bind_ok in H. destruct H as (h1 & _ & H). apply bind_ok in H. destruct H as (h2 & _ & H). injection H as <-. cbn; auto.
Qed.

(** ** A monitoring client over time *)
Definition mon (c : nat) (w : world) : Prop :=
  c < w_next w /\ rdonly c (w_heap w) /\
  (forall o, w_heap w c = Some o -> client_b o = true) /\
  forall t todo k, nth_error (w_thr w) t = Some (TRun c todo) -> ~ In (ToConsole k) todo.
Definition asks_write (w : world) (e : event) (c : nat) : Prop :=
  match e with
  | EvMux i (Some (RdData d)) _ _ _ => i = c /\ exists o, w_heap w i = Some o /\
      existsb switches (stream_cmds (pre (s_esc o) d)) = true
  | _ => False
  end.

Lemma mon_step c w e r : WWF w -> event_ok e -> step E w e = Ok r -> mon c w -> ~ asks_write w e c ->
  mon c (fst r).
Proof.
  intros W He H (Lc & R & CL & T) NA. pose proof (step_ok HE e W He) as SO. rewrite H in SO. cbn [chk] in SO. destruct SO as [W' GA].
  assert (OLD : forall o', w_heap (fst r) c = Some o' -> exists o, w_heap w c = Some o).
  { intros o' Ho'. destruct (w_heap w c) as [o|] eqn:Hc; [eauto|]. exfalso. assert (IN : In c (w_objs (fst r))) by (apply (ww_live W'), live_some; eauto).
      destruct (step_new _ _ H) as (_ & NO & _). destruct (NO c IN) as [X|X]; [|lia].
      apply (ww_live W), live_some in X. destruct X as (o & X). congruence. }
  destruct (step_new _ _ H) as (NX & _ & NT). split; [lia|]. split; [|split].
  2:{ intros o' Ho'. destruct (OLD o' Ho') as (o & Hc). destruct (GA c o o' Hc Ho') as [X _]. rewrite client_b_eq, X, <- client_b_eq. auto. }
  2:{ intros t todo k X IN. destruct (NT t c todo X) as [Y|(p & Y)]; [lia|]. apply (T t _ k Y). apply in_or_app. auto. }
  intros o' Ho'. destruct (OLD o' Ho') as (o & Hc).
  assert (RN := R o Hc). assert (CB := CL o Hc).
  assert (D : asks w e c \/ ~ asks w e c).
  { destruct e as [q m|t sent ro|i rd wr ro rst|k ro|l m|l ok m]; cbn [asks]; auto.
    - destruct (nth_error (w_thr w) t) as [[q m|q sel|c' [|x todo]|e]|] eqn:Ht;
        try (right; intros (x & todo' & X); discriminate).
      destruct (Nat.eq_dec c' c) as [->|]; [left; eauto|]. right. intros (y & todo' & X). congruence.
    - destruct rd as [[| | |d]|]; auto. right. intros (-> & o2 & x & A & B & C). apply NA. cbn. split; [reflexivity|].
      exists o2. split; [exact A|]. apply existsb_exists. eauto. }
  destruct D as [D|D].
  2:{ destruct (GA c o o' Hc Ho') as [_ X]. destruct (X D CB) as [X1 _]. clear X. rename X1 into X. rewrite RN in X. now apply incl_l_nil in X. }
  destruct e as [q m|t sent ro|i rd wr ro rst|k ro|l m|l ok m]; cbn [asks] in D; try contradiction.
  - destruct D as (x & todo & Ht). cbn [step] in H. rewrite Ht in H. apply bind_ok in H. destruct H as (h1 & A & H).
    injection H as <-. cbn [fst set_thr w_heap set_heap] in Ho'. destruct x as [k|k|k].
    + exfalso. apply (T t (ToConsole k :: todo) k Ht). now left.
    + destruct (from_link t W Ht Hc) as (_ & (ok & Hk & Ck) & ML). pose proof (ww_hok W) as HK.
      destruct (link_objs_ok HE HK ML) as (h1' & A' & M & _). cbn [do_tstep] in A. assert (h1' = h1) as -> by congruence.
      assert (BS : base (w_heap w) k c = G (w_heap w)).
      { unfold base, stealing. rewrite Hk, Hc. assert (client_b ok = false) as ->; [|reflexivity]. rewrite client_b_eq, Ck. reflexivity. }
      pose proof (proj1 M c) as Q. unfold linkg in Q. rewrite BS in Q. unfold joing in Q. rewrite (gmap_of _ _ _ _ (G_of _ _ Hc)) in Q.
      rewrite (G_of _ _ Ho') in Q. injection Q as _ Q _ _ _. rewrite Q. unfold at1.
      destruct (Nat.eqb_spec c k) as [->|]; [|exact RN]. rewrite Hk in Hc. injection Hc as <-. rewrite client_b_eq, Ck in CB. discriminate.
    + destruct (ww_thr W t Ht) as (_ & CO & _). destruct (CO k) as (nk & Hk & Ck); [now left|].
      apply G_some in Hk. destruct Hk as (ok & Hk & <-). cbn in Ck.
      destruct (check_ok HE k c ro (ww_hok W) Hk Ck Hc) as (h1' & A' & _ & Q). cbn [do_tstep] in A. assert (h1' = h1) as -> by congruence.
      pose proof (Q c) as Qc. rewrite (G_of _ _ Ho'), (G_of _ _ Hc) in Qc. injection Qc as _ Qc _ _ _. now rewrite Qc.
  - destruct rd as [[| | |d]|]; try contradiction. destruct D as (-> & o2 & x & A & B & C). exfalso. apply NA. cbn. split; [reflexivity|].
    exists o2. split; [exact A|]. apply existsb_exists. eauto.
Qed.

(** ** Broadcast clients *)
Lemma bcast_hears_nobody w c o k : WWF w -> w_heap w c = Some o -> client_b o = true -> r_bcast (s_req o) = true ->
  ~ feeds (w_heap w) k c.
Proof.
  intros W Hc CB B (ok & Hk & X). pose proof (ww_hok W) as HK.
  destruct (read_live k c HK Hk X) as (o2 & A & IN & _). rewrite Hc in A. injection A as <-.
  pose proof (wg_cl (proj1 HK) c (G_of _ _ Hc)) as CO. cbn in CO. specialize (CO (proj1 (client_b_cls o) CB)).
  unfold client_ok in CO. cbn in CO. rewrite B in CO. rewrite CO in IN. exact IN.
Qed.

(** ** Input of a client that contains no commands *)
Lemma input_step w c o d ro rst : WWF w -> w_heap w c = Some o -> client_b o = true -> bytes_ok d ->
  stream_cmds (pre (s_esc o) d) = [] -> stream_data (pre (s_esc o) d) <> [] ->
  exists w', step E w (EvMux c (Some (RdData d)) None ro rst) = Ok (w', []) /\ w_objs w' = w_objs w /\
    forall j p, j <> c -> w_heap w j = Some p -> exists p', w_heap w' j = Some p' /\
      (if mem j (s_readers o) then gets E (stream_data (pre (s_esc o) d)) false p p' else p' = p).
Proof.
  intros W Hc CB Hb NC ND. cbn [step]. pose proof (ww_hok W) as HK. pose proof (proj1 (client_b_cls o) CB) as Cc.
  assert (IV : In c (w_objs w)) by (apply (ww_live W), live_some; eauto).
  rewrite (proj2 (mem_In _ _) IV). cbn [negb]. unfold read_from_obj. rewrite (at_ok _ _ Hc). cbn [bind].
  rewrite (ww_open W c Hc CB). cbn [negb].
  assert (TB : telnet_b o = false).
  { unfold telnet_b. rewrite console_b_eq, Cc. now rewrite andb_false_r. }
  rewrite TB, CB, pce_ok. cbn [andb bind]. rewrite NC. cbn [foldr_res].
  destruct (@modify_sim E (w_heap w) c o (fun o => set_esc o (dangling (pre (s_esc o) d))) HK Hc) as (h1 & A1 & S1 & H1);
    [reflexivity|exact (proj2 HK c o Hc)|reflexivity|].
  replace (modify (w_heap w) c (fun o0 => set_esc o0 (dangling (pre (s_esc o) d)))) with (Ok h1).
  2:{ rewrite <- A1. unfold modify. now rewrite (at_ok _ _ Hc). }
  cbn [bind]. 
  assert (O1 : forall j, j <> c -> h1 j = w_heap w j).
  { intros j N. unfold modify in A1. rewrite (at_ok _ _ Hc) in A1. cbn in A1. injection A1 as <-. now rewrite upd_other. }
  destruct (deliver_each HE c (sim_HOK S1 HK) H1 (stream_bytes E (s_esc o) Hb) ND) as (h3 & -> & D & _). cbn [bind fst snd].
  exists (set_heap w h3). split; [reflexivity|]. split; [reflexivity|]. intros j p N Hj. cbn [set_heap w_heap].
  destruct (D j p) as (p' & X & Y); [now rewrite O1|]. exists p'. split; [exact X|]. cbn [s_readers set_esc] in Y.
  destruct (mem j (s_readers o)) eqn:M; [|exact Y].
  assert (log_b p = false) as LB; [|now rewrite LB in Y].
  apply mem_In in M. destruct (read_live c j HK Hc M) as (p2 & X2 & _ & T). rewrite Hj in X2. injection X2 as <-.
  rewrite Cc in T. rewrite log_b_eq. destruct (cls_of p); cbn in T; congruence.
Qed.

(** ** Console output *)
Lemma output_step w k o d ro rst : WWF w -> w_heap w k = Some o -> console_b o = true -> o_open (s_ring o) = true ->
  (telnet_b o = true -> s_state o = StUp) -> bytes_ok d ->
  let d' := if telnet_b o then snd (fst (trun (s_iac o) d)) else d in
  exists w', step E w (EvMux k (Some (RdData d)) None ro rst) = Ok (w', []) /\ w_objs w' = w_objs w /\
    forall j p, j <> k -> w_heap w j = Some p -> exists p', w_heap w' j = Some p' /\
      (if mem j (s_readers o) && negb (length d' =? 0)
       then (if log_b p then logs E j d' p p' else gets E d' false p p') else p' = p).
Proof.
  intros W Hk CB Op TU Hb d'. cbn [step]. pose proof (ww_hok W) as HK. pose proof (proj1 (console_b_cls o) CB) as Ck.
  assert (IV : In k (w_objs w)) by (apply (ww_live W), live_some; eauto).
  rewrite (proj2 (mem_In _ _) IV). cbn [negb]. unfold read_from_obj. rewrite (at_ok _ _ Hk). cbn [bind].
  rewrite Op. cbn [negb].
  assert (TT : telnet_b o && negb (state_up o) = false).
  { destruct (telnet_b o); [|reflexivity]. unfold state_up. rewrite TU by reflexivity. reflexivity. }
  rewrite TT. assert (client_b o = false) as -> by (rewrite client_b_eq, Ck; reflexivity).
  assert (DEL : forall h1 o1, HOK h1 -> h1 k = Some o1 -> s_readers o1 = s_readers o -> (forall j, j <> k -> h1 j = w_heap w j) -> bytes_ok d' ->
    exists h3, deliver E h1 k d' = Ok h3 /\ forall j p, j <> k -> w_heap w j = Some p -> exists p', h3 j = Some p' /\
      (if mem j (s_readers o) && negb (length d' =? 0)
       then (if log_b p then logs E j d' p p' else gets E d' false p p') else p' = p)).
  { intros h1 o1 K1 H1 R1 O1 B1. destruct d' as [|b l] eqn:ED.
    - exists h1. split; [reflexivity|]. intros j p N Hj. exists p. rewrite O1 by exact N. split; [exact Hj|]. cbn. now rewrite andb_false_r.
    - assert (NE : b :: l <> []) by discriminate.
      destruct (deliver_each HE k K1 H1 B1 NE) as (h3 & A & D & _). exists h3. split; [exact A|].
      intros j p N Hj. destruct (D j p) as (p' & X & Y); [now rewrite O1|]. exists p'. split; [exact X|].
      cbn [length Nat.eqb negb]. rewrite andb_true_r, <- R1. exact Y. }
  destruct (telnet_b o) eqn:TB.
  - assert (OI : oinv E o) by exact (proj2 HK k o Hk). assert (IO : iac_ok (s_iac o)) by apply OI.
    rewrite (pte_ok (s_iac o) d IO). pose proof (trun_ok d (s_iac o) IO) as IO2. pose proof (trun_bytes (s_iac o) Hb) as TBy.
    destruct (trun (s_iac o) d) as [[iac dd] rs]. cbn [fst snd] in *. subst d'. cbn [bind].
    destruct (@modify_sim E (w_heap w) k o (fun o => set_iac o iac) HK Hk) as (h1 & A1 & S1 & H1);
      [reflexivity|destruct OI as (X1 & _ & X2); split; [exact X1|split; [exact IO2|exact X2]]|reflexivity|].
    rewrite A1. cbn [bind].
    assert (O1 : forall j, j <> k -> h1 j = w_heap w j).
    { intros j N. unfold modify in A1. rewrite (at_ok _ _ Hk) in A1. cbn in A1. injection A1 as <-. now rewrite upd_other. }
    destruct (@fold_sim E _ (fun h m => put_data E h k m false) rs h1 (sim_RI S1)) as (h2 & A2 & S2).
    { intros m h2 _ S. destruct (sim_some k S H1) as (o2 & X & _).
      destruct (put_data_ok HE k m false (sim_RI S) X) as (h3 & Z & Z2 & _). eauto. }
    rewrite A2. cbn [bind]. destruct (sim_some k S2 H1) as (o2 & H2 & G2). apply gn_parts in G2. destruct G2 as (_ & G2 & _).
    assert (O2 : forall j, j <> k -> h2 j = w_heap w j).
    { revert O1 A2. clear. revert h1. induction rs as [|m rs IH]; intros h1 O1 A2 j N; cbn [foldr_res] in A2.
      - injection A2 as <-. auto.
      - apply bind_ok in A2. destruct A2 as (ha & X & A2). apply (IH ha); auto. intros i Ni.
        unfold put_data in X. apply bind_ok in X. destruct X as (oo & _ & X). apply bind_ok in X. destruct X as (r & _ & X).
        injection X as <-. rewrite upd_other by exact Ni. auto. }
    destruct (DEL h2 o2) as (h3 & -> & D); auto; [exact (sim_HOK (sim_trans S1 S2) HK)|].
    cbn [bind fst snd]. exists (set_heap w h3). auto.
  - subst d'. destruct (DEL (w_heap w) o) as (h3 & -> & D); auto. cbn [bind fst snd]. exists (set_heap w h3). auto.
Qed.

(** ** Suspended clients have no write event requested *)
Definition calm (r : obj) : Prop := is_suspended r = true -> o_open r = true -> o_pollout r = false.
Definition calms (h : heap) : Prop := forall i o, h i = Some o -> calm (s_ring o).

Lemma calms_upd h i o : calms h -> calm (s_ring o) -> calms (upd h i (Some o)).
Proof. intros H C j p Hj. unfold upd in Hj. destruct (j =? i); [injection Hj as <-; exact C|eauto]. Qed.
Lemma calm_write o d i n o' : write_obj_data SZ o d i = Ok (n, o') -> calm o -> calm o'.
Proof.
  intros H C SU Op. unfold write_obj_data in H. destruct d as [|b src]; [injection H as _ <-; auto|].
  destruct (o_eof o); [injection H as _ <-; auto|]. destruct (i && is_client o && is_quiet o); [injection H as _ <-; auto|].
  apply bind_ok in H. destruct H as (u & _ & H).
  apply bind_ok in H. destruct H as (c1 & _ & H).
  apply bind_ok in H. destruct H as (b1 & _ & H).
  apply bind_ok in H. destruct H as ([b2 i2] & _ & H).
  apply bind_ok in H. destruct H as (v & _ & H). injection H as _ <-.
  assert (SU0 : is_suspended o = true).
  { unfold is_suspended in *. destruct (negb _) in SU; cbn in SU; destruct (o_kind o); try destruct i; cbn in SU; congruence. }
  rewrite SU0 in *. cbn [negb o_pollout o_open] in *. auto.
Qed.
Lemma calm_notclient r : kcls (o_kind r) <> ClClient -> calm r.
Proof. intros N SU. unfold is_suspended in SU. destruct (o_kind r); cbn in *; congruence. Qed.
Lemma put_calms h i d f h' : put_data E h i d f = Ok h' -> calms h -> calms h'.
Proof.
  unfold put_data. intros H C. apply bind_ok in H. destruct H as (o & A & H). apply at_some in A.
  apply bind_ok in H. destruct H as ([n r] & B & H). injection H as <-. apply calms_upd; [exact C|].
  cbn. eapply calm_write; [exact B|]. eapply C; eauto.
Qed.
Lemma putlog_calms h i d h' : put_log E h i d = Ok h' -> calms h -> calms h'.
Proof.
  unfold put_log. intros H C. apply bind_ok in H. destruct H as (o & A & H). apply bind_ok in H. destruct H as ([[n r] k] & B & H).
  injection H as <-. apply calms_upd; [exact C|]. cbn. unfold write_log_data in B. apply bind_ok in B. destruct B as (ls & _ & B).
  apply bind_ok in B. destruct B as ([[ms ls'] k'] & _ & B). apply bind_ok in B. destruct B as (w & _ & B). injection B as _ <- _.
  apply calm_notclient. cbn. discriminate.
Qed.
Lemma modify_calms h i f h' : modify h i f = Ok h' -> (forall o, calm (s_ring o) -> calm (s_ring (f o))) -> calms h -> calms h'.
Proof.
  unfold modify. intros H S C. apply bind_ok in H. destruct H as (o & A & H). apply at_some in A. injection H as <-.
  apply calms_upd; [exact C|]. apply S. eapply C; eauto.
Qed.
Lemma fold_calms {A} (f : heap -> A -> res heap) : (forall h a h', f h a = Ok h' -> calms h -> calms h') ->
  forall l h h', foldr_res f h l = Ok h' -> calms h -> calms h'.
Proof.
  intros F. induction l as [|a l IH]; intros h h' H C; cbn [foldr_res] in H.
  - injection H as <-. exact C.
  - apply bind_ok in H. destruct H as (h1 & A1 & H). eauto.
Qed.
Lemma notify_calms h k m h' : notify E h k m = Ok h' -> calms h -> calms h'.
Proof.
  unfold notify. intros H C. apply bind_ok in H. destruct H as (o & _ & H). apply bind_ok in H. destruct H as (u & _ & H).
  destruct m as [|b m]; [injection H as <-; exact C|].
  apply bind_ok in H. destruct H as (h1 & A & H).
  eapply fold_calms; [|exact H|eapply fold_calms; [|exact A|exact C]].
  - intros ha a hb X Ca. cbn beta in X. destruct (mem a (s_readers o)); [injection X as <-; exact Ca|]. eapply put_calms; eauto.
  - intros ha a hb X Ca. exact (put_calms _ _ _ X Ca).
Qed.
Lemma calm_eof r : calm r -> calm (set_eof r). Proof. intros C SU Op. exact (C SU Op). Qed.
Lemma unlink_objs_calms h s d h' : unlink_objs E h s d = Ok h' -> calms h -> calms h'.
Proof.
  unfold unlink_objs. intros H C.
  apply bind_ok in H. destruct H as (h1 & A1 & H). apply bind_ok in H. destruct H as (d0 & _ & H).
  apply bind_ok in H. destruct H as (h2 & A2 & H). apply bind_ok in H. destruct H as (s1 & _ & H).
  apply bind_ok in H. destruct H as (h3 & A3 & H). apply bind_ok in H. destruct H as (s2 & _ & H).
  apply bind_ok in H. destruct H as (d2 & _ & H). apply bind_ok in H. destruct H as (h4 & A4 & H).
  apply bind_ok in H. destruct H as (u & _ & H). apply bind_ok in H. destruct H as (v & _ & H). injection H as <-.
  assert (C2 : calms h2) by (eapply modify_calms; [exact A2|auto|]; eapply modify_calms; [exact A1|auto|exact C]).
  assert (C3 : calms h3).
  { destruct (mem s (s_writers d0) && client_b s1 && console_b d0); [eapply notify_calms; eauto|]. injection A3 as <-. exact C2. }
  destruct (client_b s2 && no_links s2); [|destruct (client_b d2 && no_links d2)].
  - apply bind_ok in A4. destruct A4 as (w & _ & A4). eapply modify_calms; [exact A4| |exact C3]. intros o Co. now apply calm_eof.
  - apply bind_ok in A4. destruct A4 as (w & _ & A4). eapply modify_calms; [exact A4| |exact C3]. intros o Co. now apply calm_eof.
  - injection A4 as <-. exact C3.
Qed.
Lemma unlink_obj_calms h x h' : unlink_obj E h x = Ok h' -> calms h -> calms h'.
Proof.
  assert (W : forall n h h', unlink_writers E n h x = Ok h' -> calms h -> calms h').
  { induction n as [|n IH]; intros ha hb H C; cbn [unlink_writers] in H; apply bind_ok in H; destruct H as (o & _ & H);
      destruct (s_writers o); try (injection H as <-; exact C); try discriminate.
    apply bind_ok in H. destruct H as (h1 & A & H). eapply IH; [exact H|]. eapply unlink_objs_calms; eauto. }
  assert (R : forall n h h', unlink_readers E n h x = Ok h' -> calms h -> calms h').
  { induction n as [|n IH]; intros ha hb H C; cbn [unlink_readers] in H; apply bind_ok in H; destruct H as (o & _ & H);
      destruct (s_readers o); try (injection H as <-; exact C); try discriminate.
    apply bind_ok in H. destruct H as (h1 & A & H). eapply IH; [exact H|]. eapply unlink_objs_calms; eauto. }
  unfold unlink_obj. intros H C. apply bind_ok in H. destruct H as (o & _ & H).
  apply bind_ok in H. destruct H as (h1 & A & H). apply bind_ok in H. destruct H as (o1 & _ & H). eauto.
Qed.
Lemma link_calms h s d h' : link_objs E h s d = Ok h' -> calms h -> calms h'.
Proof.
  unfold link_objs. intros H C.
  apply bind_ok in H. destruct H as (s0 & _ & H). apply bind_ok in H. destruct H as (d0 & _ & H).
  apply bind_ok in H. destruct H as (h3 & A3 & H). apply bind_ok in H. destruct H as (s1 & _ & H).
  apply bind_ok in H. destruct H as (u1 & _ & H). apply bind_ok in H. destruct H as (h4 & A4 & H).
  apply bind_ok in H. destruct H as (d1 & _ & H). apply bind_ok in H. destruct H as (u2 & _ & H).
  apply bind_ok in H. destruct H as (h5 & A5 & H).
  apply bind_ok in H. destruct H as (u & _ & H). apply bind_ok in H. destruct H as (v & _ & H). injection H as <-.
  eapply modify_calms; [exact A5|auto|]. eapply modify_calms; [exact A4|auto|].
  destruct (client_b s0 && console_b d0); [|injection A3 as <-; exact C].
  cbv zeta in A3. apply bind_ok in A3. destruct A3 as (h1 & B1 & A3). apply bind_ok in A3. destruct A3 as (h2 & B2 & A3).
  assert (C2 : calms h2).
  { eapply fold_calms; [|exact B2|eapply notify_calms; eauto]. intros ha w hb X Ca. cbn beta in X. apply bind_ok in X. destruct X as (y & _ & X).
    destruct (client_b y); [eapply put_calms; eauto|discriminate]. }
  destruct (r_force (s_req s0) && negb (length (s_writers d0) =? 0)); [|injection A3 as <-; exact C2].
  eapply fold_calms; [|exact A3|exact C2]. intros ha w hb X Ca. cbn beta in X. apply bind_ok in X. destruct X as (y & _ & X).
  destruct (mem w (s_writers y)); [eapply unlink_obj_calms; eauto|injection X as <-; exact Ca].
Qed.
Lemma calm_close r : calm (close_fd r). Proof. intros _ Op. discriminate. Qed.
Lemma calm_open r : calm r -> calm (open_fd r).
Proof. intros C. unfold open_fd. destruct (o_open r) eqn:X; [exact C|]. intros _ _. reflexivity. Qed.
Lemma open_console_calms h k ro h' : open_console E h k ro = Ok h' -> calms h -> calms h'.
Proof.
  unfold open_console. intros H C. apply bind_ok in H. destruct H as (o & A & H). apply at_some in A.
  apply bind_ok in H. destruct H as (u & _ & H). cbv zeta in H. apply bind_ok in H. destruct H as (h2 & B & H).
  eapply fold_calms; [|exact H|eapply fold_calms; [|exact B|]].
  - intros ha a hb X Ca. exact (put_calms _ _ _ X Ca).
  - intros ha a hb X Ca. exact (notify_calms _ _ X Ca).
  - apply calms_upd; [exact C|]. cbn. pose proof (C k o A) as Co.
    destruct (ro_close ro), (ro_open ro); auto using calm_close, calm_open.
Qed.
Lemma check_calms h k c ro h' : check_console_state E h k c ro = Ok h' -> calms h -> calms h'.
Proof.
  unfold check_console_state. intros H C. apply bind_ok in H. destruct H as (o & _ & H). cbv zeta in H.
  assert (T : forall hx hy, (do h1 <- put_data E hx c (e_txt E (NDown k)) true; open_console E h1 k ro) = Ok hy -> calms hx -> calms hy).
  { intros hx hy X Cx. apply bind_ok in X. destruct X as (h1 & A & X). eapply open_console_calms; [exact X|]. eapply put_calms; eauto. }
  destruct (s_type o); try destruct (negb (o_open (s_ring o))); try destruct (s_state o);
    first [injection H as <-; exact C | eapply T; [exact H|exact C] | eapply put_calms; [exact H|exact C]].
Qed.
Lemma calm_shutdown r : calm r -> calm (shutdown_buf r).
Proof. intros C. unfold shutdown_buf. destruct (negb (o_open r)); [exact C|]. intros _ X. discriminate. Qed.
Lemma shutdown_calms h i ro r : shutdown_obj E h i ro = Ok r -> calms h -> calms (fst r).
Proof.
  unfold shutdown_obj. intros H C. apply bind_ok in H. destruct H as (o & A & H). apply at_some in A.
  destruct (negb (o_open (s_ring o))) eqn:Op; [injection H as <-; exact C|].
  assert (C1 : calms (upd h i (Some (set_ring o (shutdown_buf (s_ring o)))))).
  { apply calms_upd; [exact C|]. cbn. apply calm_shutdown. eapply C; eauto. }
  destruct (client_b o); [apply bind_ok in H; destruct H as (h2 & X & H); injection H as <-; eapply unlink_obj_calms; eauto|].
  destruct (log_b o); [injection H as <-; exact C1|].
  apply bind_ok in H. destruct H as (h2 & X & H). injection H as <-. eapply open_console_calms; eauto.
Qed.
Lemma cmd_calms rst h c x h' : exec_cmd E rst h c x = Ok h' -> calms h -> calms h'.
Proof.
  intros H C. assert (LK : forall f j, (do h1 <- set_fj h c f j; writer_linkage E h1 c) = Ok h' -> calms h').
  { intros f j X. apply bind_ok in X. destruct X as (h1 & A & X).
    assert (C1 : calms h1) by (eapply modify_calms; [exact A|auto|exact C]).
    unfold writer_linkage in X. apply bind_ok in X. destruct X as (o & _ & X). destruct (r_bcast (s_req o)); [injection X as <-; exact C1|].
    apply bind_ok in X. destruct X as (u & _ & X). apply bind_ok in X. destruct X as (v & _ & X).
    destruct (s_writers o); [discriminate|]. destruct (negb _); [eapply unlink_objs_calms|eapply link_calms]; eauto. }
  destruct x; cbn [exec_cmd] in H; eauto; unfold log_replay in H; apply bind_ok in H; destruct H as (o & A & H); apply at_some in A.
  - eapply fold_calms; [|exact H|exact C]. intros ha k hb X Ca. unfold break_one in X. apply bind_ok in X. destruct X as (oo & _ & X).
    destruct (s_type oo); first [injection X as <-; exact Ca|eapply put_calms; eauto].
  - eapply fold_calms; [|exact H|exact C]. intros ha k hb X Ca. cbn beta in X. eapply put_calms; eauto.
  - destruct (s_writers o) as [|k ws]; [injection H as <-; exact C|].
    apply bind_ok in H. destruct H as (u & _ & H). apply bind_ok in H. destruct H as (co & _ & H).
    apply bind_ok in H. destruct H as (lf & _ & H). destruct lf as [l|].
    + apply bind_ok in H. destruct H as (lo & _ & H). apply bind_ok in H. destruct H as (m & _ & H).
      destruct m; [eapply put_calms; eauto|injection H as <-; exact C].
    + destruct (e_sz E - 1 <=? _); [injection H as <-; exact C|eapply put_calms; eauto].
  - apply bind_ok in H. destruct H as (r & B & H). eapply put_calms; [exact H|]. apply calms_upd; [exact C|]. cbn.
    pose proof (C c o A) as Co. unfold toggle_quiet in B. destruct (o_kind (s_ring o)) eqn:K; try discriminate. injection B as <-.
    intros SU Op. apply Co; [|exact Op]. unfold is_suspended in *. rewrite K. exact SU.
  - eapply fold_calms; [|exact H|exact C]. intros ha k hb X Ca. cbn beta in X. eapply fold_calms; [|exact X|exact Ca].
    intros hc m hd Y Cc. cbn beta in Y. eapply notify_calms; eauto.
  - apply bind_ok in H. destruct H as (r & B & H). injection H as <-. apply calms_upd; [exact C|]. cbn.
    unfold toggle_suspend in B. destruct (o_kind (s_ring o)) as [q0 s0|ls|] eqn:K; try discriminate. injection B as <-.
    destruct s0; cbn [negb].
    + intros SU. discriminate.
    + intros SU Op. cbn in *. now rewrite Op.
Qed.
Lemma read_calms rst h i ev ro r : read_from_obj E rst h i ev ro = Ok r -> calms h -> calms (fst r).
Proof.
  unfold read_from_obj. intros H C. apply bind_ok in H. destruct H as (o & A & H). apply at_some in A.
  destruct (negb (o_open (s_ring o))); [injection H as <-; exact C|].
  destruct (telnet_b o && negb (state_up o)); [injection H as <-; exact C|].
  assert (DL : forall ha d hb, deliver E ha i d = Ok hb -> calms ha -> calms hb).
  { intros ha d hb X Ca. unfold deliver in X. destruct d; [injection X as <-; exact Ca|]. apply bind_ok in X. destruct X as (oo & _ & X).
    eapply fold_calms; [|exact X|exact Ca]. intros hc q hd Y Cc. cbn beta in Y. apply bind_ok in Y. destruct Y as (y & _ & Y).
    destruct (log_b y); [eapply putlog_calms; eauto|eapply put_calms; eauto]. }
  destruct ev as [| | |d].
  - injection H as <-. exact C.
  - eapply shutdown_calms; eauto.
  - assert (C1 : calms (upd h i (Some (set_ring o (mark_eof (s_ring o)))))).
    { apply calms_upd; [exact C|]. intros SU Op. exact (C i o A SU Op). }
    destruct (o_in (s_ring o) =? o_out (s_ring o)); [eapply shutdown_calms; eauto|injection H as <-; exact C1].
  - destruct (client_b o); [|destruct (telnet_b o)].
    + apply bind_ok in H. destruct H as ([[d' g] cs] & _ & H). apply bind_ok in H. destruct H as (h1 & A1 & H).
      apply bind_ok in H. destruct H as (h2 & A2 & H). apply bind_ok in H. destruct H as (h3 & A3 & H). injection H as <-. cbn [fst].
      eapply DL; [exact A3|]. eapply fold_calms; [|exact A2|eapply modify_calms; [exact A1|auto|exact C]].
      intros ha x hb X Ca. cbn beta in X. eapply cmd_calms; eauto.
    + apply bind_ok in H. destruct H as ([[d' iac] rs] & _ & H). apply bind_ok in H. destruct H as (h1 & A1 & H).
      apply bind_ok in H. destruct H as (h2 & A2 & H). apply bind_ok in H. destruct H as (h3 & A3 & H). injection H as <-. cbn [fst].
      eapply DL; [exact A3|]. eapply fold_calms; [|exact A2|eapply modify_calms; [exact A1|auto|exact C]].
      intros ha x hb X Ca. cbn beta in X. eapply put_calms; eauto.
    + apply bind_ok in H. destruct H as (h1 & A1 & H). injection H as <-. cbn [fst]. eapply DL; eauto.
Qed.
Lemma flush_calms h i rs ro h' s b : flush_obj E h i rs ro = Ok (h', s, b) -> calms h -> calms h'.
Proof.
  unfold flush_obj. intros H C. apply bind_ok in H. destruct H as (o & A & H). apply at_some in A.
  destruct (negb (o_open (s_ring o))) eqn:Op; [injection H as <- _ _; exact C|].
  destruct (telnet_b o && _); [apply bind_ok in H; destruct H as (h1 & X & H); injection H as <- _ _; eapply open_console_calms; eauto|].
  apply bind_ok in H. destruct H as ([[sent dead] r'] & B & H).
  assert (C1 : calms (upd h i (Some (set_ring o r')))).
  { apply calms_upd; [exact C|]. cbn. pose proof (C i o A) as Co. unfold write_to_obj in B. rewrite Op in B.
    apply bind_ok in B. destruct B as (u & _ & B). apply bind_ok in B. destruct B as (dt & _ & B).
    destruct (if o_in (s_ring o) =? o_out (s_ring o) then _ else _) as [[s1 out1] d1].
    apply bind_ok in B. destruct B as (v & _ & B). injection B as _ _ <-. intros SU Op2. cbn in *.
    destruct (_ =? _); [reflexivity|]. now apply Co. }
  destruct dead.
  - apply bind_ok in H. destruct H as (x & X & H). injection H as <- _ _. eapply shutdown_calms; eauto.
  - injection H as <- _ _. exact C1.
Qed.
Lemma step_calms w e r : step E w e = Ok r -> calms (w_heap w) -> calms (w_heap (fst r)).
Proof.
  intros H C. assert (DES : forall h i, calms h -> calms (upd h i None)).
  { intros h i Ca j p Hj. unfold upd in Hj. destruct (j =? i); [discriminate|eauto]. }
  destruct e as [q m|t sent ro|i rd wr ro rst|k ro|l m|l ok m]; cbn [step] in H.
  - injection H as <-. exact C.
  - destruct (nth_error (w_thr w) t) as [[q m|q sel|c [|x todo]|e]|]; try (injection H as <-; exact C).
    + apply bind_ok in H. destruct H as (a & _ & H). injection H as <-. exact C.
    + destruct (negb sent); injection H as <-; [exact C|]. cbn. apply calms_upd; [exact C|]. cbn. intros SU. discriminate.
    + apply bind_ok in H. destruct H as (h1 & A & H). injection H as <-. cbn.
      destruct x; cbn [do_tstep] in A; [eapply link_calms|eapply link_calms|eapply check_calms]; eauto.
  - destruct (negb (mem i (w_objs w))); [injection H as <-; exact C|].
    apply bind_ok in H. destruct H as (r1 & A & H).
    assert (C1 : calms (fst r1)).
    { destruct rd; [eapply read_calms; eauto|]. injection A as <-. exact C. }
    destruct (snd r1); [injection H as <-; cbn; auto|].
    destruct wr; [|injection H as <-; exact C1]. apply bind_ok in H. destruct H as ([[h2 s2] d2] & B & H).
    injection H as <-. cbn [fst]. pose proof (flush_calms _ _ _ B C1) as C2. destruct d2; cbn; auto.
  - destruct (negb (mem k (w_objs w))); [injection H as <-; exact C|].
    apply bind_ok in H. destruct H as (o & _ & H). destruct (console_b o); [|injection H as <-; exact C].
    apply bind_ok in H. destruct H as (h1 & A & H). injection H as <-. cbn. eapply open_console_calms; eauto.
  - destruct (negb (mem l (w_objs w))); [injection H as <-; exact C|].
    apply bind_ok in H. destruct H as (o & _ & H). destruct (log_b o); [|injection H as <-; exact C].
    apply bind_ok in H. destruct H as (h1 & A & H). injection H as <-. cbn. eapply put_calms; eauto.
  - destruct (negb (mem l (w_objs w))); [injection H as <-; exact C|].
    apply bind_ok in H. destruct H as (o & _ & H). destruct (log_b o); [|injection H as <-; exact C].
    destruct ok; [|injection H as <-; cbn; apply calms_upd; [exact C|apply calm_close]].
    apply bind_ok in H. destruct H as (h1 & A & H). apply bind_ok in H. destruct H as (h2 & B & H). injection H as <-. cbn.
    eapply modify_calms; [exact B| |].
    + intros oo _. apply calm_notclient. cbn. discriminate.
    + eapply put_calms; [exact A|]. apply calms_upd; [exact C|]. exact (calm_open (@calm_close (s_ring o))).
Qed.
Lemma run_calms : forall es w w', run E w es = Ok w' -> calms (w_heap w) -> calms (w_heap w').
Proof.
  induction es as [|e es IH]; intros w w' H C; cbn [run] in H; [injection H as <-; exact C|].
  apply bind_ok in H. destruct H as (r & A & H). eapply IH; [exact H|]. eapply step_calms; eauto.
Qed.
Lemma boot_calms : forall cs w w', boot_from E w cs = Ok w' -> calms (w_heap w) -> calms (w_heap w').
Proof.
  induction cs as [|c cs IH]; intros w w' H C; cbn [boot_from] in H; [injection H as <-; exact C|].
  apply bind_ok in H. destruct H as (w1 & A & H). eapply IH; [exact H|]. destruct c as [t [p|]]; cbn [add_console] in A.
  - apply bind_ok in A. destruct A as (h1 & A & B). injection B as <-. cbn. eapply link_calms; [exact A|].
    apply calms_upd; [apply calms_upd; [exact C|]|]; cbn; apply calm_close.
  - injection A as <-. cbn. apply calms_upd; [exact C|]. cbn. apply calm_close.
Qed.
End Env.
