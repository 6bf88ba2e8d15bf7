(** More effects of single events: stealing, draining a client that is going
    away, clients without write access, suspended clients. *)
From Verif Require Import Base BaseProof RingModel RingSpec RingProof LogModel LogSpec LogProof
  TelnetModel TelnetSpec TelnetProof EscModel EscSpec EscProof SessModel SessSpec SessInv SessLink SessStep SessWorld SessThread SessFacts.
Set Implicit Arguments.

Section Env.
Variable E : env.
Hypothesis HE : env_ok E.
Let SZ := e_sz E.
Notation HOK := (HOK E).
Notation evo := (evo E).
Notation WWF := (WWF E).

Lemma enqueue_ne cap p d : 0 < cap -> d <> [] -> enqueue cap p d <> [].
Proof.
  intros HC HD X. apply (f_equal (@length Z)) in X. unfold enqueue in X.
  rewrite lastn_length, app_length, firstn_length in X. destruct d as [|b d]; [congruence|]. cbn [length] in X. lia.
Qed.

(** ** Stealing, whatever else is going on *)
Lemma steal_step w t c k todo oc ok ro : WWF w ->
  nth_error (w_thr w) t = Some (TRun c (ToConsole k :: todo)) ->
  w_heap w c = Some oc -> r_force (s_req oc) = true -> w_heap w k = Some ok ->
  exists h1, step E w (EvThread t true ro) = Ok (set_thr (set_heap w h1) t (TRun c todo), []) /\
    (exists ok', h1 k = Some ok' /\ s_writers ok' = [c]) /\
    (forall v ov, In v (s_writers ok) -> w_heap w v = Some ov -> gone h1 v /\
       (o_eof (s_ring ov) = false -> is_quiet (s_ring ov) = false -> e_txt E (NArrived c k true) <> [] ->
        exists ov' p, h1 v = Some ov' /\ iov (e_sz E) (s_ring ov') = Ok p /\ p <> [] /\
          (is_suspended (s_ring ov) = false -> o_pollout (s_ring ov') = true))).
Proof.
  intros W Ht Hc Fc Hk. pose proof (ww_hok W) as HK.
  destruct (to_link t W Ht Hc) as (Cc & (ok1 & Hk1 & Ck) & ML). rewrite Hk in Hk1. injection Hk1 as <-.
  destruct (link_arrival HE HK ML Hc Hk Cc Ck) as (h1 & h' & A1 & S1 & A & M & K' & EM).
  pose proof (stealing_force (w_heap w) c k Hc Hk Cc Ck) as ST. rewrite Fc in ST. cbn [andb] in ST.
  exists h'. split; [now apply step_run with (x := ToConsole k)|].
  destruct (link_writers HK ML M Hc Hk Cc Ck) as (LW & _ & _). rewrite Fc in LW.
  split; [exact LW|]. intros v ov Hv Hov. split; [exact (gone_new _ HK ML M Hc Hk Cc Ck Fc Hv)|].
  intros EO Q T.
  assert (st : stealing (w_heap w) c k = true).
  { rewrite ST. destruct (s_writers ok); [destruct Hv|reflexivity]. }
  rewrite st in A1. destruct (notify_each HE k HK Hk Ck T) as (h1' & A1' & AO & _).
  assert (h1' = h1) as -> by congruence.
  destruct (AO v ov Hov) as (o1 & H1 & G1). rewrite (proj2 (mem_In v (s_writers ok)) Hv), orb_true_r in G1.
  destruct G1 as (_ & p & I1 & I2). rewrite EO, Q in I2. cbn [andb orb] in I2.
  assert (Cv : cls_of ov = ClClient).
  { destruct (write_live k v HK Hk Hv) as (o2 & X & _ & TY). rewrite Hov in X. injection X as <-.
    rewrite Ck in TY. destruct (cls_of ov); cbn in TY; congruence. }
  destruct (sim_some v S1 Hov) as (o1' & H1' & G1'). rewrite H1 in H1'. injection H1' as <-.
  apply gn_parts in G1'. destruct G1' as (C1 & _).
  destruct (EM v o1 H1) as (ov' & Hv' & K); [congruence|]. destruct K as (K1 & K2 & K3 & K4).
  assert (OI : oinv E ov') by exact (proj2 K' v ov' Hv'). assert (OI1 : oinv E o1) by exact (sim_RI S1 v H1).
  exists ov', (pending (e_sz E) (s_ring ov')). split; [exact Hv'|]. split; [apply iov_pending, OI|].
  assert (PN : pending (e_sz E) (s_ring ov') <> []).
  { apply K2. rewrite iov_pending in I2 by apply OI1. injection I2 as I2. rewrite I2. apply enqueue_ne; [|exact T].
    pose proof (HSZ HE). lia. }
  split; [exact PN|]. intros SU.
  assert (SMS : sames (w_heap w) h') by (eapply link_sames; exact A).
  destruct (SMS v ov Hov) as (o3 & X & (_ & Y)). rewrite Hv' in X. injection X as <-.
  assert (CV' : cls_of ov' = ClClient).
  { unfold cls_of. rewrite Y; [exact Cv|now apply client_b_cls]. }
  destruct OI as (_ & _ & FS). apply (FS CV' PN).
  - destruct (proj2 (proj2 S1) v ov Hov Cv) as (o4 & Z & (_ & _ & Z3 & _)). rewrite H1 in Z. injection Z as <-.
    rewrite K3, Z3. apply (ww_open W v Hov). now apply client_b_cls.
  - unfold is_suspended in *. rewrite Y; [exact SU|now apply client_b_cls].
Qed.

(** ** A client that has gone away *)
Lemma write_dead o rs s d o' : write_to_obj SZ o rs = Ok (s, d, o') -> o_open o = true -> o_eof o = true ->
  o_in o' = o_out o' -> d = true.
Proof.
  intros H Op Eo D. unfold write_to_obj in H. rewrite Op in H. cbn [negb] in H.
  apply bind_ok in H. destruct H as (u & _ & H). apply bind_ok in H. destruct H as (dt & _ & H).
  destruct (if o_in o =? o_out o then _ else _) as [[s1 out1] d1].
  apply bind_ok in H. destruct H as (v & _ & H). injection H as _ <- <-.
  cbn [o_in o_out] in D. rewrite <- D, Nat.eqb_refl, Eo. now rewrite orb_true_r.
Qed.
Lemma pending_nil o : Inv SZ o -> pending SZ o = [] -> o_in o = o_out o.
Proof.
  intros HI X. apply (f_equal (@length Z)) in X. rewrite pending_length in X by exact HI. cbn [length] in X.
  unfold num_bytes_buffered in X. destruct HI as (_ & I1 & I2). destruct (Nat.leb_spec (o_out o) (o_in o)); lia.
Qed.

Lemma destroyed w h' v : WWF w -> dead_ok E (w_heap w) h' v ->
  w_heap (destroy (set_heap w h') v) v = None /\ ~ In v (w_objs (destroy (set_heap w h') v)) /\
  (forall i o, w_heap (destroy (set_heap w h') v) i = Some o -> ~ In v (s_readers o) /\ ~ In v (s_writers o)).
Proof.
  intros W D. pose proof (WWF_destroy W D) as W'. cbn [destroy w_heap w_objs set_heap]. split; [apply upd_same|].
  split; [intros X; apply del_In in X; tauto|]. intros i o Hi.
  pose proof (ww_hok W') as HK'. cbn [destroy w_heap set_heap] in HK'. split; intros X.
  - destruct (read_live i v HK' Hi X) as (o2 & Y & _). rewrite upd_same in Y. discriminate.
  - destruct (write_live i v HK' Hi X) as (o2 & Y & _). rewrite upd_same in Y. discriminate.
Qed.

(** flushing everything that is left *)
Lemma drain_step w v ov p rs ro rst r : WWF w -> w_heap w v = Some ov -> client_b ov = true -> o_eof (s_ring ov) = true ->
  iov (e_sz E) (s_ring ov) = Ok p -> step E w (EvMux v None (Some rs) ro rst) = Ok (r, p) ->
  w_heap r v = None /\ ~ In v (w_objs r) /\
  (forall i o, w_heap r i = Some o -> ~ In v (s_readers o) /\ ~ In v (s_writers o)).
Proof.
  intros W Hv CB Eo IO H. cbn [step] in H.
  assert (IV : In v (w_objs w)) by (apply (ww_live W), live_some; eauto).
  rewrite (proj2 (mem_In _ _) IV) in H. cbn [negb bind fst snd] in H.
  pose proof (ww_hok W) as HK. assert (OI : oinv E ov) by exact (proj2 HK v ov Hv).
  rewrite iov_pending in IO by apply OI. injection IO as <-.
  apply bind_ok in H. destruct H as ([[h2 sent] dead] & F & H). injection H as <- ->.
  destruct (flush_ok HE v rs ro HK Hv) as (h2' & sent' & dead' & F' & SV). rewrite F in F'. injection F' as <- <- <-.
  pose proof (ww_open W v Hv CB) as Op.
  unfold flush_obj in F. rewrite (at_ok _ _ Hv) in F. cbn [bind] in F. rewrite Op in F. cbn [negb] in F.
  assert (TB : telnet_b ov = false).
  { unfold telnet_b. rewrite console_b_eq. apply client_b_cls in CB. rewrite CB. now rewrite andb_false_r. }
  rewrite TB in F. cbn [andb] in F.
  destruct (@flush_abs (e_sz E) (s_ring ov) rs (HSZ HE) (proj1 OI)) as (d & r' & WR & I' & AB & _ & _ & _ & KK & _).
  rewrite WR in F. cbn [bind] in F. cbn [qstep abs q_pending q_open snd fst] in *. rewrite Op in *.
  set (n := taken rs (length (pending (e_sz E) (s_ring ov)))) in *.
  assert (D : firstn n (pending (e_sz E) (s_ring ov)) = pending (e_sz E) (s_ring ov) -> d = true).
  { intros FE. apply (write_dead _ _ WR Op Eo). apply pending_nil; [exact I'|].
    apply (f_equal q_pending) in AB. cbn [abs q_pending] in AB. unfold SZ. rewrite AB.
    rewrite <- (firstn_skipn n (pending (e_sz E) (s_ring ov))) in FE at 2.
    rewrite <- app_nil_r in FE at 1. now apply app_inv_head in FE. }
  destruct d.
  - apply bind_ok in F. destruct F as ([h3 b] & SH & F). cbn [fst snd] in F. injection F as -> _ ->.
    assert (dead = true).
    { unfold shutdown_obj in SH. rewrite (at_ok _ _ (upd_same _ _ _)) in SH. cbn [bind] in SH.
      assert (Op2 : o_open r' = true) by (apply (f_equal q_open) in AB; cbn in AB; congruence).
      cbn [set_ring s_ring] in SH. rewrite Op2 in SH. cbn [negb] in SH.
      assert (CB2 : client_b (set_ring ov r') = true).
      { unfold client_b in *. cbn. now rewrite KK. }
      rewrite CB2 in SH. apply bind_ok in SH. destruct SH as (h4 & _ & SH). now injection SH as _ <-. }
    subst dead. cbn [served snd fst] in SV. exact (destroyed W SV).
  - injection F as <- FE <-. specialize (D FE). discriminate.
Qed.

(** end of file with nothing left to send *)
Lemma eof_step w v ov wr ro rst : WWF w -> w_heap w v = Some ov -> client_b ov = true ->
  iov (e_sz E) (s_ring ov) = Ok [] ->
  exists r, step E w (EvMux v (Some RdEof) wr ro rst) = Ok (r, []) /\ w_heap r v = None /\ ~ In v (w_objs r) /\
  (forall i o, w_heap r i = Some o -> ~ In v (s_readers o) /\ ~ In v (s_writers o)).
Proof.
  intros W Hv CB IO. cbn [step].
  assert (IV : In v (w_objs w)) by (apply (ww_live W), live_some; eauto).
  rewrite (proj2 (mem_In _ _) IV). cbn [negb bind fst snd].
  pose proof (ww_hok W) as HK. assert (OI : oinv E ov) by exact (proj2 HK v ov Hv).
  rewrite iov_pending in IO by apply OI. injection IO as PN. pose proof (ww_open W v Hv CB) as Op.
  pose proof (pending_nil (proj1 OI) PN) as IOE.
  pose proof (read_ok HE rst v (ev := RdEof) ro HK Hv) as RK.
  assert (TB : telnet_b ov = false).
  { unfold telnet_b. rewrite console_b_eq. apply client_b_cls in CB. rewrite CB. now rewrite andb_false_r. }
  unfold read_from_obj in *. rewrite (at_ok _ _ Hv) in *. cbn [bind] in *. rewrite Op in *. cbn [negb] in *.
  rewrite TB in *. cbn [andb] in *. rewrite IOE, Nat.eqb_refl in *.
  set (h1 := upd _ _ _) in *.
  assert (B : exists h2, shutdown_obj E h1 v ro = Ok (h2, true)).
  { unfold shutdown_obj in *. unfold h1 in *. rewrite (at_ok _ _ (upd_same _ _ _)) in *. cbn [bind] in *.
    cbn [set_ring s_ring mark_eof o_open] in *. rewrite Op in *. cbn [negb] in *.
    assert (X : client_b (set_ring ov (mark_eof (s_ring ov))) = true) by exact CB. rewrite X in *.
    destruct (unlink_obj E _ v) as [h2|kk]; [exists h2; reflexivity|]. exfalso. cbn in RK.
    assert (RF : forall d, RdEof = RdData d -> bytes_ok d) by discriminate. specialize (RK RF).
    unfold read_danger in RK. destruct RK as (? & ? & ? & _ & _ & X2 & _). discriminate. }
  destruct B as (h2 & B). rewrite B in *. cbn [bind fst snd]. eexists; split; [reflexivity|].
  assert (RF : forall d, RdEof = RdData d -> bytes_ok d) by discriminate. specialize (RK RF). cbn in RK.
  exact (destroyed W RK).
Qed.
End Env.
