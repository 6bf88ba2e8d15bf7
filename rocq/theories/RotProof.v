(** Proofs about a console's log while its file is renamed, reopened, closed. *)
From Coq Require Import Lia.
From Verif Require Import Base BaseProof RingModel RingSpec RingProof RotModel RotSpec.

Section Rot.
Variable SZ : nat.
Hypothesis HSZ : 1 < SZ.

Notation P o := (pending SZ o).

Lemma total_app a b : total (a ++ b) = total a + total b.
Proof. unfold total. induction a; cbn [app fold_right]; lia. Qed.
Lemma written_app a b : written (a ++ b) = written a ++ written b.
Proof. apply flat_map_app. Qed.
Lemma written_to_app f a b : written_to f (a ++ b) = written_to f a ++ written_to f b.
Proof. apply flat_map_app. Qed.
Lemma text_app a b : text (a ++ b) = text a ++ text b.
Proof. apply flat_map_app. Qed.

(** ** The buffer *)
Definition Buf (o : obj) : Prop := Inv SZ o /\ o_eof o = false /\ is_client o = false.

Lemma buf_close o : Buf o -> Buf (close_fd o) /\ P (close_fd o) = P o /\ o_open (close_fd o) = false.
Proof. intros (H & E & C). repeat split; auto; apply H. Qed.
Lemma buf_open o : Buf o -> Buf (open_fd o) /\ P (open_fd o) = P o /\ o_open (open_fd o) = true.
Proof.
  intros (H & E & C). unfold open_fd. destruct (o_open o) eqn:Ho.
  - repeat split; auto; apply H.
  - repeat split; auto; apply H.
Qed.

Lemma put_ok o src i : Buf o ->
  exists o' said, put SZ o src i = Ok (o', said) /\ Buf o' /\ o_open o' = o_open o /\
    P o' = enqueue (SZ - 1) (P o) src /\
    total said = (length (P o) + Nat.min (length src) (SZ - 1)) - (SZ - 1).
Proof.
  intros (HI & E & C). pose proof (@pending_length SZ o HI) as Hl. pose proof (@nbb_lt SZ o HI) as Hn.
  destruct (@write_abs SZ o src i HSZ HI) as (n & o' & Hw & HI' & Ha).
  assert (Hacc : accepts (abs SZ o) i = true).
  { unfold accepts, abs. cbn [q_eof q_client q_quiet]. rewrite E, C. destruct i; reflexivity. }
  cbn [qstep abs] in Ha. fold (abs SZ o) in Ha. rewrite Hacc in Ha. cbn [fst] in Ha.
  unfold abs in Ha. injection Ha as Hp He Hc _ Ho.
  assert (Hlen : n = Nat.min (length src) (SZ - 1)).
  { destruct src as [|s0 src'].
    - cbn in Hw. injection Hw as <- _. reflexivity.
    - destruct (@write_spec SZ o (s0 :: src') i HSZ HI) as (o2 & Hw2 & _);
        [discriminate | exact E | rewrite C, Bool.andb_false_r; reflexivity |].
      rewrite Hw in Hw2. injection Hw2 as -> _. reflexivity. }
  unfold put. rewrite Hw. cbn [bind fst snd].
  eexists; eexists. split; [reflexivity|].
  split; [repeat split; try congruence; apply HI'|]. split; [exact Ho|]. split; [exact Hp|].
  rewrite Hl, <- Hlen. clear - Hn. unfold total.
  destruct (Nat.ltb_spec (SZ - 1 - num_bytes_buffered SZ o) n); cbn [fold_right]; lia.
Qed.

Lemma after_err rs : after_intr rs = WErr -> existsb is_err rs = true.
Proof. induction rs as [|r rs IH]; cbn; [discriminate|]. destruct r; cbn; auto; discriminate. Qed.

Ltac dead_is :=
  let H := fresh in intros H;
  apply (f_equal (fun r => match r with Ok (_, d, _) => d | UB _ => false end)) in H;
  cbv beta iota in H; rewrite <- H; clear H.

(** A flush: what is sent are the first bytes, and the object dies only when writing failed. *)
Lemma flush_ok o rs : Buf o ->
  exists k dead o', write_to_obj SZ o rs = Ok (firstn k (P o), dead, o') /\ Buf o' /\
    o_open o' = o_open o /\ P o' = skipn k (P o) /\
    (o_open o = false -> k = 0) /\
    (dead = true -> k = 0 /\ existsb is_err rs = true) /\
    (o_open o = true -> P o <> [] -> after_intr rs = WErr -> dead = true).
Proof.
  intros (HI & E & C).
  destruct (@flush_abs SZ o rs HSZ HI) as (dead & o' & Hw & HI' & Ha & Hb & Hi & Hwr & Hk & _).
  cbn [qstep abs fst snd] in Hw, Ha. unfold abs in Ha. injection Ha as Hp He Hc _ Ho.
  exists (if o_open o then taken rs (length (P o)) else 0), dead, o'.
  split; [exact Hw|]. split; [repeat split; try congruence; apply HI'|].
  split; [exact Ho|]. split; [exact Hp|].
  split; [intros ->; reflexivity|].
  revert Hw. unfold write_to_obj. destruct (o_open o) eqn:Hop; cbn [negb].
  2: { dead_is. split; [discriminate|]. discriminate. }
  pose proof (@pending_length SZ o HI) as Hpl.
  assert (HI2 := HI). destruct HI2 as (Hl & Hi2 & Ho2).
  unfold ptrs_valid.
  assert (E1 : (o_in o <? SZ) = true) by (apply Nat.ltb_lt; lia).
  assert (E2 : (o_out o <? SZ) = true) by (apply Nat.ltb_lt; lia).
  rewrite E1, E2. cbn [andb assert_ bind]. rewrite iov_pending by exact HI. cbn [bind].
  rewrite E.
  pose proof (taken_after rs (length (P o))) as Ht.
  destruct (Nat.eqb_spec (o_in o) (o_out o)) as [Heq|Hne].
  - assert (Hz : length (P o) = 0).
    { rewrite Hpl. unfold num_bytes_buffered. rewrite Heq, Nat.leb_refl. lia. }
    cbn [o_in o_out]. rewrite E1, E2. cbn [andb assert_ bind]. dead_is.
    rewrite Bool.andb_false_r. cbn [orb]. split; [discriminate|].
    intros _ Hn. destruct (P o); [now elim Hn|discriminate].
  - destruct (after_intr rs) eqn:Har; cbn [o_in o_out]; cbv zeta beta iota.
    1,2: rewrite E1, E2; cbn [andb assert_ bind]; rewrite Bool.andb_false_r; cbn [orb];
         dead_is; split; [discriminate|intros _ _; discriminate].
    + rewrite E1, E2; cbn [andb assert_ bind orb]. dead_is.
      split; [intros _; split; [exact Ht|apply after_err, Har]|reflexivity].
    + rewrite E1. set (q := if SZ <=? _ then _ else _). clearbody q. cbn [andb].
      destruct (q <? SZ); cbn [assert_ bind]; [|discriminate].
      rewrite Bool.andb_false_r; cbn [orb]. dead_is.
      split; [discriminate|intros _ _; discriminate].
Qed.

(** ** One step *)
Definition Good (w : world) : Prop :=
  Buf (g_obj (w_log w)) /\
  o_open (g_obj (w_log w)) = match g_file (w_log w) with Some _ => true | None => false end.
Notation W w := (written (w_writes w)).
Notation Q w := (P (g_obj (w_log w))).

Definition queues (w w' : world) (t : list Z) : Prop :=
  W w' = W w /\ Q w' = enqueue (SZ - 1) (Q w) t /\
  total (w_said w') = total (w_said w) + ((length (Q w) + Nat.min (length t) (SZ - 1)) - (SZ - 1)).
Definition same (w w' : world) : Prop := W w' = W w /\ Q w' = Q w /\ w_said w' = w_said w.
Definition flushes (w w' : world) (rs : list wres) : Prop :=
  exists k, W w' = W w ++ firstn k (Q w) /\
    ((Q w' = skipn k (Q w) /\ w_said w' = w_said w)
     \/ (k = 0 /\ existsb is_err rs = true /\ Q w' = [] /\ total (w_said w') = total (w_said w) + length (Q w))).

Definition effect (w w' : world) (x : op) : Prop :=
  match x with
  | Put t _ => queues w w' t
  | Hup _ Fine t => queues w w' t
  | Flush rs => flushes w w' rs
  | _ => same w w'
  end.

Lemma step_ok w x : Good w -> exists w', step SZ w x = Ok w' /\ Good w' /\ effect w w' x.
Proof.
  intros (HB & HO). destruct x as [t i|rs|n r msg|n m|n|n|n]; cbn [step effect].
  - destruct (put_ok _ t i HB) as (o' & said & -> & HB' & Ho & Hp & Ht). cbn [bind fst snd].
    eexists. split; [reflexivity|]. split.
    + split; cbn [w_log g_obj g_file]; [exact HB'|congruence].
    + unfold queues. cbn [w_writes w_log g_obj w_said]. rewrite total_app, Ht. auto.
  - unfold flush_log.
    destruct (flush_ok _ rs HB) as (k & dead & o' & -> & HB' & Ho & Hp & Hk & Hd & _). cbn [bind].
    set (w1 := match g_file (w_log w) with Some f => _ | None => w end).
    assert (H1 : W w1 = W w ++ firstn k (Q w) /\ w_said w1 = w_said w).
    { unfold w1. destruct (g_file (w_log w)) as [f|] eqn:Hf.
      - destruct (firstn k (Q w)) eqn:Hq; [rewrite app_nil_r; auto|].
        cbn [w_writes w_said]. rewrite written_app. unfold written at 2. cbn [flat_map snd].
        rewrite app_nil_r. auto.
      - rewrite (Hk HO). cbn [firstn]. rewrite app_nil_r. auto. }
    destruct H1 as [H1 H2].
    pose proof (@pending_length SZ o' (proj1 HB')) as Hl.
    destruct (dead && o_open o') eqn:Hdo.
    + apply andb_prop in Hdo. destruct Hdo as [-> Hoo]. destruct (Hd eq_refl) as [-> Herr].
      eexists. split; [reflexivity|]. cbn [skipn] in Hp. split.
      * split; cbn [w_log g_obj g_file]; unfold shutdown_buf; rewrite Hoo; cbn [negb o_open]; [|reflexivity].
        destruct HB' as (HI' & E & C). repeat split; cbn [o_buf o_in o_out o_eof]; auto; try (apply HI'); lia.
      * exists 0. cbn [w_writes w_log g_obj w_said]. split; [exact H1|]. right.
        split; [reflexivity|]. split; [exact Herr|]. split.
        -- unfold shutdown_buf. rewrite Hoo. cbn [negb]. unfold pending, num_bytes_buffered.
           cbn [o_in o_out]. cbn [Nat.leb Nat.sub]. unfold lastn. rewrite Nat.sub_0_r. apply skipn_all.
        -- rewrite H2, <- Hp, Hl. destruct (Nat.ltb_spec 0 (num_bytes_buffered SZ o')).
           ++ rewrite total_app. unfold total at 2. cbn [fold_right]. lia.
           ++ lia.
    + eexists. split; [reflexivity|]. split.
      * split; cbn [w_log g_obj g_file]; [exact HB'|congruence].
      * exists k. cbn [w_writes w_log g_obj w_said]. auto.
  - unfold open_logfile_obj. destruct (buf_close _ HB) as (HBc & Hpc & Hoc).
    destruct r; cbn [effect].
    + eexists. split; [reflexivity|]. split; [split; [exact HBc|reflexivity]|].
      split; [reflexivity|]. split; [exact Hpc|reflexivity].
    + destruct (open_file (w_disk w) n (g_zero (w_log w))) as [f d].
      eexists. split; [reflexivity|]. split; [split; [exact HBc|reflexivity]|].
      split; [reflexivity|]. split; [exact Hpc|reflexivity].
    + destruct (open_file (w_disk w) n (g_zero (w_log w))) as [f d].
      destruct (buf_open _ HBc) as (HBo & Hpo & Hoo).
      destruct (put_ok _ msg false HBo) as (o' & said & -> & HB' & Ho & Hp & Ht). cbn [bind fst snd].
      eexists. split; [reflexivity|]. split.
      * split; cbn [w_log g_obj g_file]; [exact HB'|congruence].
      * unfold queues. cbn [w_writes w_log g_obj w_said]. rewrite total_app, Ht, Hp, Hpo, Hpc. auto.
  - destruct (d_name (w_disk w) n); eexists; (split; [reflexivity|]); split; try (split; assumption); repeat split.
  - eexists; (split; [reflexivity|]); split; try (split; assumption); repeat split.
  - eexists; (split; [reflexivity|]); split; try (split; assumption); repeat split.
  - destruct (d_name (w_disk w) n); eexists; (split; [reflexivity|]); split; try (split; assumption); repeat split.
Qed.

Lemma start_good d junk zero : length junk = SZ -> Good (start d junk zero).
Proof.
  intros H. split; [|reflexivity]. cbn [start w_log create_logfile_obj g_obj].
  apply buf_close. split; [apply create_inv; lia|]. split; reflexivity.
Qed.
Lemma start_empty d junk zero : length junk = SZ -> Q (start d junk zero) = [].
Proof.
  intros H. apply length_zero_iff_nil. rewrite pending_length; [reflexivity|apply (start_good d junk zero H)].
Qed.

Lemma good_waiting w : Good w -> waiting SZ w = Q w.
Proof. intros (HB & _). unfold waiting. rewrite iov_pending; [reflexivity|apply HB]. Qed.

Lemma run_ok w xs : Good w -> exists w', run SZ w xs = Ok w' /\ Good w'.
Proof.
  revert w. induction xs as [|x xs IH]; intros w H; cbn [run]; [eauto|].
  destruct (step_ok w x H) as (w' & -> & H' & _). cbn [bind]. apply IH, H'.
Qed.
Lemma run_app w xs ys : run SZ w (xs ++ ys) = do w' <- run SZ w xs; run SZ w' ys.
Proof.
  revert w. induction xs as [|x xs IH]; intros w; cbn [run app]; [reflexivity|].
  destruct (step SZ w x); cbn [bind]; auto.
Qed.

(** Induction over a run from the end. *)
Lemma run_ind (R : list op -> world -> Prop) w0 : Good w0 -> R [] w0 ->
  (forall xs w x w', run SZ w0 xs = Ok w -> Good w -> R xs w -> step SZ w x = Ok w' -> Good w' -> effect w w' x ->
     R (xs ++ [x]) w') ->
  forall xs w, run SZ w0 xs = Ok w -> R xs w.
Proof.
  intros H0 HR Hs xs. induction xs as [|x xs IH] using rev_ind; intros w H.
  - cbn in H. injection H as <-. exact HR.
  - rewrite run_app in H. destruct (run_ok w0 xs H0) as (w1 & Hr & H1). rewrite Hr in H. cbn [bind run] in H.
    destruct (step_ok w1 x H1) as (w2 & Hst & H2 & He). rewrite Hst in H. cbn [bind] in H. injection H as <-.
    exact (Hs xs w1 x w2 Hr H1 (IH w1 Hr) Hst H2 He).
Qed.

(** ** What is kept *)
Lemma enqueue_fits p t : length p + length t <= SZ - 1 -> enqueue (SZ - 1) p t = p ++ t.
Proof.
  intros H. unfold enqueue. rewrite (firstn_all2 t) by lia. apply lastn_all. rewrite app_length. lia.
Qed.
Lemma enqueue_length p t : length p <= SZ - 1 ->
  length (enqueue (SZ - 1) p t) = Nat.min (SZ - 1) (length p + Nat.min (length t) (SZ - 1)).
Proof. intros H. unfold enqueue. rewrite lastn_length, app_length, firstn_length. lia. Qed.
Lemma subseq_lastn {A} n (l : list A) : subseq (lastn n l) l.
Proof. apply subseq_skipn. Qed.
Lemma subseq_firstn {A} n (l : list A) : subseq (firstn n l) l.
Proof.
  rewrite <- (firstn_skipn n l) at 2. rewrite <- (app_nil_r (firstn n l)) at 1.
  apply subseq_app; [apply subseq_refl|constructor].
Qed.
Lemma subseq_enqueue p t : subseq (enqueue (SZ - 1) p t) (p ++ t).
Proof.
  eapply subseq_trans; [apply subseq_lastn|]. apply subseq_app; [apply subseq_refl|apply subseq_firstn].
Qed.
Lemma good_cap w : Good w -> length (Q w) <= SZ - 1.
Proof. intros ((HI & _) & _). rewrite pending_length by exact HI. apply nbb_lt, HI. Qed.

Lemma text_one x : text [x] = text_of x.
Proof. apply app_nil_r. Qed.

Lemma run_order w0 xs w : Good w0 -> w_writes w0 = [] -> Q w0 = [] -> run SZ w0 xs = Ok w ->
  subseq (W w ++ Q w) (text xs).
Proof.
  intros H0 HW HQ. revert xs w. apply run_ind; [exact H0 | rewrite HW, HQ; constructor |].
  intros xs w x w' _ HG IH _ _ He. rewrite text_app, text_one.
  assert (Hq : forall t, queues w w' t -> subseq (W w' ++ Q w') (text xs ++ t)).
  { intros t (-> & -> & _). eapply subseq_trans; [apply subseq_app; [apply subseq_refl|apply subseq_enqueue]|].
    rewrite app_assoc. apply subseq_app; [exact IH|apply subseq_refl]. }
  assert (Hn : same w w' -> subseq (W w' ++ Q w') (text xs ++ [])).
  { intros (-> & -> & _). rewrite app_nil_r. exact IH. }
  destruct x as [t i|rs|n r msg|n m|n|n|n]; cbn [effect text_of] in *; auto.
  - rewrite app_nil_r. destruct He as (k & -> & [(-> & _)|(-> & _ & -> & _)]).
    + rewrite <- app_assoc, firstn_skipn. exact IH.
    + cbn [firstn]. rewrite !app_nil_r. eapply subseq_trans; [|exact IH].
      rewrite <- (app_nil_r (W w)) at 1. apply subseq_app; [apply subseq_refl|constructor].
  - destruct r; auto.
Qed.

Lemma run_accounted w0 xs w : Good w0 -> w_writes w0 = [] -> Q w0 = [] -> w_said w0 = [] -> run SZ w0 xs = Ok w ->
  Forall (moderate SZ) xs ->
  length (text xs) = length (W w) + length (Q w) + total (w_said w).
Proof.
  intros H0 HW HQ HS. revert xs w.
  apply (run_ind (fun xs w => Forall (moderate SZ) xs -> length (text xs) = length (W w) + length (Q w) + total (w_said w)));
    [exact H0 | intros _; rewrite HW, HQ, HS; reflexivity |].
  intros xs w x w' _ HG IH _ _ He HM. apply Forall_app in HM. destruct HM as [HM1 HM2]. specialize (IH HM1).
  inversion HM2 as [|? ? Hx _]; subst. rewrite text_app, text_one, app_length, IH. unfold moderate in Hx.
  pose proof (good_cap w HG) as Hcap.
  assert (Hq : forall t, length t <= SZ - 1 -> queues w w' t ->
     length (W w) + length (Q w) + total (w_said w) + length t = length (W w') + length (Q w') + total (w_said w')).
  { intros t Ht (-> & -> & ->). rewrite enqueue_length by exact Hcap. clear - Ht Hcap. lia. }
  assert (Hn : same w w' ->
     length (W w) + length (Q w) + total (w_said w) + 0 = length (W w') + length (Q w') + total (w_said w')).
  { intros (-> & -> & ->). clear; lia. }
  destruct x as [t i|rs|n r msg|n m|n|n|n]; cbn [effect text_of] in *; auto.
  - destruct He as (k & -> & [(-> & ->)|(-> & _ & -> & ->)]).
    + rewrite app_length, firstn_length, skipn_length. clear. cbn [length]. lia.
    + rewrite app_length. cbn [firstn length]. clear; lia.
  - destruct r; auto.
Qed.

Lemma run_kept w0 xs w : Good w0 -> w_writes w0 = [] -> Q w0 = [] -> run SZ w0 xs = Ok w ->
  Forall untroubled xs -> keeps_up SZ w0 xs -> W w ++ Q w = text xs.
Proof.
  intros H0 HW HQ. revert xs w.
  apply (run_ind (fun xs w => Forall untroubled xs -> keeps_up SZ w0 xs -> W w ++ Q w = text xs));
    [exact H0 | intros _ _; rewrite HW, HQ; reflexivity |].
  intros xs w x w' Hr HG IH Hst HG' He HU HK. apply Forall_app in HU. destruct HU as [HU1 HU2].
  assert (HK1 : keeps_up SZ w0 xs).
  { intros ys zs v E Hv. apply (HK ys (zs ++ [x]) v); [rewrite E; apply app_assoc_reverse|exact Hv]. }
  specialize (IH HU1 HK1). inversion HU2 as [|? ? Hx _]; subst.
  assert (Hr' : run SZ w0 (xs ++ [x]) = Ok w').
  { rewrite run_app, Hr. cbn [bind run]. rewrite Hst. reflexivity. }
  pose proof (HK (xs ++ [x]) [] w' ltac:(symmetry; apply app_nil_r) Hr') as Hup.
  rewrite text_app, text_one in *. rewrite app_length, <- IH, app_length in Hup.
  assert (Hq : forall t, queues w w' t -> length (W w) + length (Q w) + length t <= length (W w') + (SZ - 1) ->
     W w' ++ Q w' = text xs ++ t).
  { intros t (HW' & HQ' & _) Hb. rewrite HW' in *. rewrite HQ', enqueue_fits by (clear - Hb; lia).
    rewrite <- IH. apply app_assoc. }
  assert (Hn : same w w' -> W w' ++ Q w' = text xs ++ []).
  { intros (-> & -> & _). now rewrite app_nil_r. }
  destruct x as [t i|rs|n r msg|n m|n|n|n]; cbn [effect text_of untroubled] in *; auto.
  - rewrite app_nil_r, <- IH. destruct He as (k & -> & [(-> & _)|(-> & Herr & _)]).
    + now rewrite <- app_assoc, firstn_skipn.
    + rewrite Hx in Herr. discriminate.
  - subst r. auto.
Qed.

(** ** Where it goes *)
Lemma step_where w x w' : no_hup x -> Good w -> step SZ w x = Ok w' ->
  exists ws, w_writes w' = w_writes w ++ ws /\ Forall (fun y => Some (fst y) = g_file (w_log w)) ws /\
    (g_file (w_log w') = g_file (w_log w) \/ g_file (w_log w') = None).
Proof.
  intros Hx HG Hs.
  destruct x as [t i|rs|n r msg|n m|n|n|n]; cbn [step no_hup] in *; try easy.
  - destruct (put SZ _ t i) as [[o s]|]; [|discriminate]. cbn [bind] in Hs. injection Hs as <-.
    exists []. rewrite app_nil_r. cbn. auto.
  - unfold flush_log in Hs. destruct (write_to_obj SZ _ rs) as [[[sent dead] o]|]; [|discriminate].
    cbn [bind] in Hs.
    set (w1 := match g_file (w_log w) with Some f => _ | None => w end) in Hs.
    assert (H1 : exists ws, w_writes w1 = w_writes w ++ ws /\ Forall (fun y => Some (fst y) = g_file (w_log w)) ws).
    { unfold w1. destruct (g_file (w_log w)) as [f|]; [|exists []; rewrite app_nil_r; auto].
      destruct sent; [exists []; rewrite app_nil_r; auto|]. eexists. split; [reflexivity|]. repeat constructor. }
    destruct H1 as (ws & H1 & H2). exists ws.
    destruct (dead && o_open o); injection Hs as <-; cbn [w_writes w_log g_file]; auto.
  - exists []. rewrite app_nil_r. destruct (d_name (w_disk w) n); injection Hs as <-; cbn; auto.
  - exists []. rewrite app_nil_r. injection Hs as <-; cbn; auto.
  - exists []. rewrite app_nil_r. injection Hs as <-; cbn; auto.
  - exists []. rewrite app_nil_r. destruct (d_name (w_disk w) n); injection Hs as <-; cbn; auto.
Qed.
Lemma run_where xs : forall w w', Forall no_hup xs -> Good w -> run SZ w xs = Ok w' ->
  exists ws, w_writes w' = w_writes w ++ ws /\ Forall (fun y => Some (fst y) = g_file (w_log w)) ws /\
    (g_file (w_log w') = g_file (w_log w) \/ g_file (w_log w') = None).
Proof.
  induction xs as [|x xs IH]; intros w w' HF HG Hr; cbn [run] in Hr.
  - injection Hr as <-. exists []. rewrite app_nil_r. auto.
  - inversion HF as [|? ? Hx HF']; subst.
    destruct (step_ok w x HG) as (w1 & Hs & HG1 & _). rewrite Hs in Hr. cbn [bind] in Hr.
    destruct (step_where w x w1 Hx HG Hs) as (ws1 & E1 & F1 & G1).
    destruct (IH w1 w' HF' HG1 Hr) as (ws2 & E2 & F2 & G2).
    exists (ws1 ++ ws2). rewrite E2, E1, app_assoc. split; [reflexivity|]. split.
    + apply Forall_app. split; [exact F1|]. destruct G1 as [G1|G1]; rewrite G1 in F2; [exact F2|].
      destruct ws2 as [|y ys]; [constructor|]. inversion F2; discriminate.
    + destruct G2 as [G2|G2]; rewrite G2; auto.
Qed.

Lemma open_name d n zero f d' : open_file d n zero = (f, d') -> d_name d' n = Some f.
Proof.
  unfold open_file. destruct (d_name d n) as [g|] eqn:E.
  - intros [= <- <-]. destruct zero; exact E.
  - intros [= <- <-]. cbn [d_name]. unfold set_at. rewrite Nat.eqb_refl. reflexivity.
Qed.
Lemma hup_file w n r msg w' : step SZ w (Hup n r msg) = Ok w' ->
  w_writes w' = w_writes w /\
  match r with
  | Fine => exists f, g_file (w_log w') = Some f /\ d_name (w_disk w') n = Some f
  | _ => g_file (w_log w') = None
  end.
Proof.
  cbn [step]. unfold open_logfile_obj. destruct r.
  - intros [= <-]. auto.
  - destruct (open_file _ _ _). intros [= <-]. auto.
  - destruct (open_file _ _ _) as [f d] eqn:E. destruct (put _ _ _ _) as [[o s]|]; [|discriminate].
    cbn [bind]. intros [= <-]. split; [reflexivity|]. exists f. split; [reflexivity|].
    exact (open_name _ _ _ _ _ E).
Qed.

(** ** What the files contain *)
Definition Files (d0 : disk) (z : option nat) (w : world) : Prop :=
  proper (w_disk w) /\ d_next d0 <= d_next (w_disk w) /\
  (forall f, g_file (w_log w) = Some f -> f < d_next (w_disk w)) /\
  (forall f, d_next (w_disk w) <= f -> written_to f (w_writes w) = []) /\
  (forall f, z = Some f -> f < d_next (w_disk w)) /\
  (forall f, f < d_next (w_disk w) ->
     d_text (w_disk w) f = (if match z with Some y => y =? f | None => false end then [] else contents d0 f)
                           ++ written_to f (w_writes w)).

Lemma set_at_same {A} (g : nat -> A) x v : set_at g x v x = v.
Proof. unfold set_at. now rewrite Nat.eqb_refl. Qed.
Lemma set_at_other {A} (g : nat -> A) x v y : y <> x -> set_at g x v y = g y.
Proof. intros H. unfold set_at. now rewrite (proj2 (Nat.eqb_neq y x) H). Qed.

Lemma open_files d0 z w n zero f d' : Files d0 z w -> open_file (w_disk w) n zero = (f, d') ->
  (zero = true -> z = None /\ w_writes w = []) ->
  exists z', (z' = z \/ (zero = true /\ z' = Some f)) /\ f < d_next d' /\
    forall l s, (g_file l = Some f \/ g_file l = g_file (w_log w) \/ g_file l = None) ->
      Files d0 z' (mkW d' l (w_writes w) s).
Proof.
  intros (Hp & Hn & Hg & Hw & Hz & Ht) Ho Hzero. unfold open_file in Ho.
  destruct (d_name (w_disk w) n) as [g|] eqn:E.
  - injection Ho as <- <-. pose proof (Hp n g E) as Hlt. destruct zero.
    + destruct (Hzero eq_refl) as [-> Hws]. exists (Some g). split; [auto|]. cbn [d_next]. split; [exact Hlt|].
      intros l s Hl. unfold Files. cbn [w_disk w_log w_writes d_name d_text d_next].
      split; [exact Hp|]. split; [exact Hn|]. split.
      { intros y Hy. destruct Hl as [Hl|[Hl|Hl]]; rewrite Hl in Hy; [injection Hy as <-; exact Hlt|auto|discriminate]. }
      split; [exact Hw|]. split; [intros y [= <-]; exact Hlt|].
      intros y Hy. destruct (Nat.eqb_spec g y) as [->|Hne].
      * rewrite set_at_same, Hws. reflexivity.
      * rewrite set_at_other by auto. apply Ht, Hy.
    + exists z. split; [auto|]. split; [exact Hlt|].
      intros l s Hl. split; [exact Hp|]. split; [exact Hn|]. split.
      { intros y Hy. cbn [w_log w_disk] in *. destruct Hl as [Hl|[Hl|Hl]]; rewrite Hl in Hy; [injection Hy as <-; exact Hlt|auto|discriminate]. }
      split; [exact Hw|]. split; [exact Hz|exact Ht].
  - injection Ho as <- <-. exists z. split; [auto|]. cbn [d_next]. split; [lia|].
    intros l s Hl. unfold Files. cbn [w_disk w_log w_writes d_name d_text d_next].
    split.
    { intros m y. unfold d_name, d_next. destruct (w_disk w) as [nm tx nx]. cbn in *.
      destruct (Nat.eqb_spec m n) as [->|Hne].
      - rewrite set_at_same. intros [= <-]. lia.
      - rewrite set_at_other by exact Hne. intros H. specialize (Hp m y H). cbn in Hp. lia. }
    split; [lia|]. split.
    { intros y Hy. destruct Hl as [Hl|[Hl|Hl]]; rewrite Hl in Hy; [injection Hy as <-; lia|specialize (Hg y Hy); lia|discriminate]. }
    split; [intros y Hy; apply Hw; lia|]. split; [intros y Hy; specialize (Hz y Hy); lia|].
    intros y Hy. destruct (Nat.eq_dec y (d_next (w_disk w))) as [->|Hne].
    + rewrite set_at_same, Hw by lia. unfold contents.
      destruct (Nat.ltb_spec (d_next (w_disk w)) (d_next d0)); [lia|].
      destruct z as [y|]; [destruct (y =? _)|]; reflexivity.
    + rewrite set_at_other by exact Hne. apply Ht. lia.
Qed.

(** the log's own part of the state plays no role *)
Lemma files_log d0 z w l s : Files d0 z w -> (g_file l = g_file (w_log w) \/ g_file l = None) ->
  Files d0 z (mkW (w_disk w) l (w_writes w) s).
Proof.
  intros (Hp & Hn & Hg & Hr) Hl. split; [exact Hp|]. split; [exact Hn|]. split; [|exact Hr].
  cbn [w_log w_disk]. intros f Hf. destruct Hl as [Hl|Hl]; rewrite Hl in Hf; [auto|discriminate].
Qed.

Lemma files_write d0 z w f s l sd : Files d0 z w -> g_file (w_log w) = Some f ->
  (g_file l = g_file (w_log w) \/ g_file l = None) ->
  Files d0 z (mkW (append (w_disk w) f s) l (w_writes w ++ [(f, s)]) sd).
Proof.
  intros (Hp & Hn & Hg & Hw & Hz & Ht) Hf Hl. pose proof (Hg f Hf) as Hlt.
  unfold Files, append. cbn [w_disk w_log w_writes d_name d_text d_next].
  split; [exact Hp|]. split; [exact Hn|]. split.
  { intros y Hy. destruct Hl as [Hl|Hl]; rewrite Hl in Hy; [auto|discriminate]. }
  assert (Hone : forall y, written_to y [(f, s)] = if f =? y then s else []).
  { intros y. unfold written_to. cbn [flat_map fst snd]. now rewrite app_nil_r. }
  split.
  { intros y Hy. rewrite written_to_app, Hw, Hone by exact Hy. rewrite (proj2 (Nat.eqb_neq f y)) by lia. reflexivity. }
  split; [exact Hz|].
  intros y Hy. rewrite written_to_app, Hone. destruct (Nat.eqb_spec f y) as [->|Hne].
  - rewrite set_at_same, Ht by exact Hy. symmetry; apply app_assoc.
  - rewrite set_at_other, app_nil_r by auto. apply Ht, Hy.
Qed.

Lemma files_names d0 z w nm : Files d0 z w -> (forall n f, nm n = Some f -> f < d_next (w_disk w)) ->
  Files d0 z (mkW (mkDisk nm (d_text (w_disk w)) (d_next (w_disk w))) (w_log w) (w_writes w) (w_said w)).
Proof. intros (Hp & Hr) Hnm. split; [exact Hnm|exact Hr]. Qed.

(** [g_zero] is set only until the log has been opened, so before anything was written *)
Definition Zero (z : option nat) (w : world) : Prop :=
  g_zero (w_log w) = true -> z = None /\ w_writes w = [] /\ g_file (w_log w) = None.

Lemma step_files d0 z w x w' : Files d0 z w -> Zero z w -> not_emptied x -> step SZ w x = Ok w' ->
  exists z', Files d0 z' w' /\ Zero z' w' /\ (z' = z \/ (g_zero (w_log w) = true /\ g_zero (w_log w') = false)) /\
    (g_zero (w_log w) = false -> g_zero (w_log w') = false).
Proof.
  intros HF HZ Hx Hs. destruct x as [t i|rs|n r msg|n m|n|n|n]; cbn [step not_emptied] in *.
  - destruct (put SZ _ t i) as [[o s]|]; [|discriminate]. cbn [bind fst snd] in Hs. injection Hs as <-.
    exists z. split; [apply files_log; auto|]. split; [exact HZ|auto].
  - unfold flush_log in Hs. destruct (write_to_obj SZ _ rs) as [[[sent dead] o]|]; [|discriminate].
    cbn [bind] in Hs. exists z.
    destruct (g_file (w_log w)) as [f|] eqn:Hf.
    + assert (Hz : g_zero (w_log w) = false).
      { destruct (g_zero (w_log w)) eqn:E; [|reflexivity]. destruct (HZ E) as (_ & _ & H). congruence. }
      destruct sent as [|s0 sent].
      * destruct (dead && o_open o); injection Hs as <-; (split; [apply files_log; auto|]);
          (split; [intros E; cbn [w_log g_zero] in E; congruence|auto]).
      * destruct (dead && o_open o); injection Hs as <-; cbn [w_disk w_writes w_said];
          (split; [apply files_write; auto|]);
          (split; [intros E; cbn [w_log g_zero] in E; congruence|auto]).
    + destruct (dead && o_open o); injection Hs as <-; (split; [apply files_log; auto|]);
        (split; [|auto]); intros E; cbn [w_log g_zero] in E; destruct (HZ E) as (H1 & H2 & H3);
        cbn [w_writes w_log g_file]; auto.
  - unfold open_logfile_obj in Hs. destruct r.
    + injection Hs as <-. exists z. split; [apply files_log; auto|]. split; [intros E; discriminate|auto].
    + destruct (open_file (w_disk w) n (g_zero (w_log w))) as [f d] eqn:Ho. injection Hs as <-.
      destruct (open_files d0 z w n _ f d HF Ho) as (z' & Hz' & _ & H).
      { intros E. destruct (HZ E) as (H1 & H2 & _). auto. }
      exists z'. split; [apply H; auto|]. split; [intros E; discriminate|].
      cbn [w_log g_zero]. split; [destruct Hz' as [->|[-> _]]; auto|auto].
    + destruct (open_file (w_disk w) n (g_zero (w_log w))) as [f d] eqn:Ho.
      destruct (put SZ _ msg false) as [[o s]|]; [|discriminate]. cbn [bind fst snd] in Hs. injection Hs as <-.
      destruct (open_files d0 z w n _ f d HF Ho) as (z' & Hz' & _ & H).
      { intros E. destruct (HZ E) as (H1 & H2 & _). auto. }
      exists z'. split; [apply H; auto|]. split; [intros E; discriminate|].
      cbn [w_log g_zero]. split; [destruct Hz' as [->|[-> _]]; auto|auto].
  - exists z. destruct (d_name (w_disk w) n) as [f|] eqn:E; injection Hs as <-; [|auto].
    split; [|auto]. apply files_names; [exact HF|]. destruct HF as (Hp & _). intros k y.
    unfold set_at. destruct (k =? m); [intros [= <-]; exact (Hp n f E)|].
    destruct (k =? n); [discriminate|apply Hp].
  - exists z. injection Hs as <-. split; [|auto]. apply files_names; [exact HF|].
    destruct HF as (Hp & _). intros k y. unfold set_at. destruct (k =? n); [discriminate|apply Hp].
  - injection Hs as <-. destruct (open_file (w_disk w) n false) as [f d] eqn:Ho. cbn [snd].
    destruct (open_files d0 z w n _ f d HF Ho) as (z' & Hz' & _ & H); [discriminate|].
    destruct Hz' as [->|[? _]]; [|discriminate].
    exists z. split; [apply H; auto|]. split; [exact HZ|auto].
  - destruct Hx.
Qed.

Lemma run_files d0 xs : forall z w w', Files d0 z w -> Zero z w -> Good w -> Forall not_emptied xs -> run SZ w xs = Ok w' ->
  exists z', Files d0 z' w' /\ (g_zero (w_log w) = false -> z' = z).
Proof.
  induction xs as [|x xs IH]; intros z w w' HF HZ HG HE Hr; cbn [run] in Hr.
  - injection Hr as <-. eauto.
  - inversion HE as [|? ? Hx HE']; subst.
    destruct (step_ok w x HG) as (w1 & Hs & HG1 & _). rewrite Hs in Hr. cbn [bind] in Hr.
    destruct (step_files d0 z w x w1 HF HZ Hx Hs) as (z1 & HF1 & HZ1 & Hz & Hk).
    destruct (IH z1 w1 w' HF1 HZ1 HG1 HE' Hr) as (z2 & HF2 & H2).
    exists z2. split; [exact HF2|]. intros Hzero. rewrite (H2 (Hk Hzero)).
    destruct Hz as [Hz|[Hz _]]; [exact Hz|congruence].
Qed.

Lemma start_files d junk zero : proper d -> Files d None (start d junk zero) /\ Zero None (start d junk zero).
Proof.
  intros Hp. split; [|intros _; auto]. split; [exact Hp|]. cbn [start w_disk w_log w_writes create_logfile_obj g_file].
  split; [lia|]. split; [discriminate|]. split; [reflexivity|]. split; [discriminate|].
  intros f Hf. unfold contents. rewrite (proj2 (Nat.ltb_lt _ _) Hf). symmetry; apply app_nil_r.
Qed.

Lemma files_contents d0 z w f : Files d0 z w ->
  contents (w_disk w) f = (if match z with Some y => y =? f | None => false end then [] else contents d0 f)
                          ++ written_to f (w_writes w).
Proof.
  intros (Hp & Hn & Hg & Hw & Hz & Ht). unfold contents at 1. destruct (Nat.ltb_spec f (d_next (w_disk w))) as [Hlt|Hge].
  - apply Ht, Hlt.
  - rewrite Hw by exact Hge. unfold contents. destruct (Nat.ltb_spec f (d_next d0)); [lia|].
    destruct z as [y|]; [destruct (y =? f)|]; reflexivity.
Qed.

(** the daemon itself neither renames nor removes files *)
Lemma step_daemon w x w' : daemon's x -> step SZ w x = Ok w' ->
  d_name (w_disk w') = d_name (w_disk w) /\ d_next (w_disk w') = d_next (w_disk w).
Proof.
  intros Hx Hs. destruct x as [t i|rs|n r msg|n m|n|n|n]; cbn [step daemon's] in *; try easy.
  - destruct (put SZ _ t i) as [[o s]|]; [|discriminate]. cbn [bind] in Hs. injection Hs as <-. auto.
  - unfold flush_log in Hs. destruct (write_to_obj SZ _ rs) as [[[sent dead] o]|]; [|discriminate].
    cbn [bind] in Hs. destruct (g_file (w_log w)) as [f|]; [destruct sent|];
      destruct (dead && o_open o); injection Hs as <-; auto.
Qed.
Lemma run_daemon xs : forall w w', Good w -> Forall daemon's xs -> run SZ w xs = Ok w' ->
  d_name (w_disk w') = d_name (w_disk w) /\ d_next (w_disk w') = d_next (w_disk w).
Proof.
  induction xs as [|x xs IH]; intros w w' HG HF Hr; cbn [run] in Hr.
  - injection Hr as <-. auto.
  - inversion HF as [|? ? Hx HF']; subst.
    destruct (step_ok w x HG) as (w1 & Hs & HG1 & _). rewrite Hs in Hr. cbn [bind] in Hr.
    destruct (step_daemon w x w1 Hx Hs) as [A B]. destruct (IH w1 w' HG1 HF' Hr) as [A' B'].
    split; congruence.
Qed.
Lemma daemon's_no_hup xs : Forall daemon's xs -> Forall no_hup xs.
Proof. apply Forall_impl. intros x. destruct x; easy. Qed.
Lemma daemon's_not_emptied xs : Forall daemon's xs -> Forall not_emptied xs.
Proof. apply Forall_impl. intros x. destruct x; easy. Qed.
End Rot.

Lemma written_one f ws : Forall (fun y : nat * list Z => Some (fst y) = Some f) ws ->
  written_to f ws = written ws /\ forall g, g <> f -> written_to g ws = [].
Proof.
  unfold written_to, written. induction 1 as [|[g s] ws Hx _ [IH1 IH2]]; [split; reflexivity|].
  cbn [fst] in Hx. injection Hx as ->. cbn [flat_map fst snd]. rewrite Nat.eqb_refl, IH1. split; [reflexivity|].
  intros h Hh. rewrite (proj2 (Nat.eqb_neq f h)) by auto. cbn [app]. auto.
Qed.

Lemma run_cons SZ w x xs : run SZ w (x :: xs) = do w' <- step SZ w x; run SZ w' xs.
Proof. reflexivity. Qed.

Lemma open_new d n f d' zero : proper d -> open_file d n zero = (f, d') ->
  (forall k, k <> n -> d_name d' k = d_name d k) /\
  contents d f = match d_name d n with Some g => contents d g | None => [] end /\
  (d_name d n = None -> f = d_next d).
Proof.
  intros Hp Ho. unfold open_file in Ho. destruct (d_name d n) as [g|] eqn:E.
  - injection Ho as <- <-. split; [destruct zero; reflexivity|]. split; [reflexivity|discriminate].
  - injection Ho as <- <-. split; [|split; [|reflexivity]].
    + intros k Hk. cbn [d_name]. apply set_at_other, Hk.
    + unfold contents. now rewrite Nat.ltb_irrefl.
Qed.

Lemma hup_fine SZ w n msg w' : step SZ w (Hup n Fine msg) = Ok w' ->
  exists f d, open_file (w_disk w) n (g_zero (w_log w)) = (f, d) /\ w_disk w' = d /\ g_file (w_log w') = Some f /\
    w_writes w' = w_writes w /\ g_zero (w_log w') = false.
Proof.
  cbn [step]. unfold open_logfile_obj. destruct (open_file _ _ _) as [f d] eqn:E.
  destruct (put _ _ _ _) as [[o s]|]; [|discriminate]. cbn [bind]. intros [= <-].
  exists f, d. auto.
Qed.

Lemma rotation SZ d junk n m m1 m2 ys zs us w : 1 < SZ -> length junk = SZ -> proper d -> n <> m ->
  Forall daemon's ys -> Forall daemon's zs -> Forall daemon's us ->
  let xs := Hup n Fine m1 :: ys ++ Rename n m :: zs ++ Hup n Fine m2 :: us in
  run SZ (start d junk false) xs = Ok w -> Forall untroubled xs -> keeps_up SZ (start d junk false) xs ->
  exists f1 f2, d_name (w_disk w) m = Some f1 /\ d_name (w_disk w) n = Some f2 /\ f1 <> f2 /\
    exists a, contents (w_disk w) f1 = match d_name d n with Some f => contents d f | None => [] end ++ a /\
      a ++ contents (w_disk w) f2 ++ waiting SZ w = text xs.
Proof.
  intros HSZ Hj Hp Hnm Hys Hzs Hus xs Hr HU HK.
  set (w0 := start d junk false) in *.
  pose proof (@start_good SZ HSZ d junk false Hj) as HG0. fold w0 in HG0.
  pose proof (@run_kept SZ HSZ w0 xs w HG0 eq_refl (@start_empty SZ HSZ d junk false Hj) Hr HU HK) as Hkept.
  destruct (@run_ok SZ HSZ w0 xs HG0) as (w' & Hr' & HGw). rewrite Hr in Hr'. injection Hr' as <-.
  rewrite <- (@good_waiting SZ w HGw) in Hkept.
  destruct (@start_files SZ HSZ d junk false Hp) as [HF0 HZ0]. fold w0 in HF0, HZ0.
  unfold xs in Hr. rewrite run_cons in Hr.
  destruct (@step_ok SZ HSZ w0 (Hup n Fine m1) HG0) as (w1 & S1 & HG1 & _). rewrite S1 in Hr. cbn [bind] in Hr.
  rewrite run_app in Hr.
  destruct (@run_ok SZ HSZ w1 ys HG1) as (w2 & R2 & HG2). rewrite R2 in Hr. cbn [bind] in Hr.
  rewrite run_cons in Hr.
  destruct (@step_ok SZ HSZ w2 (Rename n m) HG2) as (w3 & S3 & HG3 & _). rewrite S3 in Hr. cbn [bind] in Hr.
  rewrite run_app in Hr.
  destruct (@run_ok SZ HSZ w3 zs HG3) as (w4 & R4 & HG4). rewrite R4 in Hr. cbn [bind] in Hr.
  rewrite run_cons in Hr.
  destruct (@step_ok SZ HSZ w4 (Hup n Fine m2) HG4) as (w5 & S5 & HG5 & _). rewrite S5 in Hr. cbn [bind] in Hr.
  (* the first opening *)
  destruct (hup_fine _ _ _ _ _ S1) as (f1 & d1 & O1 & D1 & F1 & W1 & Z1).
  destruct (open_new d n f1 d1 false Hp O1) as (N1 & C1 & _).
  destruct (@step_files SZ HSZ d None w0 (Hup n Fine m1) w1 HF0 HZ0 I S1) as (z1 & HF1 & HZ1 & Hz1 & _).
  assert (z1 = None) as -> by (destruct Hz1 as [Hz1|[Hz1 _]]; [exact Hz1|discriminate]). clear Hz1.
  pose proof (open_name _ _ _ _ _ O1) as E1. rewrite <- D1 in E1.
  (* what was written until the renaming *)
  destruct (@run_where SZ HSZ ys w1 w2 (daemon's_no_hup ys Hys) HG1 R2) as (wsA & WA & FA & GA). rewrite F1 in FA, GA.
  destruct (@run_daemon SZ HSZ ys w1 w2 HG1 Hys R2) as [NA _].
  destruct (@run_files SZ HSZ d ys None w1 w2 HF1 HZ1 HG1 (daemon's_not_emptied ys Hys) R2) as (z2 & HF2 & Hz2).
  rewrite (Hz2 Z1) in *. clear z2 Hz2.
  assert (E2 : d_name (w_disk w2) n = Some f1) by (rewrite NA; exact E1).
  pose proof S3 as S3'. cbn [step] in S3. rewrite E2 in S3. injection S3 as S3.
  assert (N3 : d_name (w_disk w3) n = None /\ d_name (w_disk w3) m = Some f1).
  { rewrite <- S3. cbn [w_disk d_name]. rewrite set_at_other by exact Hnm. rewrite !set_at_same. auto. }
  assert (G3 : g_file (w_log w3) = g_file (w_log w2)) by (rewrite <- S3; reflexivity).
  assert (W3 : w_writes w3 = w_writes w2) by (rewrite <- S3; reflexivity).
  destruct (@run_where SZ HSZ zs w3 w4 (daemon's_no_hup zs Hzs) HG3 R4) as (wsB & WB & FB & _).
  assert (FB' : Forall (fun y : nat * list Z => Some (fst y) = Some f1) wsB).
  { rewrite G3 in FB. destruct GA as [GA|GA]; rewrite GA in FB; [exact FB|].
    destruct wsB; [constructor|]. inversion FB; discriminate. }
  destruct (@run_daemon SZ HSZ zs w3 w4 HG3 Hzs R4) as [NB _]. destruct N3 as [N3n N3m].
  (* the second opening *)
  destruct (hup_fine _ _ _ _ _ S5) as (f2 & d5 & O5 & D5 & F5 & W5 & Z5).
  assert (HE4 : Forall not_emptied (ys ++ Rename n m :: zs)).
  { apply Forall_app. split; [apply daemon's_not_emptied, Hys|]. constructor; [exact I|apply daemon's_not_emptied, Hzs]. }
  assert (R14 : run SZ w1 (ys ++ Rename n m :: zs) = Ok w4).
  { rewrite run_app, R2. cbn [bind]. rewrite run_cons, S3'. exact R4. }
  destruct (@run_files SZ HSZ d _ None w1 w4 HF1 HZ1 HG1 HE4 R14) as (z4 & HF4 & _).
  destruct (open_new (w_disk w4) n f2 d5 _ (proj1 HF4) O5) as (N5 & _ & Q5).
  rewrite NB in Q5. specialize (Q5 N3n).
  assert (E4 : d_name (w_disk w4) m = Some f1) by (rewrite NB; exact N3m).
  pose proof (proj1 HF4 m f1 E4) as Hlt.
  pose proof (open_name _ _ _ _ _ O5) as E5. rewrite <- D5 in E5.
  assert (E5m : d_name (w_disk w5) m = Some f1) by (rewrite D5, N5 by auto; exact E4).
  destruct (@run_where SZ HSZ us w5 w (daemon's_no_hup us Hus) HG5 Hr) as (wsC & WC & FC & _). rewrite F5 in FC.
  destruct (@run_daemon SZ HSZ us w5 w HG5 Hus Hr) as [NC _].
  (* all of it *)
  assert (R1 : run SZ w1 (ys ++ Rename n m :: zs ++ Hup n Fine m2 :: us) = Ok w).
  { rewrite run_app, R2. cbn [bind]. rewrite run_cons, S3'. cbn [bind]. rewrite run_app, R4. cbn [bind].
    rewrite run_cons, S5. exact Hr. }
  assert (HEw : Forall not_emptied (ys ++ Rename n m :: zs ++ Hup n Fine m2 :: us)).
  { apply Forall_app. split; [apply daemon's_not_emptied, Hys|]. constructor; [exact I|].
    apply Forall_app. split; [apply daemon's_not_emptied, Hzs|]. constructor; [exact I|]. apply daemon's_not_emptied, Hus. }
  destruct (@run_files SZ HSZ d _ None w1 w HF1 HZ1 HG1 HEw R1) as (z & HF & Hz). rewrite (Hz Z1) in HF. clear z Hz.
  assert (Hf : f1 <> f2) by lia.
  assert (Hww : w_writes w = (wsA ++ wsB) ++ wsC) by (rewrite WC, W5, WB, W3, WA, W1; reflexivity).
  destruct (written_one f1 (wsA ++ wsB)) as [P1 P2]; [apply Forall_app; auto|].
  destruct (written_one f2 wsC FC) as [P3 P4].
  exists f1, f2. split; [rewrite NC; exact E5m|]. split; [rewrite NC; exact E5|]. split; [exact Hf|].
  exists (written (wsA ++ wsB)).
  rewrite !(@files_contents SZ HSZ d None w) by exact HF. rewrite Hww, (written_to_app f1 (wsA ++ wsB)), (written_to_app f2 (wsA ++ wsB)), P1, P3, (P2 f2), (P4 f1) by auto.
  split; [rewrite app_nil_r, C1; reflexivity|].
  assert (C2 : contents d f2 = []).
  { unfold contents. destruct (Nat.ltb_spec f2 (d_next d)); [|reflexivity].
    destruct HF4 as (_ & Hn & _). lia. }
  rewrite C2. cbn [app]. rewrite Hww, written_app in Hkept. rewrite <- app_assoc in Hkept. exact Hkept.
Qed.
