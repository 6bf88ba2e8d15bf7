(** Proofs about the circular buffer. *)
From Verif Require Import Base BaseProof RingModel RingSpec.
Set Implicit Arguments.

Ltac ocbn := cbn [o_buf o_in o_out o_wrap o_eof o_open o_pollin o_pollout o_kind
                  assert_ bind andb negb fst snd].

Section Ring.
Variable SZ : nat.
Variable RL : nat.

(** Representation invariant. *)
Definition Inv (o : obj) : Prop :=
  length (o_buf o) = SZ /\ o_in o < SZ /\ o_out o < SZ.

(** The array read as a queue of SZ bytes, the newest last. *)
Definition rot (o : obj) : list Z :=
  skipn (o_in o) (o_buf o) ++ firstn (o_in o) (o_buf o).

Definition pending (o : obj) : list Z := lastn (num_bytes_buffered SZ o) (rot o).

Lemma rot_length o : Inv o -> length (rot o) = SZ.
Proof.
  intros (Hl & Hi & Ho). unfold rot. rewrite app_length, skipn_length, firstn_length. lia.
Qed.

Lemma nbb_lt o : Inv o -> num_bytes_buffered SZ o <= SZ - 1.
Proof.
  intros (Hl & Hi & Ho). unfold num_bytes_buffered.
  destruct (Nat.leb_spec (o_out o) (o_in o)); lia.
Qed.

Lemma pending_length o : Inv o -> length (pending o) = num_bytes_buffered SZ o.
Proof.
  intros H. unfold pending. rewrite lastn_length, rot_length by exact H.
  pose proof (nbb_lt H). lia.
Qed.

Lemma iov_pending o : Inv o -> iov SZ o = Ok (pending o).
Proof.
  intros H. pose proof (rot_length H) as HR. destruct H as (Hl & Hi & Ho).
  unfold iov, pending, num_bytes_buffered.
  destruct (Nat.ltb_spec (o_in o) (o_out o)) as [Hlt|Hge].
  - rewrite !slice_ok by lia. simpl.
    destruct (Nat.leb_spec (o_out o) (o_in o)); [lia|].
    f_equal. unfold rot, lastn. rewrite app_length, skipn_length, firstn_length.
    rewrite Nat.min_l by lia. rewrite skipn_app, skipn_length, skipn_skipn_add.
    rewrite firstn_all2 by (rewrite skipn_length; lia).
    f_equal; [f_equal; lia|].
    match goal with |- _ = skipn ?k _ => replace k with 0 by lia end. reflexivity.
  - destruct (Nat.leb_spec (o_out o) (o_in o)); [|lia].
    rewrite slice_ok by lia. f_equal.
    unfold rot. rewrite lastn_app_long by (rewrite firstn_length; lia).
    unfold lastn. rewrite firstn_length, Nat.min_l by lia.
    replace (o_in o - (o_in o - o_out o)) with (o_out o) by lia.
    rewrite firstn_skipn_comm. f_equal. f_equal. lia.
Qed.

Definition cnt (i o : nat) : nat := if o <=? i then i - o else (SZ - o) + i.

Lemma cnt_write i o L n :
  i < SZ -> o < SZ -> 0 < L -> L < SZ -> (n = i + L /\ n < SZ \/ n + SZ = i + L) ->
  cnt n (if SZ - 1 - cnt i o <? L then (if n + 1 =? SZ then 0 else n + 1) else o)
  = Nat.min (cnt i o + L) (SZ - 1).
Proof.
  intros Hi Ho HL HL2 Hn. unfold cnt.
  destruct (Nat.leb_spec o i).
  - destruct (Nat.ltb_spec (SZ - 1 - (i - o)) L).
    + destruct (Nat.eqb_spec (n+1) SZ).
      * destruct (Nat.leb_spec 0 n); lia.
      * destruct (Nat.leb_spec (n+1) n); lia.
    + destruct (Nat.leb_spec o n); lia.
  - destruct (Nat.ltb_spec (SZ - 1 - (SZ - o + i)) L).
    + destruct (Nat.eqb_spec (n+1) SZ).
      * destruct (Nat.leb_spec 0 n); lia.
      * destruct (Nat.leb_spec (n+1) n); lia.
    + destruct (Nat.leb_spec o n); lia.
Qed.

Lemma cnt_flush i o k :
  i < SZ -> o < SZ -> k <= cnt i o ->
  cnt i (if SZ <=? o + k then o + k - SZ else o + k) = cnt i o - k.
Proof.
  intros Hi Ho. unfold cnt.
  destruct (Nat.leb_spec SZ (o + k)); destruct (Nat.leb_spec o i); intros Hk;
    match goal with |- context [?a <=? i] => destruct (Nat.leb_spec a i) end; lia.
Qed.

(** One accepted write. *)
Definition wlen (src : list Z) : nat := Nat.min (length src) (SZ - 1).

Lemma write_spec o src isInfo :
  1 < SZ -> Inv o -> src <> [] -> o_eof o = false ->
  (isInfo && is_client o && is_quiet o) = false ->
  exists o',
    write_obj_data SZ o src isInfo = Ok (wlen src, o') /\
    Inv o' /\
    rot o' = skipn (wlen src) (rot o) ++ firstn (wlen src) src /\
    num_bytes_buffered SZ o' = Nat.min (num_bytes_buffered SZ o + wlen src) (SZ - 1) /\
    o_wrap o' = (o_wrap o || (SZ <=? o_in o + wlen src)) /\
    (o_in o + wlen src < SZ -> o_in o' = o_in o + wlen src) /\
    o_eof o' = false /\ o_open o' = o_open o /\ o_pollin o' = o_pollin o /\
    o_pollout o' = (if is_suspended o then o_pollout o
                    else if o_open o then true else o_pollout o) /\
    is_client o' = is_client o /\ is_quiet o' = is_quiet o /\
    is_suspended o' = is_suspended o.
Proof.
  intros HSZ HI Hne Heof Hq. pose proof (rot_length HI) as HR.
  pose proof (nbb_lt HI) as Hnb.
  assert (Hi2 : Inv o) by exact HI. destruct Hi2 as (Hl & Hi & Ho).
  unfold write_obj_data. destruct src as [|s0 src']; [congruence|].
  remember (s0 :: src') as src eqn:Esrc.
  rewrite Heof, Hq. unfold ptrs_valid.
  assert (Hlen : (if SZ <=? length src then SZ - 1 else length src) = wlen src).
  { unfold wlen. destruct (Nat.leb_spec SZ (length src)); lia. }
  rewrite Hlen.
  assert (Hpos : 0 < wlen src) by (unfold wlen; subst src; simpl length; lia).
  assert (Hle : wlen src <= length src) by (unfold wlen; lia).
  assert (Hlt : wlen src < SZ) by (unfold wlen; lia).
  set (L := wlen src) in *. clearbody L. clear Hlen.
  assert (E1 : (o_in o <? SZ) = true) by (apply Nat.ltb_lt; lia).
  assert (E2 : (o_out o <? SZ) = true) by (apply Nat.ltb_lt; lia).
  rewrite E1, E2. cbn [andb assert_ bind].
  set (m := Nat.min L (SZ - o_in o)).
  assert (Hm : 0 < m /\ m <= L /\ m <= SZ - o_in o) by (unfold m; lia).
  rewrite slice_ok by lia. cbn [bind]. cbn [skipn].
  assert (Hfm : length (firstn m src) = m) by (rewrite firstn_length; lia).
  rewrite blit_ok by lia. cbn [bind]. rewrite Hfm.
  assert (E3 : (0 <? m) = true) by (apply Nat.ltb_lt; lia).
  rewrite E3. cbn [andb].
  destruct (Nat.eqb_spec (o_in o + m) SZ) as [Hw|Hw].
  - (* the write position reaches the end of the array *)
    set (b1 := firstn (o_in o) (o_buf o) ++ firstn m src ++ skipn (o_in o + m) (o_buf o)).
    assert (Hb1 : b1 = firstn (o_in o) (o_buf o) ++ firstn m src).
    { unfold b1. rewrite (skipn_all2 (o_buf o)) by lia. now rewrite app_nil_r. }
    rewrite Hb1. clear Hb1 b1.
    set (n := L - m).
    assert (Hn : n < o_in o \/ n = 0) by lia.
    assert (Hif : (if 0 <? n
         then do chunk2 <- slice src m n;
              do buf2 <- blit (firstn (o_in o) (o_buf o) ++ firstn m src) 0 chunk2;
              Ok (buf2, 0 + n)
         else Ok (firstn (o_in o) (o_buf o) ++ firstn m src, 0))
       = Ok (firstn n (skipn m src) ++ skipn n (firstn (o_in o) (o_buf o)) ++ firstn m src, n)).
    { destruct (Nat.ltb_spec 0 n) as [Hn0|Hn0].
      - rewrite slice_ok by lia. cbn [bind].
        assert (Hfn : length (firstn n (skipn m src)) = n)
          by (rewrite firstn_length, skipn_length; lia).
        rewrite blit_ok by (rewrite Hfn, app_length, firstn_length; lia).
        cbn [bind]. rewrite Hfn. cbn [firstn app]. do 3 f_equal.
        cbn [plus]. rewrite skipn_app, firstn_length, Nat.min_l by lia.
        replace (n - o_in o) with 0 by lia. reflexivity.
      - replace n with 0 by lia. reflexivity. }
    rewrite Hif. clear Hif. cbn [bind].
    set (B2 := firstn n (skipn m src) ++ skipn n (firstn (o_in o) (o_buf o)) ++ firstn m src).
    assert (HB2 : length B2 = SZ).
    { unfold B2. rewrite !app_length, !firstn_length, !skipn_length, !firstn_length. lia. }
    assert (Hrot : skipn n B2 ++ firstn n B2 = skipn L (rot o) ++ firstn L src).
    { unfold B2.
      assert (Hfn : length (firstn n (skipn m src)) = n)
          by (rewrite firstn_length, skipn_length; lia).
      rewrite skipn_app, firstn_app, Hfn, Nat.sub_diag, (skipn_all2 (firstn n _)) by lia.
      cbn [firstn skipn app]. rewrite app_nil_r, firstn_firstn_min, Nat.min_id.
      unfold rot. rewrite skipn_app, skipn_skipn_add, (skipn_all2 (o_buf o)) by lia.
      rewrite skipn_length. cbn [app]. rewrite <- app_assoc. f_equal; [f_equal; lia|].
      replace L with (m + n) by lia.
      rewrite <- (firstn_skipn m src) at 3. rewrite firstn_app, firstn_firstn_min, firstn_length.
      f_equal; f_equal; lia. }
    set (ov := (SZ - 1 - num_bytes_buffered SZ o <? L)).
    set (out' := if ov then (if n + 1 =? SZ then 0 else n + 1) else o_out o).
    assert (Hout : out' < SZ).
    { unfold out'. destruct ov; [|lia]. destruct (Nat.eqb_spec (n+1) SZ); lia. }
    assert (Hnbb : forall o2, o_in o2 = n -> o_out o2 = out' ->
       num_bytes_buffered SZ o2 = Nat.min (num_bytes_buffered SZ o + L) (SZ - 1)).
    { intros o2 H1 H2. change (num_bytes_buffered SZ o2) with (cnt (o_in o2) (o_out o2)).
      rewrite H1, H2. apply cnt_write; lia. }
    assert (E4 : (n <? SZ) = true) by (apply Nat.ltb_lt; lia).
    assert (E5 : (out' <? SZ) = true) by (apply Nat.ltb_lt; lia).
    assert (E6 : (SZ <=? o_in o + L) = true) by (apply Nat.leb_le; lia).
    destruct (is_suspended o) eqn:Hs; cbn [negb]; unfold set_pollout; ocbn;
      rewrite E4, E5; ocbn; (eexists; split; [reflexivity|]); unfold Inv; ocbn;
      (split; [repeat split; first [assumption | lia]|]);
      (split; [exact Hrot|]); (split; [apply Hnbb; reflexivity|]);
      (split; [rewrite E6; reflexivity|]); (split; [intros; lia|]);
      repeat split; try assumption; try reflexivity;
      unfold is_client, is_quiet, is_suspended in *; ocbn;
      destruct (o_kind o); try destruct isInfo; first [reflexivity | assumption].
  - (* no wrap-around *)
    assert (HmL : m = L) by lia. rewrite HmL in *. clear HmL.
    replace (L - L) with 0 by lia. change (0 <? 0) with false. cbn [bind].
    set (B2 := firstn (o_in o) (o_buf o) ++ firstn L src ++ skipn (o_in o + L) (o_buf o)).
    assert (HB2 : length B2 = SZ).
    { unfold B2. rewrite !app_length, !firstn_length, !skipn_length. lia. }
    set (n := o_in o + L).
    assert (Hrot : skipn n B2 ++ firstn n B2 = skipn L (rot o) ++ firstn L src).
    { unfold B2.
      rewrite app_assoc. 
      assert (Hfn : length (firstn (o_in o) (o_buf o) ++ firstn L src) = n)
          by (rewrite app_length, !firstn_length; unfold n; lia).
      rewrite skipn_app, firstn_app, Hfn, Nat.sub_diag, skipn_all2 by lia.
      cbn [firstn skipn app]. rewrite app_nil_r, (firstn_all2 (_ ++ _)) by lia.
      unfold rot. rewrite skipn_app, skipn_skipn_add, skipn_length.
      replace (L - (length (o_buf o) - o_in o)) with 0 by lia.
      cbn [skipn]. rewrite <- app_assoc. f_equal. f_equal. unfold n. lia. }
    set (ov := (SZ - 1 - num_bytes_buffered SZ o <? L)).
    set (out' := if ov then (if n + 1 =? SZ then 0 else n + 1) else o_out o).
    assert (Hn : n < SZ) by (unfold n; lia).
    assert (Hout : out' < SZ).
    { unfold out'. destruct ov; [|lia]. destruct (Nat.eqb_spec (n+1) SZ); lia. }
    assert (Hnbb : forall o2, o_in o2 = n -> o_out o2 = out' ->
       num_bytes_buffered SZ o2 = Nat.min (num_bytes_buffered SZ o + L) (SZ - 1)).
    { intros o2 H1 H2. change (num_bytes_buffered SZ o2) with (cnt (o_in o2) (o_out o2)).
      rewrite H1, H2. apply cnt_write; lia. }
    assert (E4 : (n <? SZ) = true) by (apply Nat.ltb_lt; lia).
    assert (E5 : (out' <? SZ) = true) by (apply Nat.ltb_lt; lia).
    assert (E6 : (SZ <=? n) = false) by (apply Nat.leb_gt; lia).
    fold n.
    destruct (is_suspended o) eqn:Hs; cbn [negb]; unfold set_pollout; ocbn;
      rewrite E4, E5; ocbn; (eexists; split; [reflexivity|]); unfold Inv; ocbn;
      (split; [repeat split; first [assumption | lia]|]);
      (split; [exact Hrot|]); (split; [apply Hnbb; reflexivity|]);
      (split; [rewrite E6; reflexivity|]); (split; [intros; lia|]);
      repeat split; try assumption; try reflexivity;
      unfold is_client, is_quiet, is_suspended in *; ocbn;
      destruct (o_kind o); try destruct isInfo; first [reflexivity | assumption].
Qed.

Definition abs (o : obj) : queue :=
  mkQ (pending o) (o_eof o) (is_client o) (is_quiet o) (o_open o).

Lemma pending_same o o2 :
  o_buf o2 = o_buf o -> o_in o2 = o_in o -> o_out o2 = o_out o -> pending o2 = pending o.
Proof. unfold pending, rot, num_bytes_buffered. now intros -> -> ->. Qed.

Lemma enqueue_cut CAP p d :
  enqueue CAP p d = lastn CAP (p ++ firstn (Nat.min (length d) CAP) d).
Proof.
  unfold enqueue. do 2 f_equal.
  destruct (le_lt_dec CAP (length d)).
  - f_equal; lia.
  - rewrite !firstn_all2 by lia. reflexivity.
Qed.

Lemma write_abs o src isInfo :
  1 < SZ -> Inv o ->
  exists n o', write_obj_data SZ o src isInfo = Ok (n, o') /\ Inv o' /\
    abs o' = fst (qstep (SZ - 1) (abs o) (OWrite src isInfo)).
Proof.
  intros HSZ HI. cbn [qstep abs]. fold (abs o).
  assert (Hnil : lastn (SZ - 1) (pending o ++ []) = pending o).
  { rewrite app_nil_r. apply lastn_all. rewrite pending_length by exact HI. apply nbb_lt, HI. }
  destruct src as [|s0 src'].
  { exists 0, o. split; [reflexivity|]. split; [exact HI|].
    destruct (accepts (abs o) isInfo); [|reflexivity].
    cbn [fst]. unfold enqueue. rewrite firstn_nil, Hnil. reflexivity. }
  remember (s0 :: src') as src eqn:Esrc.
  assert (Hne : src <> []) by (subst; discriminate).
  unfold accepts. cbn [abs q_eof q_client q_quiet].
  destruct (o_eof o) eqn:Heof.
  { exists 0, o. unfold write_obj_data. rewrite Esrc, Heof. cbn. auto. }
  destruct (isInfo && is_client o && is_quiet o) eqn:Hq.
  { exists 0, o. unfold write_obj_data. rewrite Esrc, Heof, Hq. cbn. auto. }
  destruct (write_spec isInfo HSZ HI Hne Heof Hq) as
    (o' & Hw & HI' & Hrot & Hn & Hwrap & Hin & He & Hop & Hpi & Hpo & Hc & Hqu & Hs).
  exists (wlen src), o'. split; [exact Hw|]. split; [exact HI'|].
  cbn [negb andb fst]. unfold abs at 1. rewrite He, Hc, Hqu, Hop. f_equal.
  rewrite enqueue_cut. unfold pending. rewrite Hrot, Hn. fold (wlen src).
  pose proof (rot_length HI) as HRl. pose proof (nbb_lt HI).
  set (L := wlen src) in *. assert (HL : L <= SZ - 1) by (unfold L, wlen; lia).
  assert (HL2 : L <= length src) by (unfold L, wlen; lia).
  assert (Hfl : length (firstn L src) = L) by (rewrite firstn_length; lia).
  rewrite !lastn_app_short by lia. rewrite !Hfl. f_equal.
  rewrite lastn_skipn by lia.
  destruct (le_lt_dec (num_bytes_buffered SZ o) (SZ - 1 - L)).
  - rewrite (@lastn_all _ (SZ - 1 - L)) by (rewrite lastn_length; lia). f_equal. lia.
  - rewrite lastn_lastn by lia. f_equal. lia.
Qed.

Lemma taken_after rs n :
  match after_intr rs with WAccept k => taken rs n = Nat.min k n | _ => taken rs n = 0 end.
Proof. induction rs as [|r rs IH]; cbn; [reflexivity|]. destruct r; auto. Qed.

Lemma nbb_zero o : Inv o -> num_bytes_buffered SZ o = 0 -> o_in o = o_out o.
Proof.
  intros (Hl & Hi & Ho). unfold num_bytes_buffered.
  destruct (Nat.leb_spec (o_out o) (o_in o)); lia.
Qed.

Lemma flush_abs o rs :
  1 < SZ -> Inv o ->
  exists dead o', write_to_obj SZ o rs =
      Ok (snd (qstep (SZ - 1) (abs o) (OFlush rs)), dead, o') /\ Inv o' /\
    abs o' = fst (qstep (SZ - 1) (abs o) (OFlush rs)) /\
    o_buf o' = o_buf o /\ o_in o' = o_in o /\ o_wrap o' = o_wrap o /\ o_kind o' = o_kind o /\
    o_pollin o' = o_pollin o /\
    (o_open o = true -> o_pollout o' = true <-> pending o' <> [] /\ o_pollout o = true).
Proof.
  intros HSZ HI. cbn [qstep abs].
  unfold write_to_obj. destruct (o_open o) eqn:Hop; cbn [negb].
  2:{ exists false, o. cbn [firstn skipn fst snd]. repeat split; auto.
      all: try (apply HI).
      all: try discriminate. unfold abs. rewrite Hop. reflexivity. }
  pose proof (pending_length HI) as Hpl. pose proof (nbb_lt HI) as Hnb.
  pose proof (rot_length HI) as HRl.
  assert (HI2 : Inv o) by exact HI. destruct HI2 as (Hl & Hi & Ho).
  unfold ptrs_valid.
  assert (E1 : (o_in o <? SZ) = true) by (apply Nat.ltb_lt; lia).
  assert (E2 : (o_out o <? SZ) = true) by (apply Nat.ltb_lt; lia).
  rewrite E1, E2. cbn [andb assert_ bind]. rewrite iov_pending by exact HI. cbn [bind].
  set (n := taken rs (length (pending o))).
  assert (Hn : n <= length (pending o)).
  { unfold n. generalize (taken_after rs (length (pending o))).
    destruct (after_intr rs); intros ->; lia. }
  set (out' := if SZ <=? o_out o + n then o_out o + n - SZ else o_out o + n).
  assert (Hout : out' < SZ).
  { unfold out'. destruct (Nat.leb_spec SZ (o_out o + n)); lia. }
  assert (Hcase : exists dead1,
     (if o_in o =? o_out o then ([], o_out o, false)
      else match after_intr rs with
           | WErr => ([], o_out o, true)
           | WAccept k =>
               (firstn (Nat.min k (length (pending o))) (pending o),
                (if SZ <=? o_out o + Nat.min k (length (pending o))
                 then o_out o + Nat.min k (length (pending o)) - SZ
                 else o_out o + Nat.min k (length (pending o))), false)
           | _ => ([], o_out o, false)
           end) = (firstn n (pending o), out', dead1)).
  { assert (H0 : n = 0 -> out' = o_out o).
    { intros Hz. unfold out'. rewrite Hz. destruct (Nat.leb_spec SZ (o_out o + 0)); lia. }
    destruct (Nat.eqb_spec (o_in o) (o_out o)) as [He|He].
    - assert (n = 0).
      { assert (length (pending o) = 0); [|lia]. rewrite Hpl. unfold num_bytes_buffered.
        destruct (Nat.leb_spec (o_out o) (o_in o)); lia. }
      exists false. rewrite H0 by assumption. replace n with 0 by lia. reflexivity.
    - pose proof (taken_after rs (length (pending o))) as Ht. fold n in Ht.
      destruct (after_intr rs) as [| | |k]; cbv zeta;
        try (rewrite (H0 Ht), Ht; eexists; reflexivity).
      rewrite <- Ht. fold out'. eexists; reflexivity. }
  destruct Hcase as (dead1 & Hcase). rewrite Hcase.
  ocbn. fold out'.
  assert (E3 : (out' <? SZ) = true) by (apply Nat.ltb_lt; lia).
  rewrite E3. ocbn. rewrite E1. ocbn.
  set (o' := mkObj _ _ _ _ _ _ _ _ _).
  assert (HI' : Inv o') by (unfold Inv, o'; ocbn; auto).
  assert (Hnbb : num_bytes_buffered SZ o' = num_bytes_buffered SZ o - n).
  { rewrite Hpl in Hn. exact (cnt_flush Hi Ho Hn). }
  assert (Hp' : pending o' = skipn n (pending o)).
  { unfold pending. rewrite skipn_lastn by lia. rewrite Hnbb. reflexivity. }
  eexists; exists o'. split; [reflexivity|]. split; [exact HI'|].
  split. { unfold abs. rewrite Hp'. unfold o', is_client, is_quiet. ocbn. reflexivity. }
  repeat split; try reflexivity.
  - unfold o' in H0; cbn [o_pollout] in H0.
    destruct (Nat.eqb_spec (o_in o) out') as [He|He]; [discriminate|].
    intros Hz. apply He. change out' with (o_out o'). change (o_in o) with (o_in o').
    apply nbb_zero; [exact HI'|]. rewrite <- pending_length by exact HI'. now rewrite Hz.
  - unfold o' in H0; cbn [o_pollout] in H0.
    destruct (Nat.eqb_spec (o_in o) out') as [He|He]; [discriminate|exact H0].
  - intros [Hne Hpo]. unfold o'; cbn [o_pollout].
    destruct (Nat.eqb_spec (o_in o) out') as [He|He]; [|exact Hpo].
    exfalso; apply Hne. apply length_zero_iff_nil. rewrite pending_length by exact HI'.
    unfold num_bytes_buffered, o'. ocbn. rewrite He. rewrite Nat.leb_refl. lia.
Qed.

Lemma step_abs o x :
  1 < SZ -> Inv o -> op_allowed (is_client o) x ->
  exists o', step SZ o x = Ok (o', snd (qstep (SZ - 1) (abs o) x)) /\ Inv o' /\
    abs o' = fst (qstep (SZ - 1) (abs o) x).
Proof.
  intros HSZ HI Hal. destruct x as [d i|rs| | | | | |].
  - destruct (write_abs d i HSZ HI) as (n & o' & Hw & HI' & Ha).
    exists o'. cbn [step]. rewrite Hw. cbn [bind snd]. split; [|auto].
    do 2 f_equal. cbn [qstep abs]. destruct (accepts _ i); reflexivity.
  - destruct (flush_abs rs HSZ HI) as (dead & o' & Hw & HI' & Ha & _).
    exists o'. cbn [step]. rewrite Hw. cbn [bind]. auto.
  - exists (mark_eof o). split; [reflexivity|]. split; [exact HI|]. reflexivity.
  - cbn [step]. unfold toggle_quiet. cbn in Hal. unfold is_client in Hal.
    destruct (o_kind o) as [q s|ls|] eqn:Hk; try discriminate.
    eexists; split; [reflexivity|]. split; [exact HI|].
    unfold abs, is_client, is_quiet. cbn. rewrite Hk. reflexivity.
  - cbn [step]. unfold toggle_suspend. cbn in Hal. unfold is_client in Hal.
    destruct (o_kind o) as [q s|ls|] eqn:Hk; try discriminate.
    eexists; split; [reflexivity|]. split.
    + destruct s; exact HI.
    + unfold abs, is_client, is_quiet. rewrite Hk. destruct s; cbn; reflexivity.
  - cbn [step]. unfold shutdown_buf. exists (if negb (o_open o) then o else
       mkObj (o_buf o) 0 0 (o_wrap o) false false false false (o_kind o)).
    cbn [qstep abs]. destruct (o_open o) eqn:Hop; cbn [negb].
    + split; [reflexivity|]. split; [unfold Inv in *; cbn; lia|].
      unfold abs, pending, num_bytes_buffered; cbn. f_equal.
      unfold lastn. rewrite Nat.sub_0_r. apply skipn_all.
    + split; [reflexivity|]. split; [exact HI|]. unfold abs. now rewrite Hop.
  - exists (close_fd o). split; [reflexivity|]. split; [exact HI|]. reflexivity.
  - exists (open_fd o). cbn [qstep abs]. unfold open_fd. destruct (o_open o) eqn:Hop.
    + split; [cbn [step]; unfold open_fd; now rewrite Hop|]. split; [exact HI|]. unfold abs; now rewrite Hop.
    + split; [cbn [step]; unfold open_fd; now rewrite Hop|]. split; [exact HI|]. reflexivity.
Qed.

Lemma qstep_client CAP q x : q_client (fst (qstep CAP q x)) = q_client q.
Proof.
  destruct q as [p e c i o], x; cbn; try reflexivity.
  - destruct (accepts _ _); reflexivity.
  - destruct o; reflexivity.
  - destruct o; reflexivity.
Qed.

Lemma run_abs o xs :
  1 < SZ -> Inv o -> Forall (op_allowed (is_client o)) xs ->
  exists o', run SZ o xs = Ok (o', snd (qrun (SZ - 1) (abs o) xs)) /\ Inv o' /\
    abs o' = fst (qrun (SZ - 1) (abs o) xs).
Proof.
  intros HSZ. revert o. induction xs as [|x xs IH]; intros o HI Hal.
  - exists o. auto.
  - inversion Hal as [|? ? Hx Hxs]; subst.
    destruct (step_abs x HSZ HI Hx) as (o1 & Hs & HI1 & Ha).
    assert (Hc : is_client o1 = is_client o).
    { pose proof (qstep_client (SZ - 1) (abs o) x) as Hq. rewrite <- Ha in Hq. exact Hq. }
    destruct (IH o1 HI1) as (o2 & Hr & HI2 & Ha2); [now rewrite Hc|].
    exists o2. cbn [run]. rewrite Hs. cbn [bind fst snd]. rewrite Hr. cbn [bind fst snd].
    cbn [qrun]. destruct (qstep (SZ - 1) (abs o) x) as [q1 s1] eqn:Eq. cbn [fst snd] in *.
    subst q1. destruct (qrun (SZ - 1) (abs o1) xs) as [q2 s2] eqn:Eq2. cbn [fst snd] in *. auto.
Qed.

Lemma create_inv k junk : 0 < SZ -> length junk = SZ -> Inv (create k junk).
Proof. intros; unfold Inv, create; cbn; auto. Qed.

Lemma create_abs k junk : abs (create k junk) =
  mkQ [] false (match k with KClient _ _ => true | _ => false end)
      (match k with KClient q _ => q | _ => false end) true.
Proof.
  unfold abs, pending, num_bytes_buffered, is_client, is_quiet; cbn. f_equal.
  unfold lastn. rewrite Nat.sub_0_r. apply skipn_all.
Qed.

(** Sequence-level facts about the abstract queue. *)
Lemma qrun_conserve CAP q xs :
  length (q_pending q) <= CAP -> Forall op_keeps xs -> fits CAP q xs ->
  q_pending q ++ queued CAP q xs =
  snd (qrun CAP q xs) ++ q_pending (fst (qrun CAP q xs)).
Proof.
  revert q. induction xs as [|x xs IH]; intros q Hl Hk Hf.
  - cbn. now rewrite app_nil_r.
  - inversion Hk as [|? ? Hkx Hkxs]; subst. cbn [fits] in Hf. destruct Hf as [Hfx Hf].
    cbn [queued qrun]. destruct (qstep CAP q x) as [q1 s1] eqn:Eq. cbn [fst] in Hf |- *.
    assert (Hpl : length (q_pending q1) <= CAP /\
       q_pending q ++ match x with OWrite d i => if accepts q i then d else [] | _ => [] end
         = s1 ++ q_pending q1).
    { destruct q as [p e c i o]. destruct x as [d b|rs| | | | | |]; cbn in Eq, Hfx, Hl |- *.
      - destruct (accepts _ b) eqn:Ha; injection Eq as <- <-; cbn.
        + specialize (Hfx eq_refl). unfold enqueue. rewrite firstn_all2 by lia.
          rewrite lastn_all by (rewrite app_length; lia). rewrite app_length. split; [lia|reflexivity].
        + rewrite app_nil_r. auto.
      - injection Eq as <- <-. cbn. rewrite skipn_length, app_nil_r, firstn_skipn. split; [lia|reflexivity].
      - injection Eq as <- <-. cbn. rewrite app_nil_r. auto.
      - injection Eq as <- <-. cbn. rewrite app_nil_r. auto.
      - injection Eq as <- <-. cbn. rewrite app_nil_r. auto.
      - destruct Hkx.
      - injection Eq as <- <-. cbn. rewrite app_nil_r. auto.
      - destruct o; injection Eq as <- <-; cbn; rewrite app_nil_r; auto. }
    destruct Hpl as [Hl1 He].
    specialize (IH q1 Hl1 Hkxs Hf).
    destruct (qrun CAP q1 xs) as [q2 s2] eqn:Eq2. cbn [fst snd] in IH |- *.
    rewrite app_assoc, He, <- !app_assoc, IH. reflexivity.
Qed.

(** The array remembers the history. *)
Definition Hist (h : list Z) (o : obj) : Prop :=
  let av := if o_wrap o then SZ else o_in o in
  (if o_wrap o then SZ <= length h else length h = o_in o) /\
  lastn av (rot o) = lastn av h.

Lemma hist_same h o o2 :
  o_buf o2 = o_buf o -> o_in o2 = o_in o -> o_wrap o2 = o_wrap o -> Hist h o -> Hist h o2.
Proof. unfold Hist, rot. now intros -> -> ->. Qed.

Lemma write_hist h o src isInfo n o' :
  1 < SZ -> Inv o -> Hist h o ->
  write_obj_data SZ o src isInfo = Ok (n, o') ->
  Hist (h ++ (if accepts (abs o) isInfo then firstn (SZ - 1) src else [])) o'.
Proof.
  intros HSZ HI HH Hw.
  destruct src as [|s0 src'].
  { cbn in Hw. injection Hw as <- <-. rewrite firstn_nil.
    destruct (accepts _ _); now rewrite app_nil_r. }
  remember (s0 :: src') as src eqn:Esrc.
  assert (Hne : src <> []) by (subst; discriminate).
  unfold accepts. cbn [abs q_eof q_client q_quiet].
  destruct (o_eof o) eqn:Heof.
  { unfold write_obj_data in Hw. rewrite Esrc, Heof in Hw. injection Hw as <- <-. cbn.
    now rewrite app_nil_r. }
  destruct (isInfo && is_client o && is_quiet o) eqn:Hq.
  { unfold write_obj_data in Hw. rewrite Esrc, Heof, Hq in Hw. injection Hw as <- <-. cbn.
    now rewrite app_nil_r. }
  destruct (write_spec isInfo HSZ HI Hne Heof Hq) as
    (o2 & Hw2 & HI' & Hrot & Hn & Hwrap & Hin & _).
  rewrite Hw2 in Hw. injection Hw as <- <-. cbn [negb andb].
  assert (Hcut : firstn (SZ - 1) src = firstn (wlen src) src).
  { unfold wlen. destruct (le_lt_dec (SZ - 1) (length src)).
    - f_equal; lia.
    - rewrite !firstn_all2 by lia. reflexivity. }
  rewrite Hcut. pose proof (rot_length HI) as HRl.
  set (L := wlen src) in *. assert (HL : L <= SZ - 1) by (unfold L, wlen; lia).
  assert (HL2 : L <= length src) by (unfold L, wlen; lia).
  assert (Hfl : length (firstn L src) = L) by (rewrite firstn_length; lia).
  assert (Hi : o_in o < SZ) by apply HI.
  unfold Hist in *. rewrite Hwrap, Hrot.
  destruct (o_wrap o).
  - cbn [orb]. destruct HH as [H1 H2]. rewrite app_length. split; [lia|].
    rewrite !lastn_app_short by lia. f_equal. rewrite Hfl.
    rewrite lastn_skipn by lia.
    rewrite <- (@lastn_lastn _ (SZ - L) SZ (rot o)) by lia.
    rewrite H2. apply lastn_lastn. lia.
  - cbn [orb]. destruct HH as [H1 H2].
    destruct (Nat.leb_spec SZ (o_in o + L)) as [Hle|Hlt].
    + rewrite app_length. split; [lia|].
      rewrite !lastn_app_short by lia. f_equal. rewrite Hfl.
      rewrite lastn_skipn by lia.
      rewrite <- (@lastn_lastn _ (SZ - L) (o_in o) (rot o)) by lia.
      rewrite H2. apply lastn_lastn. lia.
    + rewrite (Hin Hlt). rewrite app_length. split; [lia|].
      rewrite !lastn_app_short by lia. f_equal. rewrite Hfl.
      rewrite lastn_skipn by lia. replace (o_in o + L - L) with (o_in o) by lia. exact H2.
Qed.

Lemma step_hist h o x o' s :
  1 < SZ -> Inv o -> Hist h o -> op_keeps x -> step SZ o x = Ok (o', s) ->
  Hist (h ++ match x with
             | OWrite d i => if accepts (abs o) i then firstn (SZ - 1) d else []
             | _ => [] end) o'.
Proof.
  intros HSZ HI HH Hk Hs.
  destruct x as [d i|rs| | | | | |]; cbn [step] in Hs; rewrite ?app_nil_r.
  - apply bind_ok in Hs. destruct Hs as ([n o2] & Hw & He). injection He as <- <-.
    eapply write_hist; eauto.
  - destruct (flush_abs rs HSZ HI) as (dead & o2 & Hw & HI' & Ha & Hb & Hi & Hwr & _).
    rewrite Hw in Hs. cbn in Hs. injection Hs as <- _. eapply hist_same; eauto.
  - injection Hs as <- _. exact HH.
  - unfold toggle_quiet in Hs. destruct (o_kind o); try discriminate.
    injection Hs as <- _. exact HH.
  - unfold toggle_suspend in Hs. destruct (o_kind o) as [q [|]| |]; try discriminate;
    injection Hs as <- _; exact HH.
  - destruct Hk.
  - injection Hs as <- _. exact HH.
  - unfold open_fd in Hs. destruct (o_open o); injection Hs as <- _; exact HH.
Qed.

Lemma run_hist h o xs o' s :
  1 < SZ -> Inv o -> Hist h o -> Forall (op_allowed (is_client o)) xs ->
  Forall op_keeps xs -> run SZ o xs = Ok (o', s) ->
  Hist (h ++ history (SZ - 1) (abs o) xs) o'.
Proof.
  intros HSZ. revert h o s. induction xs as [|x xs IH]; intros h o s HI HH Hal Hk Hr.
  - cbn in Hr. injection Hr as <- _. cbn. now rewrite app_nil_r.
  - inversion Hal as [|? ? Hx Hxs]; subst. inversion Hk as [|? ? Hkx Hkxs]; subst.
    destruct (step_abs x HSZ HI Hx) as (o1 & Hs & HI1 & Ha).
    assert (Hc : is_client o1 = is_client o).
    { pose proof (qstep_client (SZ - 1) (abs o) x) as Hq. rewrite <- Ha in Hq. exact Hq. }
    pose proof (step_hist x HSZ HI HH Hkx Hs) as HH1.
    cbn [run] in Hr. rewrite Hs in Hr. cbn [bind fst snd] in Hr.
    apply bind_ok in Hr. destruct Hr as ([o2 s2] & Hr & He). injection He as <- _.
    cbn [history]. rewrite app_assoc, <- Ha. eapply IH; eauto. now rewrite Hc.
Qed.

Lemma create_hist k junk : Hist [] (create k junk).
Proof.
  unfold Hist, create; cbn. split; [reflexivity|]. unfold lastn.
  rewrite Nat.sub_0_r. apply skipn_all.
Qed.

Lemma replay_hist dbg h o len :
  0 < RL -> RL < SZ -> 0 < len -> Inv o -> Hist h o -> (dbg = true -> h <> []) ->
  replay_bytes SZ RL dbg o len = Ok (lastn (Nat.min RL len) h).
Proof.
  intros HRL HRL2 Hlen HI [HH1 HH2] Hne. pose proof (rot_length HI) as HRot.
  assert (HI2 : Inv o) by exact HI. destruct HI2 as (Hl & Hi & Ho).
  unfold replay_bytes.
  set (n0 := if negb (o_wrap o) then o_in o else SZ - 1).
  set (n := Nat.min (Nat.min n0 RL) len).
  assert (Hn : n <= (if o_wrap o then SZ else o_in o)).
  { unfold n, n0. destruct (o_wrap o); cbn [negb]; lia. }
  assert (Hgoal : lastn n (rot o) = lastn (Nat.min RL len) h).
  { transitivity (lastn n h).
    - destruct (o_wrap o).
      + rewrite <- (@lastn_lastn _ n SZ (rot o)) by lia. rewrite HH2. apply lastn_lastn; lia.
      + rewrite <- (@lastn_lastn _ n (o_in o) (rot o)) by lia. rewrite HH2. apply lastn_lastn; lia.
    - unfold n, n0. destruct (o_wrap o); cbn [negb].
      + f_equal. lia.
      + destruct (le_lt_dec (o_in o) (Nat.min RL len)).
        * rewrite !lastn_all by lia. reflexivity.
        * f_equal. lia. }
  rewrite <- Hgoal. clear Hgoal.
  assert (Hpos : dbg = true -> 0 < n).
  { intros Hd. specialize (Hne Hd). unfold n, n0. destruct (o_wrap o); cbn [negb]; [lia|].
    destruct h; [congruence|]. cbn in HH1. lia. }
  destruct (Nat.leb_spec n (o_in o)) as [Hle|Hlt].
  - assert (Ha : assert_if dbg (0 <? n) = Ok tt).
    { destruct dbg; [|reflexivity]. specialize (Hpos eq_refl).
      apply Nat.ltb_lt in Hpos. unfold assert_if, assert_. now rewrite Hpos. }
    rewrite Ha. cbn [bind]. rewrite slice_ok by lia. f_equal.
    unfold rot. rewrite lastn_app_long by (rewrite firstn_length; lia).
    unfold lastn. rewrite firstn_length, Nat.min_l by lia.
    rewrite firstn_skipn_comm. f_equal. f_equal. lia.
  - assert (Ha : assert_if dbg ((0 <? n - o_in o) && (n - o_in o <=? n)) = Ok tt).
    { destruct dbg; [|reflexivity]. unfold assert_if, assert_.
      destruct (Nat.ltb_spec 0 (n - o_in o)); [|lia].
      destruct (Nat.leb_spec (n - o_in o) n); [|lia]. reflexivity. }
    rewrite Ha. cbn [bind].
    assert (n <= SZ) by (destruct (o_wrap o); lia).
    rewrite !slice_ok by lia. cbn [bind]. f_equal.
    unfold rot. rewrite lastn_app_short by (rewrite firstn_length; lia).
    rewrite firstn_length, Nat.min_l by lia.
    cbn [skipn]. replace (n - (n - o_in o)) with (o_in o) by lia. f_equal.
    unfold lastn. rewrite skipn_length, skipn_skipn_add.
    rewrite firstn_all2 by (rewrite skipn_length; lia). f_equal. lia.
Qed.

Lemma replay_message_hist dbg h o b e :
  0 < RL -> length e + 2 = length b -> RL + 2 * length b < SZ ->
  Inv o -> Hist h o -> (dbg = true -> h <> []) ->
  replay_message SZ RL dbg o b e = Ok (Some (b ++ lastn RL h ++ e)).
Proof.
  intros HRL Hbe Hsz HI HH Hne. unfold replay_message.
  destruct (Nat.leb_spec (SZ - 1) (length b)); [lia|].
  destruct (Nat.leb_spec (SZ - 1 - length b) (length b - 2)); [lia|].
  rewrite (@replay_hist dbg h) by (auto; lia). cbn [bind].
  rewrite Nat.min_l by lia.
  assert (length (lastn RL h) <= RL) by (rewrite lastn_length; lia).
  assert (Ha1 : assert_if dbg (0 <? SZ - 1 - length b - length (lastn RL h)) = Ok tt).
  { destruct dbg; [|reflexivity]. unfold assert_if, assert_. destruct (Nat.ltb_spec 0 (SZ - 1 - length b - length (lastn RL h))); [reflexivity|lia]. }
  assert (Ha2 : (length e <? SZ - 1 - length b - length (lastn RL h)) = true)
    by (apply Nat.ltb_lt; lia).
  rewrite Ha1, Ha2. cbn [bind]. destruct dbg; reflexivity.
Qed.

(** Scheduling of the flush. *)
Lemma step_sched o x o' s :
  1 < SZ -> Inv o -> op_no_reopen x ->
  flush_scheduled (pending o) o -> step SZ o x = Ok (o', s) ->
  flush_scheduled (pending o') o'.
Proof.
  intros HSZ HI Hno HF Hs. unfold flush_scheduled in *.
  destruct x as [d i|rs| | | | | |]; cbn [step] in Hs.
  - destruct d as [|d0 d'].
    { cbn in Hs. injection Hs as <- _. exact HF. }
    remember (d0 :: d') as src eqn:Esrc.
    assert (Hne : src <> []) by (subst; discriminate).
    destruct (o_eof o) eqn:Heof.
    { unfold write_obj_data in Hs. rewrite Esrc, Heof in Hs. injection Hs as <- _. exact HF. }
    destruct (i && is_client o && is_quiet o) eqn:Hq.
    { unfold write_obj_data in Hs. rewrite Esrc, Heof, Hq in Hs. injection Hs as <- _. exact HF. }
    destruct (write_spec i HSZ HI Hne Heof Hq) as
      (o2 & Hw2 & _ & _ & _ & _ & _ & _ & Hop & _ & Hpo & _ & _ & Hsu).
    rewrite Hw2 in Hs. cbn in Hs. injection Hs as <- _.
    intros _ Ho2 Hs2. rewrite Hpo. rewrite Hsu in Hs2. rewrite Hop in Ho2. now rewrite Hs2, Ho2.
  - destruct (flush_abs rs HSZ HI) as (dead & o2 & Hw & HI' & Ha & Hb & Hi & Hwr & Hk & Hpi & Hpo).
    rewrite Hw in Hs. cbn in Hs. injection Hs as <- _.
    intros Hne Hop Hsu.
    assert (Hopo : o_open o = true).
    { assert (q_open (abs o2) = o_open o) by (rewrite Ha; reflexivity).
      cbn in H. congruence. }
    apply Hpo; [exact Hopo|]. split; [exact Hne|].
    apply HF; auto.
    + assert (He : pending o2 = skipn (taken rs (length (pending o))) (pending o)).
      { assert (q_pending (abs o2) = skipn (if o_open o then taken rs (length (pending o)) else 0) (pending o)) by (rewrite Ha; reflexivity).
        rewrite Hopo in H. exact H. }
      intros Hz. apply Hne. rewrite He, Hz. now rewrite skipn_nil.
    + unfold is_suspended in *. now rewrite <- Hk.
  - injection Hs as <- _. exact HF.
  - unfold toggle_quiet in Hs. destruct (o_kind o) as [q s0| |] eqn:Hk; try discriminate.
    injection Hs as <- _. cbn. intros H1 H2 H3. apply HF; auto.
    unfold is_suspended in *. rewrite Hk. exact H3.
  - unfold toggle_suspend in Hs. destruct (o_kind o) as [q [|]| |]; try discriminate;
    injection Hs as <- _; cbn.
    + intros _ -> _. reflexivity.
    + intros _ _ H; discriminate.
  - unfold shutdown_buf in Hs. destruct (o_open o) eqn:Hop; cbn in Hs; injection Hs as <- _; cbn.
    + intros _ H; discriminate.
    + intros H1 H2. congruence.
  - injection Hs as <- _. cbn. intros _ H; discriminate.
  - destruct Hno.
Qed.

Lemma run_sched o xs o' s :
  1 < SZ -> Inv o -> Forall (op_allowed (is_client o)) xs -> Forall op_no_reopen xs ->
  flush_scheduled (pending o) o -> run SZ o xs = Ok (o', s) ->
  flush_scheduled (pending o') o'.
Proof.
  intros HSZ. revert o s. induction xs as [|x xs IH]; intros o s HI Hal Hn HF Hr.
  - cbn in Hr. injection Hr as <- _. exact HF.
  - inversion Hal as [|? ? Hx Hxs]; subst. inversion Hn as [|? ? Hnx Hnxs]; subst.
    destruct (step_abs x HSZ HI Hx) as (o1 & Hs & HI1 & Ha).
    assert (Hc : is_client o1 = is_client o).
    { pose proof (qstep_client (SZ - 1) (abs o) x) as Hq. rewrite <- Ha in Hq. exact Hq. }
    pose proof (step_sched x HSZ HI Hnx HF Hs) as HF1.
    cbn [run] in Hr. rewrite Hs in Hr. cbn [bind fst snd] in Hr.
    apply bind_ok in Hr. destruct Hr as ([o2 s2] & Hr & He). injection He as <- _.
    eapply IH; eauto. now rewrite Hc.
Qed.
End Ring.

Lemma subseq_refl {A} (a : list A) : subseq a a.
Proof. induction a; constructor; auto. Qed.

Lemma subseq_trans {A} (a b c : list A) : subseq a b -> subseq b c -> subseq a c.
Proof.
  intros H1 H2. revert a H1. induction H2 as [c|x b c H IH|x b c H IH]; intros a H1.
  - inversion H1; subst. constructor.
  - inversion H1; subst; [constructor| |].
    + constructor; auto.
    + apply sub_drop; auto.
  - apply sub_drop; auto.
Qed.

Lemma subseq_app {A} (a b c d : list A) : subseq a b -> subseq c d -> subseq (a ++ c) (b ++ d).
Proof.
  intros H1 H2. induction H1 as [b|x a b H IH|x a b H IH]; cbn.
  - induction b; cbn; [exact H2|apply sub_drop; auto].
  - constructor; auto.
  - apply sub_drop; auto.
Qed.

Lemma subseq_skipn {A} n (l : list A) : subseq (skipn n l) l.
Proof.
  rewrite <- (firstn_skipn n l) at 2. apply (@subseq_app A [] _ _ _).
  - constructor.
  - apply subseq_refl.
Qed.

Lemma step_subseq CAP q x :
  let '(q1, s1) := qstep CAP q x in
  subseq (s1 ++ q_pending q1)
         (q_pending q ++ match x with
          | OWrite d i => if accepts q i then firstn CAP d else [] | _ => [] end)
  /\ exists pre, q_pending q ++ match x with
          | OWrite d i => if accepts q i then firstn CAP d else [] | _ => [] end
        = pre ++ q_pending q1.
Proof.
  destruct q as [p e c i o]. destruct x as [d b|rs| | | | | |]; cbn; rewrite ?app_nil_r.
  - destruct (accepts _ b); cbn; rewrite ?app_nil_r.
    + unfold enqueue. split; [apply subseq_skipn|].
      eexists; symmetry; apply firstn_skipn_lastn.
    + split; [apply subseq_refl|]. now exists [].
  - rewrite firstn_skipn. split; [apply subseq_refl|]. eexists; symmetry; apply firstn_skipn.
  - split; [apply subseq_refl|]. now exists [].
  - split; [apply subseq_refl|]. now exists [].
  - split; [apply subseq_refl|]. now exists [].
  - destruct o; cbn; (split; [try apply subseq_refl; constructor|]).
    + exists p. now rewrite app_nil_r.
    + now exists [].
  - split; [apply subseq_refl|]. now exists [].
  - destruct o; cbn; (split; [apply subseq_refl|]; now exists []).
Qed.

Lemma run_subseq CAP q xs :
  subseq (snd (qrun CAP q xs) ++ q_pending (fst (qrun CAP q xs)))
         (q_pending q ++ history CAP q xs)
  /\ exists pre, q_pending q ++ history CAP q xs = pre ++ q_pending (fst (qrun CAP q xs)).
Proof.
  revert q; induction xs as [|x xs IH]; intros q.
  - cbn. rewrite app_nil_r. split; [apply subseq_refl|]. now exists [].
  - cbn [qrun history]. pose proof (step_subseq CAP q x) as Hs.
    destruct (qstep CAP q x) as [q1 s1]. destruct Hs as [Hs1 [pre1 Hs2]]. cbn [fst].
    specialize (IH q1). destruct (qrun CAP q1 xs) as [q2 s2]. cbn [fst snd] in *.
    destruct IH as [IH1 [pre2 IH2]]. rewrite app_assoc. split.
    + rewrite <- app_assoc.
      eapply subseq_trans; [apply subseq_app; [apply subseq_refl|apply IH1]|].
      rewrite app_assoc. apply subseq_app; [exact Hs1|apply subseq_refl].
    + rewrite Hs2. exists (pre1 ++ pre2). rewrite <- !app_assoc. f_equal. exact IH2.
Qed.

Definition op_no_flush (x : op) : Prop :=
  match x with OFlush _ | OShutdown => False | _ => True end.

Lemma run_noflush CAP q xs :
  Forall (fun x => match x with OFlush _ | OShutdown => False | _ => True end) xs ->
  length (q_pending q) <= CAP ->
  q_pending (fst (qrun CAP q xs)) = lastn CAP (q_pending q ++ history CAP q xs)
  /\ snd (qrun CAP q xs) = [].
Proof.
  revert q; induction xs as [|x xs IH]; intros q HF Hl.
  - cbn. rewrite app_nil_r, lastn_all by exact Hl. auto.
  - inversion HF as [|? ? Hx Hxs]; subst. cbn [qrun history].
    destruct q as [p e c i o]. cbn [q_pending] in Hl.
    assert (Hstep : q_pending (fst (qstep CAP (mkQ p e c i o) x)) =
        lastn CAP (p ++ match x with
          | OWrite d b => if accepts (mkQ p e c i o) b then firstn CAP d else []
          | _ => [] end) /\ snd (qstep CAP (mkQ p e c i o) x) = []).
    { destruct x as [d b|rs| | | | | |]; cbn; rewrite ?app_nil_r, ?(lastn_all p Hl); try (destruct Hx; fail); auto.
      - destruct (accepts _ b); cbn; rewrite ?app_nil_r, ?(lastn_all p Hl); auto.
      - destruct o; auto. }
    destruct (qstep CAP (mkQ p e c i o) x) as [q1 s1]. cbn [fst snd] in *.
    destruct Hstep as [Hp Hs].
    assert (Hl1 : length (q_pending q1) <= CAP) by (rewrite Hp, lastn_length; lia).
    specialize (IH q1 Hxs Hl1). destruct (qrun CAP q1 xs) as [q2 s2]. cbn [fst snd] in *.
    destruct IH as [IH1 IH2]. rewrite IH1, Hp, Hs, IH2, lastn_lastn_app, app_assoc. auto.
Qed.

(** ** The statements used in [RingProps]. *)

Lemma create_abs_empty SZ k junk : abs SZ (create k junk) = empty_queue k.
Proof. rewrite create_abs. destruct k; reflexivity. Qed.

Lemma ring_refines SZ k junk xs :
  1 < SZ -> length junk = SZ -> Forall (op_allowed (kind_client k)) xs ->
  exists o', run SZ (create k junk) xs = Ok (o', snd (qrun (SZ - 1) (empty_queue k) xs)) /\
    iov SZ o' = Ok (q_pending (fst (qrun (SZ - 1) (empty_queue k) xs))) /\
    length (o_buf o') = SZ /\ o_in o' < SZ /\ o_out o' < SZ.
Proof.
  intros HSZ Hj Hal.
  destruct (@run_abs SZ (create k junk) xs HSZ) as (o' & Hr & HI & Ha).
  - apply create_inv; lia.
  - exact Hal.
  - rewrite create_abs_empty in *. exists o'. split; [exact Hr|]. split.
    + rewrite iov_pending by exact HI. rewrite <- Ha. reflexivity.
    + exact HI.
Qed.

Lemma ring_order SZ k junk xs o' sent p :
  1 < SZ -> length junk = SZ -> Forall (op_allowed (kind_client k)) xs ->
  run SZ (create k junk) xs = Ok (o', sent) -> iov SZ o' = Ok p ->
  subseq (sent ++ p) (history (SZ - 1) (empty_queue k) xs) /\
  exists pre, history (SZ - 1) (empty_queue k) xs = pre ++ p.
Proof.
  intros HSZ Hj Hal Hr Hp.
  destruct (@ring_refines SZ k junk xs HSZ Hj Hal) as (o2 & Hr2 & Hi & _).
  rewrite Hr in Hr2. injection Hr2 as <- ->. rewrite Hp in Hi. injection Hi as ->.
  pose proof (run_subseq (SZ - 1) (empty_queue k) xs) as [H1 H2].
  replace (q_pending (empty_queue k)) with (@nil Z) in * by (destruct k; reflexivity).
  cbn [app] in *. auto.
Qed.

Lemma ring_noflush SZ k junk xs o' sent :
  1 < SZ -> length junk = SZ -> Forall (op_allowed (kind_client k)) xs ->
  Forall (fun x => match x with OFlush _ | OShutdown => False | _ => True end) xs ->
  run SZ (create k junk) xs = Ok (o', sent) ->
  iov SZ o' = Ok (lastn (SZ - 1) (history (SZ - 1) (empty_queue k) xs)).
Proof.
  intros HSZ Hj Hal Hnf Hr.
  destruct (@ring_refines SZ k junk xs HSZ Hj Hal) as (o2 & Hr2 & Hi & _).
  rewrite Hr in Hr2. injection Hr2 as <- ->. rewrite Hi. f_equal.
  destruct (@run_noflush (SZ - 1) (empty_queue k) xs Hnf) as [H _].
  - destruct k; cbn; lia.
  - rewrite H. destruct k; reflexivity.
Qed.

Lemma ring_conserve SZ k junk xs :
  1 < SZ -> length junk = SZ -> Forall (op_allowed (kind_client k)) xs ->
  Forall op_keeps xs -> fits (SZ - 1) (empty_queue k) xs ->
  exists o' sent p, run SZ (create k junk) xs = Ok (o', sent) /\ iov SZ o' = Ok p /\
    sent ++ p = queued (SZ - 1) (empty_queue k) xs.
Proof.
  intros HSZ Hj Hal Hk Hf.
  destruct (@ring_refines SZ k junk xs HSZ Hj Hal) as (o2 & Hr2 & Hi & _).
  do 3 eexists. split; [exact Hr2|]. split; [exact Hi|].
  rewrite <- qrun_conserve; auto; destruct k; cbn; try lia; reflexivity.
Qed.

Lemma replay_correct SZ RL dbg k junk xs b e o' sent :
  0 < RL -> length e + 2 = length b -> RL + 2 * length b < SZ ->
  length junk = SZ -> Forall (op_allowed (kind_client k)) xs -> Forall op_keeps xs ->
  (dbg = true -> history (SZ - 1) (empty_queue k) xs <> []) ->
  run SZ (create k junk) xs = Ok (o', sent) ->
  replay_message SZ RL dbg o' b e =
    Ok (Some (b ++ lastn RL (history (SZ - 1) (empty_queue k) xs) ++ e)).
Proof.
  intros HRL Hbe Hsz Hj Hal Hk Hne Hr.
  assert (HSZ : 1 < SZ) by lia.
  assert (HI : Inv SZ (create k junk)) by (apply create_inv; lia).
  destruct (@run_abs SZ (create k junk) xs HSZ HI Hal) as (o2 & Hr2 & HI2 & Ha).
  pose proof (@run_hist SZ [] (create k junk) xs o' sent HSZ HI (create_hist _ _ _) Hal Hk Hr) as HH.
  rewrite create_abs_empty in *. cbn [app] in HH.
  rewrite Hr in Hr2. injection Hr2 as <- ->.
  apply replay_message_hist; auto.
Qed.

Lemma ring_sched SZ k junk xs o' sent p :
  1 < SZ -> length junk = SZ -> Forall (op_allowed (kind_client k)) xs ->
  Forall op_no_reopen xs ->
  run SZ (create k junk) xs = Ok (o', sent) -> iov SZ o' = Ok p ->
  flush_scheduled p o'.
Proof.
  intros HSZ Hj Hal Hn Hr Hp.
  assert (HI : Inv SZ (create k junk)) by (apply create_inv; lia).
  destruct (@run_abs SZ (create k junk) xs HSZ HI Hal) as (o2 & Hr2 & HI2 & Ha).
  rewrite Hr in Hr2. injection Hr2 as <- ->.
  rewrite iov_pending in Hp by exact HI2. injection Hp as <-.
  refine (@run_sched SZ (create k junk) xs o' _ HSZ HI Hal Hn _ Hr).
  unfold flush_scheduled. intros H. exfalso. apply H.
  apply length_zero_iff_nil. rewrite pending_length by exact HI. reflexivity.
Qed.
