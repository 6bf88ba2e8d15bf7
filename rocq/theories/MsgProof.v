(** Proofs about formatted messages. *)
From Verif Require Import Base BaseProof Chars Mem StrModel StrSpec StrProof MsgModel MsgSpec.
Local Open Scope nat_scope.

Lemma clip_put pre rest len t : 0 < len <= length rest ->
  vsnprintf (pre ++ rest) (length pre) len t =
    Ok (pre ++ firstn (len - 1) t ++ NUL :: skipn (S (length (firstn (len - 1) t))) rest, length t).
Proof.
  intros H. unfold vsnprintf. destruct (Nat.eqb_spec len 0); [lia|].
  set (f := firstn (len - 1) t). assert (Lf : length f <= len - 1) by (unfold f; rewrite firstn_length; lia).
  rewrite <- (firstn_skipn (S (length f)) rest) at 1.
  rewrite (blit_eq pre (firstn (S (length f)) rest) (skipn (S (length f)) rest) (f ++ [NUL]) (length pre)); [|reflexivity|].
  - cbn [bind]. rewrite <- app_assoc. reflexivity.
  - rewrite firstn_length, app_length. cbn [length]. lia.
Qed.

Lemma firstn_cut {A} (a b : list A) n : length a <= n -> firstn n (a ++ b) = a ++ firstn (n - length a) b.
Proof. intros H. rewrite firstn_app, firstn_all2 by lia. reflexivity. Qed.

Lemma overwrite a rest n s : n + S (length s) <= length (a ++ rest) -> n <= length a ->
  blit (a ++ rest) n (s ++ [NUL]) = Ok (firstn n a ++ s ++ NUL :: skipn (n + S (length s)) (a ++ rest)).
Proof.
  intros H L. rewrite blit_ok by (rewrite (app_length s); cbn [length]; lia). f_equal.
  rewrite firstn_app. replace (n - length a) with 0 by lia. rewrite firstn_O, app_nil_r, (app_length s), <- app_assoc. cbn [length app].
  do 3 f_equal. rewrite Nat.add_1_r. reflexivity.
Qed.

Lemma firstn_chars n s : chars_ok s -> chars_ok (firstn n s).
Proof. unfold chars_ok. rewrite !Forall_forall. intros H x Hx. apply H. rewrite <- (firstn_skipn n s). apply in_or_app. now left. Qed.
Lemma chars_app a b : chars_ok a -> chars_ok b -> chars_ok (a ++ b).
Proof. intros. apply Forall_app. auto. Qed.
Ltac chars := repeat (apply Forall_cons; [unfold char_ok; cbv; lia|]); apply Forall_nil.
Lemma prefix_chars : chars_ok MSG_PREFIX.
Proof. unfold MSG_PREFIX, chars_ok. repeat (apply Forall_cons; [unfold char_ok; cbv; split; discriminate || reflexivity|]); apply Forall_nil. Qed.
Lemma suffix_chars : chars_ok MSG_SUFFIX.
Proof. unfold MSG_SUFFIX, chars_ok. repeat (apply Forall_cons; [unfold char_ok; cbv; split; discriminate || reflexivity|]); apply Forall_nil. Qed.

Lemma prefix_len : length MSG_PREFIX = 11. Proof. reflexivity. Qed.

Lemma notify_msg_ok L buf t : length buf = L -> 15 <= L -> chars_ok t ->
  exists b, notify_msg L buf t = Ok b /\ length b = L /\ holds b (notify_text L t).
Proof.
  intros HL L15 Ct. unfold notify_msg.
  pose proof (clip_put [] buf L MSG_PREFIX) as V1. cbn [app length] in V1. rewrite V1 by lia. clear V1. cbn [bind fst snd].
  rewrite prefix_len. rewrite firstn_all2 by (rewrite prefix_len; lia).
  destruct (Nat.leb_spec L 11); [lia|]. destruct (Nat.ltb_spec 0 (L - 11)); [|lia].
  set (r0 := NUL :: skipn (S (length MSG_PREFIX)) buf).
  assert (L0 : length r0 = L - 11) by (unfold r0; cbn [length]; rewrite skipn_length, prefix_len; lia).
  pose proof (clip_put MSG_PREFIX r0 (L - 11) t) as V2. rewrite prefix_len in V2. rewrite V2 by lia. clear V2. cbn [bind fst snd].
  set (f := firstn (L - 11 - 1) t). set (r1 := NUL :: skipn (S (length f)) r0).
  assert (Lf : length f = min (L - 12) (length t)) by (unfold f; rewrite firstn_length; lia).
  assert (L1 : length (MSG_PREFIX ++ f ++ r1) = L).
  { rewrite !app_length, prefix_len. unfold r1. cbn [length]. rewrite skipn_length, L0. lia. }
  change (length MSG_SUFFIX) with 3. unfold notify_text.
  destruct (Nat.leb_spec (L - 11) (length t)) as [TL|TS]; cbn [bind fst snd].
  - change (0 <? 3 + 1) with true. cbn match.
    unfold vsnprintf. destruct (Nat.eqb_spec (L - (L - 3 - 1)) 0); [lia|].
    rewrite firstn_all2 by (cbn; lia). rewrite app_assoc.
    rewrite overwrite; [|rewrite <- app_assoc, L1; cbn; lia|rewrite app_length, prefix_len; lia]. cbn [bind fst].
    eexists. split; [reflexivity|]. split.
    + rewrite !app_length, firstn_length, app_length, prefix_len. cbn [length]. rewrite skipn_length, <- app_assoc, L1. cbn [length MSG_SUFFIX]. lia.
    + split; [apply chars_app; [apply firstn_chars, chars_app; [exact prefix_chars|exact Ct]|exact suffix_chars]|].
      assert (EQ : firstn (L - 4) (MSG_PREFIX ++ f) = firstn (L - 4) (MSG_PREFIX ++ t)).
      { rewrite (firstn_cut MSG_PREFIX f), (firstn_cut MSG_PREFIX t) by (rewrite prefix_len; lia). apply (f_equal (app MSG_PREFIX)).
        unfold f. rewrite firstn_firstn. rewrite prefix_len. f_equal. lia. }
      eexists. rewrite <- (app_assoc _ MSG_SUFFIX). replace (L - 3 - 1) with (L - 4) by lia. rewrite EQ. reflexivity.
  - assert (F : f = t) by (unfold f; apply firstn_all2; lia).
    destruct (Nat.ltb_spec (L - 11 - length t) (3 + 1)).
    + unfold vsnprintf. destruct (Nat.eqb_spec (L - (L - 3 - 1)) 0); [lia|].
      rewrite firstn_all2 by (cbn; lia). rewrite app_assoc.
      rewrite overwrite; [|rewrite <- app_assoc, L1; cbn; lia|rewrite app_length, prefix_len; lia]. cbn [bind fst].
      eexists. split; [reflexivity|]. split.
      * rewrite !app_length, firstn_length, app_length, prefix_len. cbn [length]. rewrite skipn_length, <- app_assoc, L1. cbn [length MSG_SUFFIX]. lia.
      * split; [apply chars_app; [apply firstn_chars, chars_app; [exact prefix_chars|exact Ct]|exact suffix_chars]|].
        eexists. rewrite <- (app_assoc _ MSG_SUFFIX). replace (L - 3 - 1) with (L - 4) by lia. rewrite F. reflexivity.
    + pose proof (clip_put (MSG_PREFIX ++ f) r1 (L - 11 - length t) MSG_SUFFIX) as V3.
      rewrite app_length, prefix_len, F, <- app_assoc in V3. rewrite F. rewrite V3.
      2:{ rewrite !app_length, F, prefix_len in L1. lia. }
      cbn [bind fst]. rewrite (firstn_all2 MSG_SUFFIX) by (cbn; lia). eexists. split; [reflexivity|]. split.
      * rewrite !app_length in *. cbn [length]. rewrite skipn_length. rewrite F in L1. rewrite prefix_len in *. change (length MSG_SUFFIX) with 3. lia.
      * split; [apply chars_app; [apply firstn_chars, chars_app; [exact prefix_chars|exact Ct]|exact suffix_chars]|].
        eexists. rewrite firstn_all2 by (rewrite app_length, prefix_len; lia). rewrite <- !app_assoc. reflexivity.
Qed.

Lemma notice_ok L buf t : length buf = L -> 4 <= L -> chars_ok t ->
  exists b, notice L buf t = Ok b /\ length b = L /\ holds b (notice_text L t).
Proof.
  intros HL L4 Ct. unfold notice. pose proof (clip_put [] buf L t) as V. cbn [app length] in V. rewrite V by lia. clear V. cbn [bind fst].
  set (f := firstn (L - 1) t). set (r := NUL :: skipn (S (length f)) buf).
  assert (Lf : length f = min (L - 1) (length t)) by (unfold f; rewrite firstn_length; lia).
  assert (L1 : length (f ++ r) = L) by (rewrite app_length; unfold r; cbn [length]; rewrite skipn_length; lia).
  change [CR; LF; NUL] with ([CR; LF] ++ [NUL]).
  unfold notice_text. destruct (Nat.ltb_spec (length t) (L - 3)).
  - assert (F : f = t) by (unfold f; apply firstn_all2; lia).
    rewrite blit_ok by (rewrite L1; cbn; lia). eexists. split; [reflexivity|]. split.
    + rewrite !app_length, firstn_length, skipn_length, L1. cbn. lia.
    + split; [exact Ct|]. rewrite F in *. unfold r. rewrite firstn_cut by lia.
      destruct (L - 3 - length t) as [|k] eqn:K; [lia|]. cbn [firstn]. eexists. rewrite <- app_assoc. reflexivity.
  - rewrite overwrite; [|rewrite L1; cbn; lia|lia]. eexists. split; [reflexivity|]. split.
    + rewrite !app_length, firstn_length. cbn [length]. rewrite skipn_length, L1. cbn. lia.
    + split; [apply chars_app; [apply firstn_chars, Ct|repeat (apply Forall_cons; [cbv; split; discriminate || reflexivity|]); apply Forall_nil]|].
      eexists. rewrite <- app_assoc. f_equal. unfold f. rewrite firstn_firstn. f_equal. lia.
Qed.

(** Invariant of log_aux: [done] has been stored at the start of the buffer, of
    what was asked for. *)
Definition sofar (L : nat) (b : list Z) (p len : nat) (want : list Z) : Prop :=
  length b = L /\ p = min (L - 2) (length want) /\ 1 <= len /\ p + len = L - 1 /\
  exists junk, b = firstn (L - 2) want ++ NUL :: junk.

Lemma put_clipped_ok L b p len want t : 2 <= L -> sofar L b p len want ->
  exists b' p' len', put_clipped b p len t = Ok (b', p', len') /\ sofar L b' p' len' (want ++ t).
Proof.
  intros HL (LB & P & LN & PL & junk & ->). unfold put_clipped.
  assert (PF : p = length (firstn (L - 2) want)) by (rewrite firstn_length; lia).
  assert (LJ : len <= length (NUL :: junk)) by (rewrite app_length, <- PF in LB; lia).
  rewrite PF. rewrite clip_put by lia. cbn [bind fst snd]. rewrite <- PF.
  set (f := firstn (len - 1) t). assert (Lf : length f = min (len - 1) (length t)) by (unfold f; rewrite firstn_length; lia).
  do 3 eexists. split; [reflexivity|]. split; [|split; [|split; [|split]]].
  - rewrite !app_length in *. cbn [length skipn] in *. rewrite skipn_length. lia.
  - rewrite app_length. destruct (Nat.leb_spec len (length t)); lia.
  - destruct (Nat.leb_spec len (length t)); lia.
  - destruct (Nat.leb_spec len (length t)); lia.
  - cbn [skipn]. exists (skipn (length f) junk). rewrite app_assoc. f_equal.
    rewrite firstn_app. f_equal. unfold f. f_equal. lia.
Qed.

Lemma tag_eq x : prefix_field x = tag x.
Proof.
  unfold prefix_field, tag. do 3 f_equal. destruct (Nat.leb_spec (10 - length x) 0); lia.
Qed.
Lemma log_aux_ok L buf stamp prefix fmt t err : length buf = L -> length stamp + 3 <= L -> fmt <> [] ->
  chars_ok stamp -> chars_ok t -> (forall e, err = Some e -> chars_ok e) -> (forall x, prefix = Some x -> chars_ok x) ->
  exists b s, log_aux L buf stamp prefix fmt t err = Ok (b, length stamp, s) /\ length b = L /\
    holds b (log_text L stamp prefix (last fmt 0 =? LF)%Z t err) /\
    s = min (L - 2) (length (stamp ++ match prefix with Some x => tag x | None => [] end)).
Proof.
  intros HL HS HF C1 C2 C3 C4. unfold log_aux. destruct (Nat.ltb_spec (length stamp) (L - 1)); [|lia].
  rewrite blit_ok by (rewrite app_length; cbn [length]; lia). cbn [bind firstn app].
  set (pf := match prefix with Some x => tag x | None => [] end).
  assert (S1 : sofar L ((stamp ++ [NUL]) ++ skipn (0 + length (stamp ++ [NUL])) buf) (length stamp) (L - 1 - length stamp) stamp).
  { split; [rewrite app_length, skipn_length, app_length; cbn [length]; lia|]. split; [lia|]. split; [lia|]. split; [lia|].
    rewrite firstn_all2 by lia. rewrite <- app_assoc. eexists. reflexivity. }
  set (b1 := (stamp ++ [NUL]) ++ _) in *. clearbody b1.
  assert (X2 : exists b2 p2 len2, (match prefix with
            | Some x => if 0 <? L - 1 - length stamp then put_clipped b1 (length stamp) (L - 1 - length stamp) (prefix_field x) else Ok (b1, length stamp, L - 1 - length stamp)
            | None => Ok (b1, length stamp, L - 1 - length stamp)
            end) = Ok (b2, p2, len2) /\ sofar L b2 p2 len2 (stamp ++ pf)).
  { destruct prefix as [x|].
    - destruct (Nat.ltb_spec 0 (L - 1 - length stamp)); [|lia]. rewrite tag_eq. apply put_clipped_ok; [lia|exact S1].
    - unfold pf. rewrite app_nil_r. eauto. }
  destruct X2 as (b2 & p2 & len2 & -> & S2). cbn [bind].
  assert (X3 : exists b3 p3 len3, (if 0 <? len2 then put_clipped b2 p2 len2 t else Ok (b2, p2, len2)) = Ok (b3, p3, len3) /\ sofar L b3 p3 len3 ((stamp ++ pf) ++ t)).
  { destruct (Nat.ltb_spec 0 len2); [|destruct S2; lia]. apply put_clipped_ok; [lia|exact S2]. }
  destruct X3 as (b3 & p3 & len3 & -> & S3). cbn [bind].
  assert (G : get fmt (length fmt - 1) = Ok (last fmt 0%Z)).
  { destruct (exists_last HF) as (a & z & ->). rewrite last_last, app_length. cbn [length]. replace (length a + 1 - 1) with (length a) by lia.
    apply get_eq. reflexivity. }
  rewrite G. cbn [bind]. assert (FL : 0 <? length fmt = true) by (destruct fmt; [contradiction|reflexivity]). rewrite FL. cbn [assert_ bind].
  assert (S2P : p2 = min (L - 2) (length (stamp ++ pf))) by apply S2.
  assert (CP : chars_ok pf).
  { unfold pf. destruct prefix as [x|]; [|constructor]. unfold tag. apply chars_app; [auto|]. constructor; [cbv; split; discriminate || reflexivity|].
    apply Forall_forall. intros z Hz. apply repeat_spec in Hz. subst z. cbv. split; discriminate || reflexivity. }
  unfold log_text. fold pf. destruct (last fmt 0 =? LF)%Z.
  - exists b3, p2. split; [reflexivity|]. split; [apply S3|]. split; [|exact S2P]. split.
    + rewrite !app_nil_r. apply firstn_chars. auto using chars_app.
    + destruct S3 as (_ & _ & _ & _ & junk & ->). exists junk. rewrite !app_nil_r, <- app_assoc. reflexivity.
  - set (ee := match err with Some e => COLON :: SPACE :: e | None => [] end).
    assert (CE : chars_ok ee).
    { unfold ee. destruct err as [e|]; [|constructor]. constructor; [cbv; split; discriminate || reflexivity|]. constructor; [cbv; split; discriminate || reflexivity|]. exact (C3 e eq_refl). }
    assert (X4 : exists b4 p4 len4, (match err with
              | Some e => if 0 <? len3 then put_clipped b3 p3 len3 (COLON :: SPACE :: e) else Ok (b3, p3, len3)
              | None => Ok (b3, p3, len3)
              end) = Ok (b4, p4, len4) /\ sofar L b4 p4 len4 (((stamp ++ pf) ++ t) ++ ee)).
    { unfold ee. destruct err as [e|].
      - destruct (Nat.ltb_spec 0 len3); [|destruct S3; lia]. apply put_clipped_ok; [lia|exact S3].
      - rewrite app_nil_r. eauto. }
    destruct X4 as (b4 & p4 & len4 & -> & LB & P & LN & PL & junk & ->). cbn [bind].
    set (w := ((stamp ++ pf) ++ t) ++ ee) in *. assert (W : w = stamp ++ pf ++ t ++ ee) by (unfold w; rewrite <- !app_assoc; reflexivity).
    assert (CW : chars_ok w) by (unfold w; auto using chars_app).
    assert (PF : p4 = length (firstn (L - 2) w)) by (rewrite firstn_length; lia).
    unfold strcat. rewrite PF.
    pose proof (find_nul_ok [] (S (length (firstn (L - 2) w ++ NUL :: junk))) (firstn (L - 2) w) junk (Forall_nil _)) as FN.
    cbn [app length] in FN. rewrite FN by lia. cbn [bind]. rewrite Nat.add_0_r.
    rewrite app_length, <- PF in LB. cbn [length] in LB.
    destruct junk as [|z junk]; [cbn in LB; lia|].
    change (NUL :: z :: junk) with ([NUL; z] ++ junk). rewrite (blit_eq _ [NUL; z] junk ([LF] ++ [NUL])) by reflexivity. cbn [bind].
    do 2 eexists. split; [reflexivity|]. split; [rewrite !app_length, <- PF; cbn [length] in *; lia|]. split; [|exact S2P]. split.
    + apply chars_app; [rewrite <- W; apply firstn_chars, CW|]. constructor; [cbv; split; discriminate || reflexivity|constructor].
    + exists junk. rewrite W, <- !app_assoc. reflexivity.
Qed.

Lemma copy_msg_ok msgbuf src s pre str : holds src (pre ++ str) -> s = length pre -> msgbuf <> [] ->
  exists b, copy_msg msgbuf src s = Ok b /\ length b = length msgbuf /\ holds b (firstn (length msgbuf - 1) str).
Proof.
  intros (C & junk & ->) -> NE. unfold copy_msg. destruct (Nat.eqb_spec (length msgbuf) 0) as [Z|Z]; [destruct msgbuf; [contradiction|discriminate]|].
  apply Forall_app in C. destruct C as [C1 C2]. rewrite <- app_assoc.
  rewrite (find_nul_ok str _ pre junk C2) by (rewrite !app_length; cbn; lia). cbn [bind].
  replace (length pre + length str - length pre) with (length str) by lia.
  rewrite (slice_eq pre str (NUL :: junk) (length pre) (length str)) by reflexivity. cbn [bind].
  set (n := length msgbuf) in *. set (x := firstn n (str ++ repeat NUL n)).
  assert (LX : length x = n) by (unfold x; rewrite firstn_length, app_length, repeat_length; lia).
  rewrite blit_ok by (fold n; lia). cbn [bind firstn app]. rewrite LX, skipn_all2 by (fold n; lia). rewrite app_nil_r.
  assert (SP : exists y, x = firstn (n - 1) x ++ [y]).
  { destruct (exists_last (l := x)) as (a & y & E); [intros E; rewrite E in LX; cbn in LX; lia|].
    exists y. rewrite E at 1. f_equal. rewrite E. rewrite firstn_app. assert (length a = n - 1) by (rewrite E, app_length in LX; cbn in LX; lia).
    rewrite firstn_all2 by lia. replace (n - 1 - length a) with 0 by lia. cbn. now rewrite app_nil_r. }
  destruct SP as (y & SP). rewrite SP. assert (L1 : length (firstn (n - 1) x) = n - 1) by (rewrite firstn_length; lia).
  rewrite (put_eq (firstn (n - 1) x) y [] NUL) by lia. eexists. split; [reflexivity|]. split; [rewrite app_length, L1; cbn; lia|].
  split; [apply firstn_chars, C2|]. unfold x. rewrite firstn_firstn. replace (min (n - 1) n) with (n - 1) by lia.
  rewrite firstn_app. destruct (n - 1 - length str) as [|k] eqn:K.
  - exists []. cbn [firstn]. rewrite app_nil_r. reflexivity.
  - destruct n; [lia|]. cbn [repeat firstn]. rewrite <- app_assoc. eexists. reflexivity.
Qed.
