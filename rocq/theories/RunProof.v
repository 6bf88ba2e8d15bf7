(** Proofs about a run of the client. *)
From Coq Require Import String.
From Verif Require Import Base BaseProof Mem Chars Fmt LexModel LexSpec LexProof StrModel StrSpec StrProof FileModel FileSpec FileProof FileProps
  MsgModel ProtoModel ProtoSpec ProtoProof ProtoProps RunModel RunSpec.
Local Open Scope Z_scope.
Local Notation len := (@List.length Z).

(** ** Strings *)
Lemma STR_pos : (0 < MAX_STR_SIZE)%nat.
Proof. unfold MAX_STR_SIZE. change 0%nat with (Z.to_nat 0). apply Z2Nat.inj_lt; lia. Qed.
Lemma STR_1023 : (MAX_STR_SIZE - 1)%nat = Z.to_nat 1023.
Proof. unfold MAX_STR_SIZE. change 1%nat with (Z.to_nat 1). rewrite <- Z2Nat.inj_sub by lia. reflexivity. Qed.
Lemma STR_ML : MAX_STR_SIZE = ProtoModel.MAX_LINE.
Proof. reflexivity. Qed.
Lemma BUF_pos : (0 < MAX_BUF_SIZE)%nat.
Proof. unfold MAX_BUF_SIZE. change 0%nat with (Z.to_nat 0). apply Z2Nat.inj_lt; lia. Qed.
Lemma cut_1023 : (900 < Z.to_nat 1023)%nat.
Proof. rewrite <- (Nat2Z.id 900). apply Z2Nat.inj_lt; lia. Qed.
Global Opaque MAX_STR_SIZE MAX_BUF_SIZE.

Lemma firstn_chars n t : chars_ok t -> chars_ok (firstn n t).
Proof. intros C. apply Forall_forall. intros x X. unfold chars_ok in C. rewrite Forall_forall in C. apply C. rewrite <- (firstn_skipn n t). apply in_or_app. auto. Qed.
Lemma vsnprintf_ok buf n t : len buf = n -> (0 < n)%nat -> chars_ok t ->
  exists post, vsnprintf buf 0 n t = Ok (firstn (n - 1) t ++ NUL :: post, len t) /\ len (firstn (n - 1) t ++ NUL :: post) = n.
Proof.
  intros L P C. unfold vsnprintf. destruct (Nat.eqb_spec n 0) as [X|_]; [lia|].
  assert (LT : (len (firstn (n - 1) t ++ [NUL]) <= n)%nat) by (rewrite app_length, firstn_length; cbn [List.length]; lia).
  set (u := firstn (n - 1) t) in *. exists (skipn (len (u ++ [NUL])) buf).
  rewrite blit_ok by lia. cbn [bind]. cbn [firstn List.app]. rewrite Nat.add_0_l.
  assert (E : (u ++ [NUL]) ++ skipn (len (u ++ [NUL])) buf = u ++ NUL :: skipn (len (u ++ [NUL])) buf) by (rewrite <- app_assoc; reflexivity).
  rewrite E. split; [reflexivity|]. rewrite <- E, app_length, skipn_length. lia.
Qed.
Lemma create_ok junk t : len junk = MAX_STR_SIZE -> chars_ok t -> create_format_string junk t = Ok (firstn (Z.to_nat 1023) t).
Proof.
  intros L C. unfold create_format_string. destruct (vsnprintf_ok junk MAX_STR_SIZE t L STR_pos C) as (post & -> & LB). cbn [bind fst].
  set (u := firstn (MAX_STR_SIZE - 1) t) in *. unfold put. rewrite blit_ok by (rewrite LB; cbn [List.length]; pose proof STR_pos; lia). cbn [bind].
  assert (CU : chars_ok u) by (apply firstn_chars; auto).
  assert (LU : (len u <= MAX_STR_SIZE - 1)%nat) by (unfold u; rewrite firstn_length; lia).
  rewrite <- STR_1023. fold u.
  destruct (Nat.eq_dec (len u) (MAX_STR_SIZE - 1)) as [E|NE].
  - assert (firstn (MAX_STR_SIZE - 1) (u ++ NUL :: post) = u) as -> by (rewrite <- E, firstn_app, Nat.sub_diag, firstn_all; cbn; apply app_nil_r).
    apply cstr_ok. auto.
  - assert (firstn (MAX_STR_SIZE - 1) (u ++ NUL :: post) = u ++ NUL :: firstn (MAX_STR_SIZE - 1 - len u - 1) post) as ->.
    { rewrite firstn_app, firstn_all2 by lia. f_equal. destruct (MAX_STR_SIZE - 1 - len u)%nat eqn:K; [lia|]. cbn [firstn]. f_equal. f_equal. lia. }
    rewrite <- app_assoc. cbn [List.app]. apply cstr_ok. auto.
Qed.

(** ** Showing *)
Definition bad (s : st) : Prop := In Fail (w_out s) \/ In Fail (w_err s) \/ In Fail (w_log s).
Definition later (s s' : st) : Prop := suffix (w_out s') (w_out s) /\ suffix (w_err s') (w_err s) /\ suffix (w_log s') (w_log s) /\ t_sent s' = t_sent s.
Lemma later_refl s : later s s. Proof. repeat split; apply suffix_refl. Qed.
Lemma later_trans a b c : later a b -> later b c -> later a c.
Proof. intros (A & B & C & D) (E & F & G & H). repeat split; [eapply suffix_trans; eauto..|congruence]. Qed.
Lemma later_bad s s' : later s s' -> bad s' -> bad s.
Proof. intros (A & B & C & _) [X|[X|X]]; [left|right; left|right; right]; eapply suffix_in; eauto. Qed.
(** [t] is shown and logged *)
Definition gets (toerr : bool) (s s' : st) (t : list Z) : Prop :=
  t_out s' = t_out s ++ (if toerr then [] else t) /\ t_err s' = t_err s ++ (if toerr then t else []) /\ logged s s' t.
Lemma gets_nil e s : gets e s s [].
Proof. unfold gets, logged. destruct e; rewrite !app_nil_r; (split; [auto|]); (split; [auto|]); destruct (t_log s); cbn; rewrite ?app_nil_r; auto. Qed.
Lemma gets_trans e a b c t u : gets e a b t -> gets e b c u -> gets e a c (t ++ u).
Proof.
  intros (A & B & C) (D & E & F). unfold gets, logged in *. rewrite D, E, A, B, F, C. destruct e; rewrite ?app_nil_r, ?app_assoc; (split; [auto|]); (split; [auto|]);
    destruct (t_log a); cbn; rewrite ?app_assoc; auto.
Qed.
Lemma emit_ok e s t : exists s' b, emit e s t = Ok (s', b) /\ later s s' /\ (b = true -> gets e s s' t) /\ (b = false -> bad s).
Proof.
  unfold emit. destruct (C23_write_n (if e then w_err s else w_out s) (if e then t_err s else t_out s) t (len t) (le_n _)) as (o & rv & ws & -> & SF & X). cbn [bind].
  rewrite firstn_all in X. cbv zeta.
  set (s1 := if e then _ else _).
  assert (L1 : later s s1).
  { unfold s1, later. destruct e; cbn [w_out w_err w_log t_sent]; repeat split; auto using suffix_refl. }
  destruct X as [(-> & ->)|(-> & F & _)].
  - destruct (Z.ltb_spec (Z.of_nat (len t)) 0); [lia|].
    assert (LG : t_log s1 = t_log s) by (unfold s1; destruct e; reflexivity). rewrite LG.
    assert (O1 : t_out s1 = t_out s ++ (if e then [] else t) /\ t_err s1 = t_err s ++ (if e then t else [])) by (unfold s1; destruct e; cbn; rewrite app_nil_r; auto).
    destruct O1 as (O1 & O2). destruct (t_log s) as [l|] eqn:TL.
    + destruct (C23_write_n (w_log s1) l t (len t) (le_n _)) as (l1 & rv & ws1 & -> & SF1 & X1). cbn [bind]. rewrite firstn_all in X1.
      eexists _, _. split; [reflexivity|]. split; [|split].
      * destruct L1 as (A & B & C & D). repeat split; cbn; auto. eapply suffix_trans; eauto.
      * intros Y. destruct X1 as [(-> & ->)|(-> & _)]; [|discriminate Y]. unfold gets, logged. cbn. rewrite TL, O1, O2. auto.
      * intros Y. destruct X1 as [(-> & _)|(-> & F & _)]; [destruct (Z.ltb_spec (Z.of_nat (len t)) 0); [lia|discriminate Y]|].
        eapply later_bad; [exact L1|]. right. right. auto.
    + exists s1, true. split; [reflexivity|]. split; auto. split; [|discriminate]. intros _. unfold gets, logged. rewrite TL, LG, O1, O2. auto.
  - exists s1, false. split; [reflexivity|]. split; auto. split; [discriminate|]. intros _. unfold bad. destruct e; auto.
Qed.

Lemma data_ok f : forall rs stream s, (len stream < f)%nat ->
  exists s' b, display_data f rs stream s = Ok (s', b) /\ later s s' /\ (b = true -> gets true s s' stream) /\ (b = false -> bad s \/ In Fail rs \/ In Intr rs).
Proof.
  induction f as [|f IH]; intros rs stream s F; [lia|]. cbn [display_data].
  assert (ST : forall n rs1, (0 < n)%nat -> (forall x, In x rs1 -> In x rs) ->
    exists s' b, (if (len (firstn n stream) =? 0)%nat then Ok (s, true)
       else do e <- emit true s (firstn n stream); if snd e then display_data f rs1 (skipn n stream) (fst e) else Ok (fst e, false)) = Ok (s', b)
      /\ later s s' /\ (b = true -> gets true s s' stream) /\ (b = false -> bad s \/ In Fail rs \/ In Intr rs)).
  { intros n rs1 N I. destruct (Nat.eqb_spec (len (firstn n stream)) 0) as [Z0|NZ].
    - assert (stream = []) as -> by (destruct stream; [auto|destruct n; [lia|discriminate Z0]]).
      exists s, true. split; [reflexivity|]. split; [apply later_refl|]. split; [intros _; apply gets_nil|discriminate].
    - destruct (emit_ok true s (firstn n stream)) as (s1 & b & -> & L & G & B). cbn [bind fst snd]. destruct b.
      + destruct (IH rs1 (skipn n stream) s1) as (s2 & b & -> & L2 & G2 & B2).
        { rewrite skipn_length. rewrite firstn_length in NZ. lia. }
        exists s2, b. split; [reflexivity|]. split; [eapply later_trans; eauto|]. split.
        * intros X. rewrite <- (firstn_skipn n stream) at 1. eapply gets_trans; eauto.
        * intros X. destruct (B2 X) as [Y|[Y|Y]]; [left; eapply later_bad; eauto|right; left; auto|right; right; auto].
      + exists s1, false. split; [reflexivity|]. split; auto. split; [discriminate|]. auto. }
  pose proof BUF_pos. unfold sys_read. destruct rs as [|[| |k] rs].
  - apply ST; auto.
  - exists s, false. split; [reflexivity|]. split; [apply later_refl|]. split; [discriminate|]. intros _. right. right. left. auto.
  - exists s, false. split; [reflexivity|]. split; [apply later_refl|]. split; [discriminate|]. intros _. right. left. left. auto.
  - cbv zeta. apply ST; [lia|]. intros x X. right. auto.
Qed.

Lemma hint_eq q code : hint q code = advice q code.
Proof.
  unfold hint, advice, ERR_TOO_MANY_CONSOLES, ERR_BUSY_CONSOLES.
  destruct (Z.eqb_spec code 6) as [->|N6]; [destruct (q_bcast q); reflexivity|].
  destruct (Z.eqb_spec code 7) as [->|N7]; [cbn [andb]; destruct (q_bcast q), (q_force q), (q_join q); reflexivity|]. cbn [andb].
  destruct code as [|[[[]|[]|]|[[]|[]|]|]|]; try reflexivity; lia.
Qed.
Lemma shown_eq junk m : len junk = MAX_STR_SIZE -> chars_ok m -> create_format_string junk (zs "ERROR: " ++ m ++ zs "." ++ [LF; LF]) = Ok (shown m).
Proof.
  intros L C. apply create_ok; auto. repeat (apply Forall_app; split); auto; try zc.
Qed.
Definition said (msg : option (list Z)) : list Z := match msg with Some m => m | None => zs "Unspecified" end.
Lemma error_ok dbg junk q code msg sock s : len junk = MAX_STR_SIZE -> (forall m, msg = Some m -> chars_ok m) -> (dbg = true -> 0 < code) ->
  exists s' e, display_error dbg junk q code msg sock s = Ok (s', e) /\ t_sent s' = t_sent s /\
   (e = Exit 2 /\ gets true s s' (shown (said msg) ++ (match sock with Some (_, stream) => if code =? 1 then [] else stream | None => [] end) ++ advice q code) \/
    e = Exit 1 /\ (bad s \/ exists rs stream, sock = Some (rs, stream) /\ code <> 1 /\ (In Fail rs \/ In Intr rs))).
Proof.
  intros L C D. unfold display_error.
  assert (assert_if dbg (0 <? code) = Ok tt) as -> by (unfold assert_if; destruct dbg; [specialize (D eq_refl); destruct (Z.ltb_spec 0 code); [reflexivity|lia]|reflexivity]).
  cbn [bind]. fold (said msg). rewrite shown_eq; auto; [|unfold said; destruct msg; [auto|zc]]. cbn [bind].
  destruct (emit_ok true s (shown (said msg))) as (s1 & b1 & -> & L1 & G1 & B1). cbn [bind fst snd]. destruct b1; cbn [negb].
  2: { exists s1, (Exit 1). split; [reflexivity|]. split; [apply L1|]. right. auto. }
  specialize (G1 eq_refl). clear B1.
  set (rest := match sock with Some (_, stream) => if code =? 1 then [] else stream | None => [] end).
  assert (X : exists s2 b2, (match sock with
             | Some (rs, stream) => if code =? ERR_LOCAL then Ok (s1, true) else display_data (S (List.length rs + List.length stream)) rs stream s1
             | None => Ok (s1, true) end) = Ok (s2, b2) /\ later s1 s2 /\ (b2 = true -> gets true s1 s2 rest) /\
      (b2 = false -> bad s1 \/ exists rs stream, sock = Some (rs, stream) /\ code <> 1 /\ (In Fail rs \/ In Intr rs))).
  { unfold rest. destruct sock as [[rs stream]|].
    - unfold ERR_LOCAL. destruct (Z.eqb_spec code 1).
      + exists s1, true. split; [reflexivity|]. split; [apply later_refl|]. split; [intros _; apply gets_nil|discriminate].
      + destruct (data_ok (S (List.length rs + len stream)) rs stream s1 ltac:(lia)) as (s2 & b2 & -> & L2 & G2 & B2).
        exists s2, b2. split; [reflexivity|]. split; auto. split; auto. intros Y. destruct (B2 Y) as [Z|Z]; [auto|]. right. eauto 6.
    - exists s1, true. split; [reflexivity|]. split; [apply later_refl|]. split; [intros _; apply gets_nil|discriminate]. }
  destruct X as (s2 & b2 & E2 & L2 & G2 & B2).
  match goal with |- context [bind ?a _] => replace a with (Ok (s2, b2)) end. cbn [bind fst snd].
  destruct b2; cbn [negb].
  2: { exists s2, (Exit 1). split; [reflexivity|]. split; [apply (later_trans _ _ _ L1 L2)|]. right. split; auto.
       destruct (B2 eq_refl) as [Y|Y]; [left; eapply later_bad; eauto|right; auto]. }
  specialize (G2 eq_refl). rewrite hint_eq. destruct (advice q code) as [|a0 a] eqn:AD.
  - exists s2, (Exit 2). split; [reflexivity|]. split; [apply (later_trans _ _ _ L1 L2)|]. left. split; auto. rewrite app_nil_r. eapply gets_trans; eauto.
  - destruct (emit_ok true s2 (a0 :: a)) as (s3 & b3 & -> & L3 & G3 & B3). cbn [bind fst snd].
    exists s3, (Exit (if b3 then 2 else 1)). split; [reflexivity|]. split; [apply (later_trans _ _ _ (later_trans _ _ _ L1 L2) L3)|]. destruct b3.
    + left. split; auto. eapply gets_trans; eauto. eapply gets_trans; eauto.
    + right. split; auto. left. eapply later_bad; [exact (later_trans _ _ _ L1 L2)|]. auto.
Qed.

Lemma consoles_shown l : forall buf s, len buf = MAX_STR_SIZE -> Forall chars_ok l ->
  exists s' b, display_consoles buf l s = Ok (s', b) /\ later s s' /\ (b = true -> gets false s s' (one_per_line l)) /\
   (b = false -> bad s \/ exists n, In n l /\ (MAX_STR_SIZE <= len n + 1)%nat).
Proof.
  induction l as [|n l IH]; intros buf s L F; cbn [display_consoles].
  - exists s, true. split; [reflexivity|]. split; [apply later_refl|]. split; [intros _; apply gets_nil|discriminate].
  - inversion F as [|? ? CN FL]; subst. rewrite <- STR_ML.
    destruct (vsnprintf_ok buf MAX_STR_SIZE (n ++ [LF]) L STR_pos) as (post & -> & LB).
    { apply Forall_app. split; [auto|zc]. }
    cbn [bind fst snd]. rewrite app_length. cbn [List.length]. destruct (Nat.leb_spec MAX_STR_SIZE (len n + 1)) as [BIG|SM].
    + exists s, false. split; [reflexivity|]. split; [apply later_refl|]. split; [discriminate|]. intros _. right. exists n. split; [left; auto|auto].
    + rewrite firstn_all2 in * by (rewrite app_length; cbn [List.length]; lia).
      rewrite (slice_eq [] (n ++ [LF]) (NUL :: post)) by (rewrite ?app_length; auto). cbn [bind].
      destruct (emit_ok false s (n ++ [LF])) as (s1 & b1 & -> & L1 & G1 & B1). cbn [bind fst snd]. destruct b1.
      * destruct (IH ((n ++ [LF]) ++ NUL :: post) s1 LB FL) as (s2 & b2 & -> & L2 & G2 & B2).
        exists s2, b2. split; [reflexivity|]. split; [eapply later_trans; eauto|]. split.
        -- intros X. unfold one_per_line. cbn [flat_map]. eapply gets_trans; eauto.
        -- intros X. destruct (B2 X) as [Y|(m & I & Y)]; [left; eapply later_bad; eauto|right; exists m; split; [right; auto|auto]].
      * exists s1, false. split; [reflexivity|]. split; auto. split; [discriminate|]. auto.
Qed.

(** ** Receiving *)
Lemma some_inj (a b : list Z) : Some a = Some b -> a = b.
Proof. congruence. Qed.
Lemma fmt_chars n : 0 <= n -> chars_ok (fmt_d n).
Proof.
  intros N. unfold fmt_d. destruct (Z.ltb_spec n 0); [lia|]. destruct (fmt_u_ok n N) as (D & _). eapply Forall_impl; [|exact D]. intros c H1. unfold isdigit in H1. unfold char_ok. lia.
Qed.
Lemma port_chars h p : chars_ok h -> 0 <= p -> chars_ok (at_host h p).
Proof.
  intros C P. unfold at_host. repeat (apply Forall_app; split); auto; try zc.
  apply fmt_chars. exact P.
Qed.
Local Opaque at_host.
Definition made_up (y : sys) (host : list Z) (port : Z) (n : Z) : list Z :=
  if n <? 0 then zs "Unable to read response from " ++ at_host host port ++ zs ":" ++ [LF] ++ zs "  " ++ y_serr y ++ zs " (blocked by TCP-Wrappers?)"
  else if n =? 0 then zs "Connection terminated by " ++ at_host host port
  else zs "Received invalid response from " ++ at_host host port.
Lemma made_up_chars y host port n : chars_ok (y_serr y) -> chars_ok host -> 0 <= port -> chars_ok (made_up y host port n).
Proof.
  intros C H P. pose proof (port_chars _ _ H P). unfold made_up. destruct (n <? 0); [|destruct (n =? 0)]; repeat (apply Forall_app; split); auto; zc.
Qed.
Lemma plain_chars s : plain s -> chars_ok s.
Proof. intros [F _]. eapply Forall_impl; [|exact F]. unfold char_ok. cbv beta. lia. Qed.
Lemma receive_any y rs stream host port k : world_ok y -> chars_ok host -> 0 <= port -> bytes_ok stream -> client_ok k ->
  receive false y rs stream host port k = UB SignedOverflow \/
  exists k1 rv rs1 i m, receive false y rs stream host port k = Ok (k1, rv, rs1, skipn i stream, m) /\
    (rv = 0 \/ rv = -1 /\ k_err k1 <> 0) /\ client_ok k1 /\ (forall t, m = Some t -> chars_ok t).
Proof.
  intros (_ & _ & _ & CE & _ & LJ & LL) CH P B I. unfold receive.
  destruct (C21_any_input rs stream (y_jline y) k B LL I) as [->|(k1 & rv & rs1 & i & -> & _ & RV & I1)]; [left; reflexivity|right]. cbn [bind].
  destruct (read_any rs stream (y_jline y) B LL) as (buf & n & s1 & j & -> & _). cbn [bind].
  pose proof (made_up_chars y host port n CE CH P) as MU. unfold made_up in MU.
  destruct (k_msg k1) as [| |t] eqn:KM.
  - cbn [bind]. eexists k1, rv, rs1, i, None. split; [reflexivity|]. split; auto. split; auto. discriminate.
  - rewrite create_ok; [|exact LJ|exact MU]. cbn [bind]. eexists k1, rv, rs1, i, _. split; [reflexivity|]. split; auto. split; auto.
    intros t X. apply some_inj in X. subst t. apply firstn_chars. exact MU.
  - cbn [bind]. eexists k1, rv, rs1, i, (Some t). split; [reflexivity|]. split; auto. split; auto. intros t0 X. apply some_inj in X. subst t0. apply plain_chars. apply I1. auto.
Qed.

(** ** The run *)
Lemma dot_chars s : chars_ok s -> chars_ok (before_dot s).
Proof. induction s as [|c t IH]; intros C; [constructor|]. inversion C; subst. cbn [before_dot]. destruct (c =? DOT); [constructor|constructor; [assumption|apply IH; assumption]]. Qed.
Lemma skipn_skipn_ex {A} i j (l : list A) : exists k, skipn i (skipn j l) = skipn k l.
Proof. exists (j + i)%nat. revert l. induction j as [|j IH]; intros l; [reflexivity|]. destruct l as [|x l]; [rewrite !skipn_nil; reflexivity|]. cbn [skipn Nat.add]. apply IH. Qed.
Lemma skipn_bytes i l : bytes_ok l -> bytes_ok (skipn i l).
Proof. intros B. apply Forall_forall. intros x X. unfold bytes_ok in B. rewrite Forall_forall in B. apply B. rewrite <- (firstn_skipn i l). apply in_or_app. auto. Qed.

Definition outcome (dbg : bool) (y : sys) (q : req) (stream : list Z) (s : st) (r : res (st * ended)) : Prop :=
  r = UB SignedOverflow \/ dbg = true /\ r = UB AssertFail \/ exists s' e, r = Ok (s', e) /\ explained y q stream s s' e.
Definition alike (s s0 : st) : Prop := t_out s = t_out s0 /\ t_err s = t_err s0 /\ t_log s = t_log s0 /\ w_out s = w_out s0 /\ w_err s = w_err s0 /\ w_log s = w_log s0.
Lemma gets_err s0 s s' t : alike s s0 -> gets true s s' t -> t_out s' = t_out s0 /\ t_err s' = t_err s0 ++ t /\ logged s0 s' t.
Proof. intros (A & B & C & _) (D & E & F). unfold logged in *. rewrite app_nil_r in D. rewrite D, E, A, B, F, C. auto. Qed.
Lemma bad_trouble y s s0 : alike s s0 -> bad s -> trouble y s0.
Proof. intros (_ & _ & _ & A & B & C) D. unfold bad in D. rewrite A, B, C in D. unfold trouble. tauto. Qed.
Lemma fail_any dbg y q code msg sock s s0 stream : world_ok y -> alike s s0 -> (forall m, msg = Some m -> chars_ok m) ->
  (forall rs st, sock = Some (rs, st) -> (code = 1 \/ rs = y_dr y) /\ exists i, st = skipn i stream) -> 
  outcome dbg y q stream s0 (display_error dbg (y_junk y) q code msg sock s).
Proof.
  intros W AL CM SK. destruct W as (_ & _ & _ & _ & _ & LJ & _).
  destruct (bool_dec dbg true) as [D|D]; [destruct (Z.lt_ge_cases 0 code) as [CP|CN]|].
  2: { right. left. split; auto. unfold display_error. rewrite D. unfold assert_if. destruct (Z.ltb_spec 0 code); [lia|]. reflexivity. }
  all: right; right; destruct (error_ok dbg (y_junk y) q code msg sock s LJ CM) as (s' & e & -> & _ & [(-> & G)|(-> & X)]); [auto || (intros; congruence) | | ];
    exists s'; eexists; (split; [reflexivity|]).
  1,3: destruct (gets_err _ _ _ _ AL G) as (G1 & G2 & G3); eapply error_shown with (msg := said msg) (code := code); eauto;
       destruct sock as [[rs st]|]; [|auto]; destruct (code =? 1); [auto|]; right; apply (SK rs st eq_refl).
  all: apply in_trouble; destruct X as [X|(rs & st & E & N & X)]; [eapply bad_trouble; eauto|];
       destruct (SK rs st E) as ([-> | ->] & _); [congruence|]; unfold trouble; tauto.
Qed.
Lemma world_cut y t : world_ok y -> chars_ok t -> create_format_string (y_junk y) t = Ok (firstn (Z.to_nat 1023) t).
Proof. intros (_ & _ & _ & _ & _ & L & _) C. apply create_ok; auto. Qed.
Lemma run_any dbg y host port user tty q stream s : world_ok y -> chars_ok host -> 0 <= port -> asks_ok dbg user tty q -> bytes_ok stream ->
  outcome dbg y q stream s (run_client dbg false y host port user tty q stream s).
Proof.
  intros W CH P (CU & CT & NC & CC) B. unfold run_client. cbv zeta.
  assert (AL : alike s s) by (unfold alike; auto 10).
  destruct (y_sock y) eqn:YS; cbn [negb].
  2: { right. right. eexists _, _. split; [reflexivity|]. apply in_trouble. left. auto. }
  assert (LOC : forall sock s1 t, alike s1 s -> chars_ok t -> (forall rs st, sock = Some (rs, st) -> exists i, st = skipn i stream) ->
     outcome dbg y q stream s (do t <- create_format_string (y_junk y) t; display_error dbg (y_junk y) q ERR_LOCAL (Some t) sock s1)).
  { intros sock s1 t A1 C1 S1. rewrite (world_cut y t W C1). cbn [bind]. apply fail_any; auto.
    - intros m X. apply some_inj in X. subst m. apply firstn_chars. auto.
    - intros rs st X. split; [left; reflexivity|eauto]. }
  destruct (y_addr y); cbn [negb].
  2: { apply LOC; auto; [repeat (apply Forall_app; split); auto; zc|discriminate]. }
  destruct W as (W1 & W2 & W3 & W4 & W5 & W6 & W7). assert (W : world_ok y) by (unfold world_ok; auto 10).
  assert (CN : exists f h, match y_cname y with None => (host, host) | Some n => (n, before_dot n) end = (f, h) /\ chars_ok f /\ chars_ok h).
  { destruct (y_cname y) as [n|] eqn:YN; eexists _, _; (split; [reflexivity|]); [split; [auto|apply dot_chars; auto]|auto]. }
  destruct CN as (fq & h & -> & CF & CHH).
  pose proof (port_chars fq port CF P) as PF. pose proof (port_chars h port CHH P) as PH.
  destruct (y_conn y) as [e|] eqn:YC.
  { apply LOC; auto; [|discriminate]. repeat (apply Forall_app; split); auto; try zc. apply W2. reflexivity. }
  destruct (send_greeting_ok dbg (y_gw y) (t_sent s) user tty CU CT) as ([[o1 rv1] s1] & -> & _). cbn [bind].
  assert (A1 : alike (set_sent s o1) s) by (unfold alike; cbn; auto 10).
  assert (CUN : chars_ok (zs "Unable to send greeting to " ++ at_host h port ++ zs ": " ++ y_serr y)) by (repeat (apply Forall_app; split); auto; zc).
  assert (S0 : forall rs st, Some ([] : list io_ev, stream) = Some (rs, st) -> exists i, st = skipn i stream) by (intros rs st X; injection X as _ <-; exists 0%nat; reflexivity).
  destruct (rv1 <? 0).
  { destruct (List.length s1 =? List.length (y_gw y))%nat; [|apply LOC; auto]. apply fail_any; auto.
    - intros m X. apply some_inj in X. subst m. zc.
    - intros rs st X. split; [left; reflexivity|eauto]. }
  destruct (receive_any y (y_gr y) stream h port (mkClient (q_cons q) false 0 NoMsg) W CHH P B) as [->|(k1 & rv2 & rs1 & i & m & -> & RV & I1 & CM)].
  { split; [exact CC|discriminate]. } { left. reflexivity. }
  cbn [bind]. destruct (Z.ltb_spec rv2 0) as [R2|R2].
  { destruct (k_err k1 =? ERR_AUTHENTICATE).
    - destruct (y_close y) eqn:YL; [apply fail_any; auto; discriminate|]. right. right. eexists _, _. split; [reflexivity|]. apply in_trouble. unfold trouble. tauto.
    - apply fail_any; auto. intros rs st X. injection X as <- <-. eauto. }
  destruct (send_req_ok dbg (y_rw y) (t_sent (set_sent s o1)) q NC) as (o2 & rv3 & s2 & -> & _).
  { eapply Forall_impl; [|exact CC]. intros a A. split; [apply plain_chars; auto|intros _]. destruct A as [A _]. eapply Forall_impl; [|exact A]. cbv beta. lia. }
  cbn [bind]. assert (A2 : alike (set_sent (set_sent s o1) o2) s) by (unfold alike; cbn; auto 10).
  assert (S1 : forall rs st, Some (y_dr y, skipn i stream) = Some (rs, st) -> exists i, st = skipn i stream) by (intros rs st X; injection X as _ <-; eauto).
  assert (S2 : forall rs st, Some (y_dr y, skipn i stream) = Some (rs, st) -> (ERR_LOCAL = 1 \/ rs = y_dr y) /\ exists i, st = skipn i stream) by (intros rs st X; split; [left; reflexivity|eauto]).
  destruct (rv3 <? 0).
  { destruct (List.length s2 =? List.length (y_rw y))%nat; [|apply LOC; auto]. apply fail_any; auto.
    intros t X. apply some_inj in X. subst t. zc. }
  assert (REST : outcome dbg y q stream s
    (do r <- receive false y (y_rr y) (skipn i stream) h port (mkClient (q_cons (set_cons q [])) (k_reset k1) (k_err k1) (k_msg k1));
     let '(k, rv, _, st2, m) := r in
     if rv <? 0 then display_error dbg (y_junk y) q (k_err k) m (Some (y_dr y, st2)) (set_sent (set_sent s o1) o2)
     else match q_cmd q with
          | CmdQuery => do e <- RunModel.display_consoles (y_junk y) (k_cons k) (set_sent (set_sent s o1) o2); if snd e then finish y (fst e) else Ok (fst e, Exit 1)
          | _ => Ok (set_sent (set_sent s o1) o2, Session k st2)
          end)).
  { destruct (receive_any y (y_rr y) (skipn i stream) h port (mkClient (q_cons (set_cons q [])) (k_reset k1) (k_err k1) (k_msg k1)) W CHH P (skipn_bytes _ _ B)) as [->|(k2 & rv4 & rs2 & j & m2 & -> & RV2 & I2 & CM2)].
    { split; [constructor|apply I1]. } { left. reflexivity. }
    cbn [bind]. destruct (skipn_skipn_ex j i stream) as (ij & EJ). rewrite EJ.
    destruct (Z.ltb_spec rv4 0) as [R4|R4].
    { apply fail_any; auto. intros rs st X. injection X as <- <-. eauto. }
    assert (SES : q_cmd q <> CmdQuery -> outcome dbg y q stream s (Ok (set_sent (set_sent s o1) o2, Session k2 (skipn ij stream)))).
    { intros NQ. right. right. eexists _, _. split; [reflexivity|]. apply in_session; auto. }
    destruct (q_cmd q) eqn:QC; [apply SES; discriminate..|].
    destruct (consoles_shown (k_cons k2) (y_junk y) (set_sent (set_sent s o1) o2) W6) as (s3 & b & -> & L3 & G3 & B3).
    { eapply Forall_impl; [|apply I2]. intros a. apply plain_chars. }
    cbn [bind fst snd]. destruct b.
    - specialize (G3 eq_refl). destruct G3 as (G1 & G2 & G3). unfold finish. rewrite app_nil_r in G2. unfold logged in G3. cbn [set_sent t_out t_err t_log] in G1, G2, G3.
      rewrite G3. destruct (t_log s) as [l|] eqn:TL; cbn [option_map].
      + rewrite world_cut; auto.
        2: { repeat (apply Forall_app; split); auto; try zc; unfold MSG_PREFIX, MSG_SUFFIX; zc. }
        cbn [bind]. set (p := firstn _ _).
        destruct (C23_write_n (w_log s3) (l ++ one_per_line (k_cons k2)) p (len p) (le_n _)) as (l3 & rv5 & ws & -> & _ & X). cbn [bind].
        right. right. eexists _, _. split; [reflexivity|]. rewrite firstn_all in X. destruct X as [(-> & ->)|(-> & F & _)].
        * destruct (Z.ltb_spec (Z.of_nat (len p)) 0); [lia|]. destruct (y_logclose y) eqn:YL; [|apply in_trouble; unfold trouble; tauto].
          eapply names_shown; eauto. unfold logged. cbn [t_log option_map]. rewrite TL. cbn [option_map]. rewrite <- app_assoc. do 3 f_equal.
        * apply in_trouble. eapply bad_trouble; [exact A2|]. eapply later_bad; [exact L3|]. right. right. auto.
      + right. right. eexists _, _. split; [reflexivity|]. eapply names_shown with (names := k_cons k2); eauto. unfold logged. rewrite G3, TL. reflexivity.
    - right. right. eexists _, _. split; [reflexivity|]. destruct (B3 eq_refl) as [X|(n & _ & X)].
      + apply in_trouble. eapply bad_trouble; [exact A2|]. exact X.
      + eapply long_name with (n := n); auto. pose proof STR_1023 as E. assert (X1 : (Z.to_nat 1023 <= len n)%nat) by lia. lia. }
  destruct (q_cmd q) eqn:QC; try exact REST. destruct (y_shut y) as [e|] eqn:YT; [|exact REST].
  apply LOC; auto. repeat (apply Forall_app; split); auto; try zc. apply W3. reflexivity.
Qed.
