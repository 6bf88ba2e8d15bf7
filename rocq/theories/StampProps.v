(** C114, C52: TIMESTAMP beside other settings. *)
From Coq Require Import String.
From Verif Require Import Base BaseProof Chars Fmt LexModel StrModel FnameModel FnameSpec FnameProof OptModel StrSpec StrProof QuerySpec QueryProof LexSpec LexProof
  ConfModel ConfSpec ConfLex ConfLines ConfProof ConfText ConfDev ConfEffect ConfProps SetSpec SetProof SetProps.
Local Open Scope Z_scope.
Local Open Scope list_scope.

Lemma T_pairs_any E kvs : Forall (fun kv => is_kw E (fst kv) /\ value_ok E (snd kv)) kvs -> forall d r, d = SPACE \/ d = LF ->
  chars_ok (pairs kvs ++ d :: r) ->
  T (server_conf_strs (e_ipmi E)) (pairs kvs ++ d :: r) = flat_map (pair_toks E) kvs ++ T (server_conf_strs (e_ipmi E)) (d :: r).
Proof.
  unfold pairs. induction 1 as [|[k v] kvs [K V] F IH]; intros d r D C; [reflexivity|]. cbn [flat_map fst snd pair_toks] in *.
  assert (NX : exists d' q, flat_map (fun kv => SPACE :: zs (fst kv) ++ EQUALS :: show (snd kv)) kvs ++ d :: r = d' :: q /\ (d' = SPACE \/ d' = LF)).
  { destruct kvs as [|kv kvs]; cbn [flat_map app]; eauto. }
  rewrite <- !app_assoc in *. cbn [app] in *. rewrite <- !app_assoc in *. cbn [app] in *.
  apply chars_tail in C as C1. rewrite T_space by exact C1. rewrite T_kw by auto.
  pose proof (chars_app _ _ C1) as C2. rewrite (T_step _ _ EQUALS [EQUALS] _ C2 (next_equals _ _)) by (vm_compute; congruence).
  apply chars_tail in C2 as C3. pose proof (chars_app _ _ C3) as C4. destruct NX as (d' & q & EQ & D'). rewrite EQ in *. rewrite T_val by auto.
  rewrite <- EQ, IH by (auto; rewrite EQ; exact C4). reflexivity.
Qed.
Lemma pairs_first kvs d r : d = SPACE \/ d = LF -> exists d' q, pairs kvs ++ d :: r = d' :: q /\ (d' = SPACE \/ d' = LF).
Proof. intros D. unfold pairs. destruct kvs as [|kv kvs]; cbn [flat_map app]; eauto. Qed.

Lemma among_tokens E a n u b : chars_ok (stamp_among a n u b) -> n <> [] -> Forall digit n -> (length n < LEX_MAX_STR)%nat ->
  (u = [] \/ exists x m, u = [x] /\ unit_of x m) ->
  Forall (fun kv => is_kw E (fst kv) /\ value_ok E (snd kv)) a -> Forall (fun kv => is_kw E (fst kv) /\ value_ok E (snd kv)) b ->
  tokens_of E (stamp_among a n u b) = (kw E "SERVER", zs "SERVER") :: flat_map (pair_toks E) a ++
    (kw E "TIMESTAMP", zs "TIMESTAMP") :: (EQUALS, [EQUALS]) :: (LEX_INT, n) ::
    match u with [] => [] | _ => [(LEX_STR, u)] end ++ flat_map (pair_toks E) b ++ [(LEX_EOL, [LF]); (LEX_EOF, [])].
Proof.
  intros C N D L U FA FB. rewrite tokens_T. unfold stamp_among in *.
  assert (EQ : zs " TIMESTAMP=" = SPACE :: zs "TIMESTAMP" ++ [EQUALS]) by reflexivity. rewrite EQ in *. cbn [app] in *. rewrite <- app_assoc in *. cbn [app] in *.
  pose proof (chars_app _ _ C) as C0.
  destruct (pairs_first a SPACE (zs "TIMESTAMP" ++ EQUALS :: n ++ u ++ pairs b ++ [LF])) as (d1 & q1 & E1 & D1); [auto|].
  rewrite E1 in C |- *. rewrite T_kw; [|exact C|apply kws_ok; cbn; tauto|destruct D1 as [-> | ->]; reflexivity]. f_equal. rewrite <- E1.
  rewrite T_pairs_any by auto. f_equal. apply chars_app in C0. apply chars_tail in C0 as C1. rewrite T_space by exact C1.
  rewrite T_kw; [|exact C1|apply kws_ok; cbn; tauto|reflexivity]. f_equal. pose proof (chars_app _ _ C1) as C2.
  rewrite (T_step _ _ EQUALS [EQUALS] _ C2 (next_equals _ _)) by (vm_compute; congruence). f_equal. apply chars_tail in C2.
  assert (END : T (server_conf_strs (e_ipmi E)) (pairs b ++ [LF]) = flat_map (pair_toks E) b ++ [(LEX_EOL, [LF]); (LEX_EOF, [])]).
  { rewrite T_pairs_any; auto. apply chars_app in C2. apply chars_app in C2. exact C2. }
  destruct (pairs_first b LF []) as (d2 & q2 & E2 & D2); [auto|].
  destruct U as [->|(x & m & -> & U)].
  - cbn [app] in *. rewrite E2 in C2, END |- *. rewrite (T_step _ _ LEX_INT n (d2 :: q2) C2); [rewrite END; reflexivity| |vm_compute; congruence].
    apply next_num; auto. destruct D2 as [-> | ->]; reflexivity.
  - cbn [app] in *. rewrite E2 in C2, END |- *.
    assert (X : x = 109 \/ x = 77 \/ x = 104 \/ x = 72 \/ x = 100 \/ x = 68) by (unfold unit_of in U; lia).
    rewrite (T_step _ _ LEX_INT n (x :: d2 :: q2) C2); [| |vm_compute; congruence].
    2:{ apply next_num; auto. destruct X as [->|[->|[->|[->|[->| ->]]]]]; reflexivity. }
    f_equal. pose proof (chars_app _ _ C2) as C3. rewrite (T_step _ _ LEX_STR [x] (d2 :: q2) C3); [rewrite END; reflexivity| |vm_compute; congruence].
    change (x :: d2 :: q2) with ([x] ++ d2 :: q2).
    clear - X D2. destruct D2 as [-> | ->]; destruct (e_ipmi E); destruct X as [->|[->|[->|[->|[->| ->]]]]]; vm_compute; reflexivity.
Qed.

Lemma pairs_directive a n u b : exists x y, stamp_among a n u b = zs "SERVER" ++ pairs a ++ x /\ stamp_among a n u b = y ++ pairs b ++ [LF].
Proof.
  unfold stamp_among. exists (zs " TIMESTAMP=" ++ n ++ u ++ pairs b ++ [LF]), (zs "SERVER" ++ pairs a ++ zs " TIMESTAMP=" ++ n ++ u).
  split; [reflexivity|]. rewrite <- !app_assoc. reflexivity.
Qed.
Lemma plain_sub E x y z : plain_text E (x ++ y ++ z) -> plain_text E y.
Proof.
  intros [C I]. split.
  - apply Forall_app in C. destruct C as [_ C]. apply Forall_app in C. apply C.
  - intros J. specialize (I J). apply Forall_app in I. destruct I as [_ I]. apply Forall_app in I. apply I.
Qed.
Lemma pairs_ok E kvs : plain_text E (pairs kvs) -> Forall (fun kv => val_plain E (snd kv)) kvs.
Proof.
  intros P. apply Forall_forall. intros [k v] I. assert (PS : plain_text E (show v)).
  { destruct P as [C IS]. split.
    - apply Forall_forall. intros x X. unfold chars_ok in C. rewrite Forall_forall in C. apply C. apply in_flat_map. exists (k, v). split; auto. right. apply in_or_app. right. right. auto.
    - intros J. specialize (IS J). apply Forall_forall. intros x X. rewrite Forall_forall in IS. apply IS. apply in_flat_map. exists (k, v). split; auto. right. apply in_or_app. right. right. auto. }
  cbn [snd]. destruct v as [s| |]; cbn [val_plain show] in *; auto. destruct PS as [C IS]. split.
  - inversion C as [|? ? _ C1]. apply Forall_app in C1. apply C1.
  - intros X. specialize (IS X). inversion IS as [|? ? _ C1]. apply Forall_app in C1. apply C1.
Qed.

(** TIMESTAMP with its unit among any other settings of a line, or without at the end of one: the
    settings are in force one after the other, and nothing else is changed. *)
Theorem C114_timestamp_among : forall E c pre c1 a n u m b st st',
  whole_lines E pre -> read_config E c pre = Ok c1 -> plain_text E (stamp_among a n u b) -> numeral n ->
  (u = [] /\ m = 1 /\ b = [] \/ exists x, u = [x] /\ unit_of x m) -> number n * m <= INT_MAX ->
  Forall (fun kv => value_ok E (snd kv)) (a ++ b) ->
  says_all E (decided c1) (shown c1) a st -> says_all E (decided c1) (put_in st "TIMESTAMP" (SNum (number n * m))) b st' ->
  exists c2, read_config E c (pre ++ stamp_among a n u b) = Ok c2 /\ (forall k, shown c2 k = st' k) /\
    c_objs c2 = c_objs c1 /\ defaults c2 = defaults c1 /\ c_errs c2 = c_errs c1.
Proof.
  intros E c pre c1 a n u m b st st' WP R1 P (N & D & L & MX) U M V SA SB.
  assert (U' : u = [] \/ exists x m, u = [x] /\ unit_of x m) by (destruct U as [[-> _]|(x & -> & U)]; eauto).
  apply Forall_app in V. destruct V as [VA VB].
  pose proof (says_all_kws _ _ _ _ _ SA) as KA. pose proof (says_all_kws _ _ _ _ _ SB) as KB.
  assert (FA : Forall (fun kv => is_kw E (fst kv) /\ value_ok E (snd kv)) a).
  { rewrite Forall_forall in KA, VA |- *. intros kv I. split; [apply setting_known; apply (KA _ I)|auto]. }
  assert (FB : Forall (fun kv => is_kw E (fst kv) /\ value_ok E (snd kv)) b).
  { rewrite Forall_forall in KB, VB |- *. intros kv I. split; [apply setting_known; apply (KB _ I)|auto]. }
  destruct (pairs_directive a n u b) as (x1 & y1 & E1 & E2).
  assert (PA : Forall (fun kv => val_plain E (snd kv) /\ value_ok E (snd kv)) a).
  { rewrite E1 in P. apply plain_sub, pairs_ok in P. rewrite Forall_forall in P, VA |- *. auto. }
  assert (PB : Forall (fun kv => val_plain E (snd kv) /\ value_ok E (snd kv)) b).
  { rewrite E2 in P. apply plain_sub, pairs_ok in P. rewrite Forall_forall in P, VB |- *. auto. }
  rewrite C51_lines_partial by auto. rewrite R1. cbn [bind]. pose proof (number_nonneg n D) as NN.
  destruct (says_steps E c1 a c1 st SA PA) as (c2 & ST2 & T2 & [O2 D2] & ER2).
  set (c3 := set_tstamp c2 (number n * m)).
  assert (T3 : forall k, shown c3 k = put_in st "TIMESTAMP" (SNum (number n * m)) k).
  { intros k. transitivity (put_in (shown c2) "TIMESTAMP" (SNum (number n * m)) k); [revert k; same_table "TIMESTAMP"%string|]. unfold put_in. rewrite T2. reflexivity. }
  destruct (says_all_ext _ _ _ _ _ SB (shown c3)) as (st2 & SB' & Q). { intros k. symmetry. apply T3. }
  destruct (says_steps E c1 b c3 st2 SB' PB) as (c4 & ST4 & T4 & [O4 D4] & ER4).
  exists c4. split; [|split; [intros k; rewrite T4; symmetry; apply Q|]; split; [rewrite O4; exact O2|split; [rewrite D4; exact D2|rewrite ER4; exact ER2]]].
  rewrite (server_read E c1 _ P _ (among_tokens E a n u b (proj1 P) N D L U' FA FB)).
  unfold parse_server_directive, fuel_of. cbn [rest].
  set (ps := match c_pidfile c1 with Some _ => true | None => false end) in *. set (ts := 0 <=? c_port c1) in *.
  set (tl := match u with [] => [] | _ => [(LEX_STR, u)] end ++ flat_map (pair_toks E) b ++ [(LEX_EOL, [LF]); (LEX_EOF, [])]).
  assert (LN : exists k, S (length (flat_map (pair_toks E) a ++ (kw E "TIMESTAMP", zs "TIMESTAMP") :: (EQUALS, [EQUALS]) :: (LEX_INT, n) :: tl)) = (length a + S k)%nat /\ (length b + 2 < k)%nat).
  { rewrite app_length, pairs_length. unfold tl. cbn [length]. rewrite !app_length, pairs_length. cbn [length].
    exists (2 * length a + (3 + length (match u with [] => [] | _ :: _ => [(LEX_STR, u)] end) + 3 * length b + 2))%nat. lia. }
  destruct LN as (fl & LN & FL).
  destruct (loop_prefix E (server_val E ps ts) (server_kwd E ps ts) a) with (a := c1) (a' := c2) (n := S fl) (k := kw E "SERVER") (x := zs "SERVER")
    (r := (kw E "TIMESTAMP", zs "TIMESTAMP") :: (EQUALS, [EQUALS]) :: (LEX_INT, n) :: tl) as (k' & x' & LP).
  { intros k0 a0 s I EQ. apply in_map_iff in I. destruct I as (kv & <- & I). rewrite Forall_forall in KA. destruct (KA _ I). apply kwd_setting; auto. }
  { exact ST2. }
  rewrite LN, LP. clear LP. rewrite (Nat.add_comm (length a)). rewrite loop_step. cbn [next rest prev]. rewrite at_end_kw, err_kw.
  assert (K : server_kwd E ps ts c2 (mkStrm (kw E "TIMESTAMP") (zs "TIMESTAMP") ((EQUALS, [EQUALS]) :: (LEX_INT, n) :: tl)) =
    timestamp_kwd c2 (mkStrm (kw E "TIMESTAMP") (zs "TIMESTAMP") ((EQUALS, [EQUALS]) :: (LEX_INT, n) :: tl))).
  { unfold server_kwd. cbn [prev]. rewrite Z.eqb_refl. reflexivity. }
  rewrite K. clear K.
  unfold timestamp_kwd, eq_val. cbn [next rest prev text]. rewrite Z.eqb_refl. cbn [next rest prev text]. change (LEX_INT =? LEX_INT) with true. cbn [negb].
  rewrite atoi_digits by auto. cbn [bind]. destruct (Z.ltb_spec (number n) 0); [lia|].
  destruct U as [(-> & -> & ->)|(x & -> & U)].
  - unfold tl. cbn [app flat_map next rest prev text]. change (at_end LEX_EOL) with true. cbn [bind]. destruct (Z.ltb_spec (number n) 0); [lia|]. cbn [bind].
    inversion ST4; subst. unfold c3. rewrite Z.mul_1_r. destruct fl as [|fl]; [lia|]. reflexivity.
  - unfold tl. cbn [app next rest prev text]. change (at_end LEX_STR) with false. change (LEX_STR =? LEX_STR) with true.
    assert (M0 : 0 <= number n * m) by (unfold unit_of in U; nia).
    assert (QM : times (number n) m = Ok (number n * m)) by (unfold times; destruct (Z.leb_spec (number n * m) INT_MAX); [reflexivity|lia]).
    cbn iota. rewrite (unit_val (number n) x m U MX), QM. cbn [bind]. destruct (Z.ltb_spec (number n * m) 0); [lia|]. cbn [bind]. fold c3.
    rewrite (loop_pairs E (server_val E ps ts) _ b) with (a' := c4); [reflexivity| |exact ST4|lia].
    intros k0 a0 s I EQ. apply in_map_iff in I. destruct I as (kv & <- & I). rewrite Forall_forall in KB. destruct (KB _ I). apply kwd_setting; auto.
Qed.

(** The first line with a port (a PID file) decides with TIMESTAMP on it as well. *)
Theorem C52_first_line_timestamp : forall E c pre c1 a n u m b st st' c',
  whole_lines E pre -> read_config E c pre = Ok c1 -> plain_text E (stamp_among a n u b) -> numeral n ->
  (u = [] /\ m = 1 /\ b = [] \/ exists x, u = [x] /\ unit_of x m) -> number n * m <= INT_MAX ->
  Forall (fun kv => value_ok E (snd kv)) (a ++ b) ->
  says_all E (decided c1) (shown c1) a st -> says_all E (decided c1) (put_in st "TIMESTAMP" (SNum (number n * m))) b st' ->
  c_port c < 0 -> ~ In (kw E "PORT") (map fst (tokens_of E pre)) ->
  process_config E c (pre ++ stamp_among a n u b) = Ok c' ->
  forall p, last_val "PORT" (a ++ b) = Some (VNum p) -> c_port c' = number p.
Proof.
  intros E c pre c1 a n u m b st st' c' WP R1 P NU U M V SA SB NP NI H p LV.
  destruct (C114_timestamp_among E c pre c1 a n u m b st st' WP R1 P NU U M V SA SB) as (c2 & R2 & T & _).
  apply default_port in H. destruct H as (c3 & R3 & _ & PT & _). rewrite R2 in R3. injection R3 as <-.
  assert (P1 : c_port c1 = c_port c) by (rewrite read_config_tokens in R1 by apply WP; eapply port_unset; eauto).
  assert (NF : ~ decided c1 "PORT"%string) by (intros D; apply fixed_port in D; apply Z.leb_le in D; lia).
  assert (LA : last_val "PORT" (a ++ b) = match last_val "PORT" b with Some v => Some v | None => last_val "PORT" a end).
  { clear. induction a as [|[k v] a IH]; cbn [app last_val]; [destruct (last_val "PORT" b); reflexivity|]. rewrite IH. destruct (last_val "PORT" b); reflexivity. }
  rewrite LA in LV. assert (Q : st' "PORT"%string = SNum (number p) /\ numeral p).
  { destruct (last_val "PORT" b) as [v|] eqn:LB.
    - injection LV as ->. eapply says_all_port; eauto.
    - destruct (says_all_port _ _ _ _ _ SA NF _ LV) as [Q NM]. split; [|exact NM]. rewrite <- Q.
      transitivity (put_in st "TIMESTAMP" (SNum (number n * m)) "PORT"%string); [|reflexivity].
      clear - SB LB. revert LB. induction SB as [st0|st0 k v w kvs st1 Y SB IH]; intros LB; [reflexivity|]. cbn [last_val] in LB.
      destruct (last_val "PORT" kvs); [discriminate|]. rewrite IH by reflexivity. unfold put_in. destruct (String.eqb_spec "PORT" k); [discriminate|reflexivity]. }
  destruct Q as [Q (_ & DG & _)]. rewrite <- T in Q. unfold shown, table in Q. cbn in Q. injection Q as Q. pose proof (number_nonneg p DG) as NN.
  rewrite PT. destruct (Z.ltb_spec (c_port c2) 0); [lia|exact Q].
Qed.

Definition st_a : list (string * value) := [("LOOPBACK"%string, VWord "OFF"); ("PORT"%string, VNum (zs "1234"))].
Definition st_b : list (string * value) := [("SYSLOG"%string, VStr (zs "local3"))].
Example C114_among_example : exists st st', plain_text ex (stamp_among st_a (zs "2") (zs "h") st_b) /\ numeral (zs "2") /\ unit_of 104 60 /\
  Forall (fun kv => value_ok ex (snd kv)) (st_a ++ st_b) /\
  says_all ex (decided c0) (shown c0) st_a st /\ says_all ex (decided c0) (put_in st "TIMESTAMP" (SNum (number (zs "2") * 60))) st_b st' /\
  map st' ["LOOPBACK"; "PORT"; "TIMESTAMP"; "SYSLOG"]%string = [SBool false; SNum 1234; SNum 120; SNum 152] /\
  shows (process_config ex c0 (stamp_among st_a (zs "2") (zs "h") st_b)) ["LOOPBACK"; "PORT"; "TIMESTAMP"; "SYSLOG"]%string =
    Some ([SBool false; SNum 1234; SNum 120; SNum 152], []).
Proof.
  assert (DG : forall l, forallb (fun c => (48 <=? c) && (c <=? 57)) l = true -> Forall digit l).
  { intros l H. rewrite forallb_forall in H. apply Forall_forall. intros c I. specialize (H _ I). unfold digit. lia. }
  eexists. eexists. split; [apply plain_ok; reflexivity|].
  assert (NM : forall l, forallb (fun c => (48 <=? c) && (c <=? 57)) (zs l) = true -> zs l <> [] -> (length (zs l) < 9)%nat -> number (zs l) <= 1000000 -> numeral (zs l)).
  { intros l H N L M. split; [exact N|]. split; [apply DG; exact H|]. split; [assert (9 < LEX_MAX_STR)%nat by (apply Nat.ltb_lt; vm_compute; reflexivity); lia|].
    assert (1000000 <= INT_MAX) by (vm_compute; discriminate). lia. }
  split; [apply NM; [reflexivity|discriminate|apply Nat.ltb_lt; reflexivity|vm_compute; discriminate]|].
  split; [right; left; auto|]. split.
  { unfold st_a, st_b. repeat apply Forall_cons; try apply Forall_nil; cbn [snd value_ok]; [right; left; reflexivity| |apply quotable_zs; [reflexivity|apply Nat.ltb_lt; reflexivity]].
    split; [discriminate|]. split; [apply DG; reflexivity|]. apply Nat.ltb_lt. vm_compute. reflexivity. }
  split.
  { eapply YA_cons; [apply Y_off; [cbn; tauto|discriminate]|]. eapply YA_cons; [apply Y_port|apply YA_nil].
    - apply NM; [reflexivity|discriminate|apply Nat.ltb_lt; reflexivity|vm_compute; discriminate].
    - intros D. apply fixed_port in D. discriminate. }
  split.
  { eapply YA_cons; [|apply YA_nil]. apply Y_syslog with (n := 152). exists [], (zs "local3"), ["local3"%string], "local3"%string.
    split; [reflexivity|]. split; [constructor|]. split; [cbn; auto 30|]. split; [left; reflexivity|reflexivity]. }
  split; vm_compute; reflexivity.
Qed.

(** Without its unit, TIMESTAMP is accepted at the end of a line only: before another setting it is
    reported, the timestamps are switched off and the rest of the line is ignored. *)
Theorem C114_unitless_refuted :
  shows (read_config ex c0 (file ["SERVER LOOPBACK=OFF TIMESTAMP=30"]%string)) ["TIMESTAMP"; "LOOPBACK"]%string = Some ([SNum 30; SBool false], []) /\
  shows (read_config ex c0 (file ["SERVER TIMESTAMP=30 LOOPBACK=OFF"]%string)) ["TIMESTAMP"; "LOOPBACK"]%string =
    Some ([SNum 0; SBool true], [EValue (kw ex "TIMESTAMP")]).
Proof. split; vm_compute; reflexivity. Qed.

Print Assumptions C114_timestamp_among.
Print Assumptions C52_first_line_timestamp.
Print Assumptions C114_unitless_refuted.
