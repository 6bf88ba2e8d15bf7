(** C50: keys.  C53: options of serial and test devices.  C75: option strings of IPMI
    consoles and logs. *)
From Coq Require Import String.
From Verif Require Import Base BaseProof Chars Fmt LexModel StrModel StrSpec OptModel OptSpec OptProof OptProof2 OptProof3 OptIpmi.
Local Open Scope Z_scope.

(** ** C50 *)

(** The key a string denotes is stored, NUL-terminated, in the first dstlen bytes; one
    that does not fit is cut short and reported; what follows the destination is
    left alone. *)
Theorem C50_key : forall dst post src k,
  chars_ok src -> key src k -> (0 < List.length dst)%nat ->
  exists dst' r, parse_key (dst ++ post) src (List.length dst) = Ok (dst' ++ post, r) /\
    List.length dst' = List.length dst /\
    (exists junk, dst' = firstn (List.length dst - 1) k ++ NUL :: junk) /\
    ((List.length k < List.length dst)%nat -> r = Z.of_nat (List.length k)) /\
    ((List.length dst <= List.length k)%nat -> r = -1).
Proof.
  intros dst post src k C K P. destruct (parse_key_ok dst post src k C K P) as (junk & L & E).
  eexists _, _. split; [exact E|]. split; [exact L|]. split.
  - exists junk. f_equal. destruct (Nat.le_gt_cases (length k) (length dst - 1)).
    + rewrite Nat.min_l by lia. rewrite !firstn_all2 by lia. reflexivity.
    + rewrite Nat.min_r by lia. reflexivity.
  - split; intros H.
    + apply Nat.ltb_lt in H. rewrite H. reflexivity.
    + apply Nat.ltb_ge in H. rewrite H. reflexivity.
Qed.

(** Every string denotes exactly one key. *)
Theorem C50_total : forall src, exists k, key src k /\ forall k', key src k' -> k' = k.
Proof.
  intros src. destruct (key_exists src) as (k & K). exists k. split; auto. intros k' K'.
  destruct K as [(x & ds & -> & X & F & ->)|[N ->]], K' as [(x' & ds' & E & X' & F' & ->)|[N' ->]]; auto.
  - injection E; intros; subst; auto.
  - exfalso. apply N'. eauto 8.
  - exfalso. apply N. subst. eauto 8.
Qed.

(** A password is read back as a C string: one whose bytes include a NUL is accepted
    but only the part before the NUL is used. *)
Theorem C50_password_nul_refuted :
  exists str k, key str k /\ List.length k = 3%nat /\
  forall L o, (4 <= List.length (i_pass o))%nat -> v_pass L [65] = true ->
    exists o', opt_password L o str = Ok (Some o') /\ arr_string (i_pass o') = Ok [65].
Proof.
  exists (zs "0x410042"), [65; 0; 66]. split; [|split; [reflexivity|]].
  - left. exists 120, (zs "410042"). repeat split; auto. apply all_hex_ok. reflexivity.
  - intros L o LO V.
    assert (K : key (zs "0x410042") [65; 0; 66]).
    { left. exists 120, (zs "410042"). repeat split; auto. apply all_hex_ok. reflexivity. }
    assert (C : chars_ok (zs "0x410042")) by (apply Forall_forall; intros c I; vm_compute in I; unfold char_ok; lia).
    destruct (parse_key_ok (i_pass o) [] _ _ C K ltac:(lia)) as (junk & LJ & E). rewrite !app_nil_r in E.
    cbn [List.length] in *. rewrite Nat.min_l in * by lia. cbn [firstn app] in *.
    assert ((3 <? List.length (i_pass o))%nat = true) as Q by (apply Nat.ltb_lt; lia). rewrite Q in E.
    assert (A : arr_string (65 :: 0 :: 66 :: NUL :: junk) = Ok [65]).
    { apply (arr_string_ok [65]). cbn. unfold NUL. lia. }
    exists (set_pass o (65 :: 0 :: 66 :: NUL :: junk)). split; [|exact A].
    rewrite opt_password_nonempty by discriminate.
    rewrite E. cbn [bind Z.ltb Z.compare Z.of_nat Pos.of_succ_nat Pos.succ]. rewrite A. cbn [bind]. rewrite V. reflexivity.
Qed.

Example C50_example :
  parse_key [1; 2; 3; 4; 5; 6] (zs "0X5aF") 4 = Ok ([90; 240; 0; 4; 5; 6], 2) /\
  parse_key [1; 2; 3; 4; 5; 6] (zs "0x0102ff") 3 = Ok ([1; 2; 0; 4; 5; 6], -1) /\
  parse_key [1; 2; 3; 4; 5; 6] (zs "0xhi") 6 = Ok (zs "0xhi" ++ [0; 6], 4).
Proof. vm_compute. auto. Qed.

(** ** C53 *)

(** Whatever the string, an accepted option string leaves all serial options in range. *)
Theorem C53_serial_range : forall wrap o str o', serial_ok o -> parse_serial_opts wrap o str = Some o' -> serial_ok o'.
Proof. intros wrap o str o' O E. eapply serial_range; eauto. Qed.

(** An option string of the documented form, "BPS[,DATABITS[PARITY[STOPBITS]]]", is
    accepted exactly when its parts are in range; the speed is rounded down. *)
Theorem C53_serial : forall wrap o o' b d p s,
  0 <= b <= INT_MAX -> 0 <= d <= INT_MAX -> 0 <= s <= INT_MAX -> isdigit p = false ->
  (parse_serial_opts wrap o (fmt_d b) = Some o' <->
     best_speed b (s_bps o') /\ s_databits o' = s_databits o /\ s_parity o' = s_parity o /\ s_stopbits o' = s_stopbits o) /\
  (parse_serial_opts wrap o (fmt_d b ++ COMMA :: fmt_d d) = Some o' <->
     best_speed b (s_bps o') /\ s_databits o' = d /\ 5 <= d <= 8 /\ s_parity o' = s_parity o /\ s_stopbits o' = s_stopbits o) /\
  (parse_serial_opts wrap o (fmt_d b ++ COMMA :: fmt_d d ++ [p]) = Some o' <->
     best_speed b (s_bps o') /\ s_databits o' = d /\ 5 <= d <= 8 /\ parity p (s_parity o') /\ s_stopbits o' = s_stopbits o) /\
  (parse_serial_opts wrap o (fmt_d b ++ COMMA :: fmt_d d ++ p :: fmt_d s) = Some o' <->
     best_speed b (s_bps o') /\ s_databits o' = d /\ 5 <= d <= 8 /\ parity p (s_parity o') /\ s_stopbits o' = s /\ 1 <= s <= 2).
Proof.
  intros wrap o o' b d p s B D S P. destruct (sscanf_fmt wrap b d p s B D S P) as (E1 & E2 & E3 & E4).
  assert (NE : forall r, fmt_d b ++ r <> []) by (intros r; destruct (fmt_d_nonempty b r ltac:(lia)) as (c & t & ->); discriminate).
  assert (NE0 : fmt_d b <> []) by (rewrite <- (app_nil_r (fmt_d b)); apply NE).
  rewrite !serial_by_vals by auto. rewrite E1, E2, E3, E4.
  split; [apply serial1|split; [apply serial2|split; [apply serial3|apply serial4]]].
Qed.

(** What does not look like a number is accepted and ignored, and so is what follows
    the recognised part. *)
Theorem C53_serial_ignored : forall wrap o,
  parse_serial_opts wrap o (zs "fast") = Some o /\
  parse_serial_opts wrap o (zs "9600;7e2") = Some (mkSer 9600 (s_databits o) (s_parity o) (s_stopbits o)).
Proof. intros wrap [b d p s]. split; reflexivity. Qed.

(** Test options: a string is accepted exactly when every comma-separated field is a
    tag and a number in range, and the fields take effect from left to right. *)
Theorem C53_test_options : forall o o' str, (List.length str < MAX_LINE)%nat ->
  (fst (parse_test_opts false o str) = Some o' <-> exists ts, fields comma str ts /\ test_options ts o o').
Proof.
  intros o o' str H. unfold parse_test_opts. apply Nat.leb_gt in H. rewrite H. rewrite test_loop_ok. split.
  - intros T. exists (strtok_all is_comma str). split; auto. apply (strtok_fields is_comma comma is_comma_ok). reflexivity.
  - intros (ts & F & T). apply (strtok_fields is_comma comma is_comma_ok) in F. subst. auto.
Qed.

Theorem C53_test_too_long : forall e o str, (MAX_LINE <= List.length str)%nat -> fst (parse_test_opts e o str) = None.
Proof. intros e o str H. unfold parse_test_opts. apply Nat.leb_le in H. rewrite H. reflexivity. Qed.

Theorem C53_test_range : forall o o' str, test_ok o -> fst (parse_test_opts false o str) = Some o' -> test_ok o'.
Proof.
  intros o o' str O E. unfold parse_test_opts in E. destruct (MAX_LINE <=? length str)%nat; [discriminate|].
  apply test_loop_ok in E. eapply test_options_range; eauto.
Qed.

Theorem C53_test_init : test_ok init_test_opts.
Proof. unfold test_ok, init_test_opts, INT_MAX; cbn. lia. Qed.

(** A valid option is rejected if an earlier one, possibly of another console, was out
    of range: errno is not reset before it is tested. *)
Theorem C53_test_errno_refuted : exists bad good e,
  parse_test_opts false init_test_opts bad = (None, e) /\
  (exists o, fst (parse_test_opts false init_test_opts good) = Some o) /\
  fst (parse_test_opts e init_test_opts good) = None.
Proof.
  exists (zs "b:99999999999999999999"), (zs "b:5"), true. split; [vm_compute; reflexivity|]. split; [|vm_compute; reflexivity].
  eexists. vm_compute. reflexivity.
Qed.

(** The test console, whatever rand() returns: the characters come in cyclic order;
    bursts have the configured length, and while one is incomplete the next part
    follows at once; otherwise the delay is the configured one; probability 0 means
    no output, probability 100 that every expiration of the timer starts a burst. *)
Theorem C53_test_output : forall size o rs, test_ok o -> o_max o - o_min o < INT_MAX -> (0 < size)%nat ->
  exists d os b, test_run size o new_test rs = Ok (d, os) /\
    (forall i, (i < List.length (emitted os))%nat -> nth_error (emitted os) i = Some (cyc i)) /\
    0 <= d_left d <= o_bytes o /\
    Z.of_nat (List.length (emitted os)) + d_left d = Z.of_nat b * o_bytes o /\
    (forall os1 out ms, os = os1 ++ [(out, ms)] -> if 0 <? d_left d then ms = 0 else delay_ok o ms) /\
    Forall (fun x => (List.length (fst x) <= size)%nat) os /\
    (o_prob o = 0 -> emitted os = []) /\
    (o_prob o = 100 -> 0 < o_bytes o -> Forall (fun x => fst x <> []) os).
Proof.
  intros size o rs T M S.
  destruct (test_run_ok size o rs T M S new_test 0 0 (new_test_inv o T)) as (d & os & b & E & EO & (EI1 & EI2 & EI3) & ED & ES & E0 & E1).
  exists d, os, b. split; auto. split.
  { intros i I. rewrite EO. rewrite nth_error_map. rewrite nth_error_nth' with (d := O) by (rewrite seq_length; auto).
    rewrite seq_nth by auto. reflexivity. }
  split; auto. split; auto. split; [|auto].
  intros os1 out ms X. apply (ED os1 (out, ms) X).
Qed.

(** The characters of the cycle are printable and the cycle has length 94. *)
Theorem C53_test_cycle : forall k, 33 <= cyc k <= 126 /\ cyc (k + 94) = cyc k /\ (cyc k < 126 -> cyc (S k) = cyc k + 1).
Proof.
  intros k. pose proof (Z.mod_pos_bound (Z.of_nat k) 94 ltac:(lia)). split; [unfold cyc; lia|]. split.
  - unfold cyc. rewrite Nat2Z.inj_add. change (Z.of_nat 94) with (1 * 94). rewrite Z.mod_add by lia. reflexivity.
  - intros L. rewrite cyc_step. destruct (Z.eqb_spec (cyc k) 126); lia.
Qed.

(** Accepted delays can make the computation of the next one overflow. *)
Theorem C53_test_overflow_refuted : exists str o,
  fst (parse_test_opts false init_test_opts str) = Some o /\
  forall r1 r2 size, (2000 <= size)%nat -> read_test_obj size o new_test r1 r2 = UB SignedOverflow.
Proof.
  exists (zs "m:2147483647,n:0"). eexists. split; [vm_compute; reflexivity|]. intros r1 r2 size H.
  pose proof (read_test_ok size (mkTest 1024 2147483647 0 100) new_test r1 r2 0 0) as R.
  assert (T : test_ok (mkTest 1024 2147483647 0 100)) by (unfold test_ok, INT_MAX; cbn [o_bytes o_max o_min o_prob]; lia).
  specialize (R T (new_test_inv _ T) ltac:(lia)). unfold read_test_obj in *.
  change (d_left new_test) with 0 in *. cbn [Z.ltb Z.compare orb Z.eqb o_prob o_bytes o_max o_min] in *.
  destruct (r1 mod 100 <? 100) eqn:Q.
  2:{ pose proof (Z.mod_pos_bound r1 100 ltac:(lia)). lia. }
  rewrite Z.min_l by lia. destruct (fill (Z.to_nat 1024) (d_last new_test)) as [out last].
  cbn [d_left Z.sub]. reflexivity.
Qed.

Example C53_example :
  fst (parse_test_opts false init_test_opts (zs "B:0x10,m:500,,N: 100,p:250")) = Some (mkTest 16 500 100 100) /\
  parse_serial_opts id (mkSer 9600 8 0 1) (zs "20000,7e2") = Some (mkSer 19200 7 2 2) /\
  parse_serial_opts id (mkSer 9600 8 0 1) (zs "49,8n1") = None /\
  (exists d, test_run 3 (mkTest 4 0 (-1) 100) new_test [(7, 0); (99, 0); (5, 5)] = Ok (d, [(zs "!""#", 0); (zs "$", 0); (zs "%&'", 0)])).
Proof. repeat split; try (vm_compute; reflexivity). eexists. vm_compute. reflexivity. Qed.

(** ** C75 *)

(** Whatever the string, parsing IPMI options stays inside the arrays, and every
    setting it leaves is terminated and acceptable to the IPMI library. *)
Theorem C75_ipmi_range : forall L su sp sk o str, (0 < su)%nat -> (0 < sp)%nat -> (0 < sk)%nat ->
  chars_ok str -> ipmi_ok L su sp sk o ->
  exists r, parse_ipmi_opts L o str = Ok r /\ forall o', r = Some o' -> ipmi_ok L su sp sk o'.
Proof. intros. destruct (parse_ipmi_good L su sp sk H H0 H1 o str H2 H3) as (x & E & G). eauto. Qed.

Theorem C75_ipmi_init : forall L su sp sk, (0 < su)%nat -> (0 < sp)%nat -> (0 < sk)%nat ->
  ipmi_ok L su sp sk (init_ipmi_opts L su sp sk).
Proof. intros. apply init_ok; auto. Qed.

(** Fields take effect from left to right, each on its own: parsing "A,B" is parsing A
    and then B. *)
Theorem C75_ipmi_fields : forall L o a b, (List.length (a ++ COMMA :: b) < MAX_LINE)%nat ->
  nth 1 a NUL = COLON -> nth 1 b NUL = COLON ->
  parse_ipmi_opts L o (a ++ COMMA :: b) =
    do r <- parse_ipmi_opts L o a; match r with None => Ok None | Some o' => parse_ipmi_opts L o' b end.
Proof.
  intros L o a b H A B. rewrite app_length in H. cbn [List.length] in H. unfold parse_ipmi_opts.
  assert (Q1 : (MAX_LINE <=? length a)%nat = false) by (apply Nat.leb_gt; lia).
  assert (Q2 : (MAX_LINE <=? length b)%nat = false) by (apply Nat.leb_gt; lia).
  assert (Q3 : (MAX_LINE <=? length (a ++ COMMA :: b))%nat = false) by (apply Nat.leb_gt; rewrite app_length; cbn [List.length]; lia).
  rewrite Q1, Q2, Q3. destruct a as [|a0 [|a1 a]]; try discriminate. cbn [nth] in A. subst a1.
  destruct b as [|b0 [|b1 b]]; try discriminate. cbn [nth] in B. subst b1.
  cbn [app nth]. rewrite Z.eqb_refl.
  change (a0 :: COLON :: a ++ COMMA :: b0 :: COLON :: b) with ((a0 :: COLON :: a) ++ COMMA :: (b0 :: COLON :: b)).
  unfold strtok_all. rewrite tokens_app by reflexivity. apply ipmi_loop_app.
Qed.

(** What each option means: its letter, in either case, says what is set, and the
    text is stored if it fits and the library accepts it. Numbers must fit an int:
    see below. *)
Theorem C75_ipmi_option : forall L o c p, flags_ok L -> chars_ok p -> ~ In COMMA p -> c <> COMMA -> (List.length p + 2 < MAX_LINE)%nat ->
  (0 < List.length (i_user o))%nat -> (0 < List.length (i_pass o))%nat -> (0 < List.length (i_kg o))%nat ->
  (forall v, numeral p v -> 0 <= v <= INT_MAX) ->
  exists r, parse_ipmi_opts L o (c :: COLON :: p) = Ok r /\ ipmi_option L o c p r.
Proof. intros L o c p F C NP NC LN P1 P2 P3 SM. rewrite one_option by auto. now apply ipmi_option_ok. Qed.

(** The older form says the same as the labelled one. *)
Theorem C75_ipmi_positional : forall L o ts, Forall (fun t => t <> [] /\ ~ In COMMA t) ts -> nth 1 (joined ts) NUL <> COLON ->
  (List.length (joined ts) < MAX_LINE)%nat -> (List.length (joined (labelled ts)) < MAX_LINE)%nat ->
  parse_ipmi_opts L o (joined ts) = parse_ipmi_opts L o (joined (labelled ts)).
Proof.
  intros L o ts F NC L1 L2. destruct ts as [|t ts]; [reflexivity|].
  assert (FL : Forall (fun t => t <> [] /\ ~ In COMMA t) (labelled (t :: ts))).
  { assert (FT : forall c u, c <> COMMA -> ~ In COMMA u -> (c :: COLON :: field_text u) <> [] /\ ~ In COMMA (c :: COLON :: field_text u)).
    { intros c u NE N. split; [discriminate|]. intros [X|[X|X]]; [auto|discriminate X|]. revert X. unfold field_text. destruct (list_eqb u _); auto. }
    assert (NI : forall u, In u (t :: ts) -> ~ In COMMA u) by (intros u I; rewrite Forall_forall in F; apply (F u I)).
    destruct ts as [|p [|k ws]]; cbn [labelled app].
    - constructor; [apply FT; [discriminate|apply NI; cbn; auto]|constructor].
    - constructor; [apply FT; [discriminate|apply NI; cbn; auto]|]. constructor; [apply FT; [discriminate|apply NI; cbn; auto]|constructor].
    - do 3 (constructor; [apply FT; [discriminate|apply NI; cbn; auto]|]). apply Forall_forall. intros x I. apply in_map_iff in I. destruct I as (w & <- & I).
      apply FT; [discriminate|apply NI; cbn; auto]. }
  unfold parse_ipmi_opts. apply Nat.leb_gt in L1. apply Nat.leb_gt in L2. rewrite L1, L2, (joined_tokens _ F), (joined_tokens _ FL).
  assert (E1 : exists c r, joined (t :: ts) = c :: r) by (inversion F as [|? ? [N _] _]; subst; destruct t as [|c t]; [now elim N|]; destruct ts; cbn; eauto).
  assert (E2 : exists r, joined (labelled (t :: ts)) = 85 :: COLON :: r) by (destruct ts as [|p [|k ws]]; cbn; eauto; destruct ws; cbn; eauto).
  destruct E1 as (c & r & E1), E2 as (r2 & E2). rewrite E1 in *. rewrite E2. apply Z.eqb_neq in NC. rewrite NC. cbn [nth]. rewrite Z.eqb_refl. apply v1_labelled.
Qed.

(** Numbers that do not fit an int are truncated instead of being rejected. *)
Theorem C75_truncated_refuted : forall L o, v_priv L 2 = true -> v_cipher L 3 = true -> v_work L 2 = true -> c_default L <> 2 -> i_work o = 0 ->
  find_flag (c_flags L) (zs "0x100000002") = None ->
  exists o', parse_ipmi_opts L o (zs "L:4294967298,C:-4294967293,W:0x100000002") = Ok (Some o') /\
    i_priv o' = 2 /\ i_cipher o' = 3 /\ i_work o' = 2.
Proof.
  intros L o V1 V2 V3 N W F. unfold parse_ipmi_opts. cbn [Nat.leb].
  assert ((MAX_LINE <=? length (zs "L:4294967298,C:-4294967293,W:0x100000002"))%nat = false) as -> by reflexivity.
  set (toks := strtok_all _ _). assert (ET : toks = [zs "L:4294967298"; zs "C:-4294967293"; zs "W:0x100000002"]) by reflexivity.
  rewrite ET. clear toks ET.
  change (match zs "L:4294967298,C:-4294967293,W:0x100000002" with [] => ?a | _ :: _ => ?b end) with b.
  change (nth 1 (zs "L:4294967298,C:-4294967293,W:0x100000002") NUL =? COLON) with true. cbv iota. cbn [ipmi_loop].
  assert (E1 : process_ipmi_opt L o (zs "L:4294967298") = Ok (Some (set_priv o 2))).
  { change (process_ipmi_opt L o (zs "L:4294967298")) with (Ok (if v_priv L 2 then Some (set_priv o 2) else None)). rewrite V1. reflexivity. }
  rewrite E1. cbn [bind].
  assert (E2 : forall o, process_ipmi_opt L o (zs "C:-4294967293") = Ok (Some (set_cipher o 3))).
  { intros o2. change (process_ipmi_opt L o2 (zs "C:-4294967293")) with (Ok (if v_cipher L 3 then Some (set_cipher o2 3) else None)). rewrite V2. reflexivity. }
  rewrite E2. cbn [bind].
  assert (E3 : forall o, i_work o = 0 -> process_ipmi_opt L o (zs "W:0x100000002") = Ok (Some (set_work o 2))).
  { intros o2 W2. change (process_ipmi_opt L o2 (zs "W:0x100000002")) with (Ok (opt_workaround L o2 (zs "0x100000002"))).
    unfold opt_workaround. rewrite F, W2.
    change ((length (zs "0x100000002") =? 0)%nat || same (zs "0x100000002") "default") with false. cbv iota.
    change (same (zs "0x100000002") "none") with false. cbv iota.
    change (strtoul0 (zs "0x100000002")) with (4294967298, @nil Z, false). cbv iota beta. cbn [List.length negb orb Nat.eqb].
    change (to_uint 4294967298) with 2. rewrite V3.
    assert ((2 =? c_default L) = false) as -> by lia. change (2 =? 0) with false. cbn [orb]. destruct (0 =? c_default L); reflexivity. }
  rewrite E3 by exact W. cbn [bind ipmi_loop]. eexists. split; [reflexivity|]. auto.
Qed.

Definition lib0 : lib :=
  mkLib (fun s => (List.length s <? 17)%nat) (fun s => (List.length s <? 21)%nat) (fun k => (List.length k <? 21)%nat)
    (fun v => (2 <=? v) && (v <=? 4)) (fun v => (0 <=? v) && (v <=? 17)) (fun v => v <? 1024) 2 3 4 4294967295
    [(zs "authcap", 1); (zs "intel20", 2); (zs "solstatus", 64)].

(** Workaround flags add up; "none" and "default" start afresh. *)
Definition then_ (r : res (option ipmiopt)) (f : ipmiopt -> bool) : bool :=
  match r with Ok (Some o) => f o | _ => false end.
Definition str_is (a : list Z) (s : string) : bool :=
  match arr_string a with Ok t => list_eqb t (zs s) | _ => false end.
Example C75_example :
  let o := init_ipmi_opts lib0 17 21 21 in
  then_ (parse_ipmi_opts lib0 o (zs "U:root,p:0x61,L:OPERATOR,C:3,W:authcap,W:64")) (fun o1 =>
    str_is (i_user o1) "root" && str_is (i_pass o1) "a" && (i_priv o1 =? 3) && (i_cipher o1 =? 3) && (i_work o1 =? 65) &&
    then_ (parse_ipmi_opts lib0 o1 (zs "W:none,W:intel20")) (fun o2 => i_work o2 =? 2)) &&
  then_ (parse_ipmi_opts lib0 o (zs "root,-,0x00ff,intel20")) (fun o3 => (i_kglen o3 =? 2) && i_pass_set o3) = true /\
  parse_ipmi_opts lib0 o (zs "U:root,L:9") = Ok None.
Proof. split; vm_compute; reflexivity. Qed.

(** Log options: for each of the three settings the last word about it decides; other
    words are ignored. *)
Theorem C75_log_options : forall o str, str <> [] -> (List.length str < MAX_LINE)%nat ->
  exists o' ts, parse_logfile_opts o str = Some o' /\ fields log_separator str ts /\
    setting "lock" "nolock" ts (g_lock o) (g_lock o') /\
    setting "sanitize" "nosanitize" ts (g_sanitize o) (g_sanitize o') /\
    setting "timestamp" "notimestamp" ts (g_timestamp o) (g_timestamp o').
Proof.
  intros o str N H. apply Nat.leb_gt in H. unfold parse_logfile_opts. rewrite H. destruct str as [|c t]; [congruence|].
  eexists _, (strtok_all log_sep (c :: t)). split; [reflexivity|].
  split; [apply (strtok_fields log_sep log_separator log_sep_ok); reflexivity|]. apply log_opts_ok.
Qed.

Theorem C75_log_rejected : forall o str, str = [] \/ (MAX_LINE <= List.length str)%nat -> parse_logfile_opts o str = None.
Proof.
  intros o str [-> | H]; [reflexivity|]. unfold parse_logfile_opts. destruct str; auto. apply Nat.leb_le in H. rewrite H. reflexivity.
Qed.

Example C75_log_example :
  parse_logfile_opts (mkLogopt true false false) (zs "Sanitize, timestamp;bogus NOTIMESTAMP.nolock") = Some (mkLogopt false true false).
Proof. reflexivity. Qed.

Print Assumptions C50_key.
Print Assumptions C50_total.
Print Assumptions C50_password_nul_refuted.
Print Assumptions C53_serial_range.
Print Assumptions C53_serial.
Print Assumptions C53_serial_ignored.
Print Assumptions C53_test_options.
Print Assumptions C53_test_too_long.
Print Assumptions C53_test_range.
Print Assumptions C53_test_init.
Print Assumptions C53_test_errno_refuted.
Print Assumptions C53_test_output.
Print Assumptions C53_test_cycle.
Print Assumptions C53_test_overflow_refuted.
(** Non-vacuity of the theorems on single options and on the older form. *)
Example C75_option_example : flags_ok lib0 /\ (forall v, numeral (zs "0x11") v -> 0 <= v <= INT_MAX) /\
  (let o := init_ipmi_opts lib0 17 21 21 in
   then_ (parse_ipmi_opts lib0 o (zs "c:0x11")) (fun o1 => i_cipher o1 =? 17) &&
   then_ (parse_ipmi_opts lib0 o (zs "l:AdMin")) (fun o1 => i_priv o1 =? 4) &&
   negb (then_ (parse_ipmi_opts lib0 o (zs "l:king")) (fun _ => true)) &&
   then_ (parse_ipmi_opts lib0 o (joined [zs "joe"; zs "-"; zs "0x6162"; zs "intel20"; zs "64"]))
     (fun o1 => str_is (i_user o1) "joe" && str_is (i_pass o1) "" && str_is (i_kg o1) "ab" && (i_kglen o1 =? 2) && (i_work o1 =? 66))) = true.
Proof.
  split; [|split].
  - split; [repeat constructor; cbn; intuition discriminate|]. do 3 (constructor; [split; [reflexivity|split; [discriminate|split; [discriminate|eexists _, _; split; [reflexivity|vm_compute; split; discriminate]]]]|]). constructor.
  - intros v N. apply numeral_subject in N. destruct N as (g & m & X & ->). vm_compute in X. injection X as <- <-. vm_compute. split; discriminate.
  - vm_compute. reflexivity.
Qed.
Print Assumptions C75_ipmi_range.
Print Assumptions C75_ipmi_option.
Print Assumptions C75_ipmi_positional.
Print Assumptions C75_ipmi_init.
Print Assumptions C75_ipmi_fields.
Print Assumptions C75_truncated_refuted.
Print Assumptions C75_log_options.
Print Assumptions C75_log_rejected.
