(** Proofs about the options and the output of test consoles, and serial options. *)
From Coq Require Import String.
From Verif Require Import Base BaseProof Chars Fmt LexModel StrModel StrSpec StrProof OptModel OptSpec OptProof.
From Coq Require Import ZifyNat.
Local Open Scope Z_scope.

Definition with_test (u : Z) (v : Z) (o : testopt) : testopt :=
  if u =? 66 then mkTest v (o_max o) (o_min o) (o_prob o)
  else if u =? 77 then mkTest (o_bytes o) v (o_min o) (o_prob o)
  else if u =? 78 then mkTest (o_bytes o) (o_max o) v (o_prob o)
  else mkTest (o_bytes o) (o_max o) (o_min o) (Z.min v 100).

Lemma in_tag c : existsb (Z.eqb c) (zs "BbMmNnPp") = true <->
  (c = 66 \/ c = 98) \/ (c = 77 \/ c = 109) \/ (c = 78 \/ c = 110) \/ (c = 80 \/ c = 112).
Proof.
  change (zs "BbMmNnPp") with [66; 98; 77; 109; 78; 110; 80; 112]. cbn [existsb]. lia.
Qed.

Lemma process_test_ok o t o' : (exists e, process_test_opt false o t = (Some o', e)) <-> test_option t o o'.
Proof.
  split.
  - intros (e & E). unfold process_test_opt in E. destruct t as [|c [|k p]]; try discriminate.
    destruct (existsb (Z.eqb c) (zs "BbMmNnPp")) eqn:TC; [|discriminate].
    destruct (existsb (Z.eqb k) (zs "BbMmNnPp")); [discriminate|]. cbn [andb negb] in E.
    destruct (Z.eqb_spec k COLON) as [->|]; [|discriminate].
    destruct (strtol0 p) as [[l rest] er] eqn:T.
    destruct (length rest =? 0)%nat eqn:LR; [|discriminate]. destruct rest; [|discriminate].
    destruct er; [discriminate|]. cbn [negb orb] in E.
    destruct (Z.ltb_spec l 0); [discriminate|]. destruct (Z.ltb_spec INT_MAX l); [discriminate|]. cbn [orb] in E.
    exists c, p, l. split; auto. apply strtol0_whole in T. split; [tauto|]. split; [lia|].
    apply in_tag in TC. destruct TC as [[-> | ->]|[[-> | ->]|[[-> | ->]|[-> | ->]]]]; injection E; intros; subst; cbn; auto 12.
  - intros (c & p & v & -> & N & R & C). unfold process_test_opt.
    assert (T : strtol0 p = (v, [], false)).
    { apply strtol0_whole. destruct N as [N|[-> ->]]; auto. left. split; auto. unfold LONG_MIN, LONG_MAX, INT_MAX in *. lia. }
    rewrite T. change (existsb (Z.eqb COLON) (zs "BbMmNnPp")) with false. rewrite Z.eqb_refl. cbn [length negb orb andb Nat.eqb].
    destruct (Z.ltb_spec v 0); [lia|]. destruct (Z.ltb_spec INT_MAX v); [lia|]. cbn [orb].
    exists false. destruct C as [[I ->]|[[I ->]|[[I ->]|[I ->]]]]; vm_compute in I; destruct I as [<-|[<-|[]]]; reflexivity.
Qed.

Lemma process_test_err o t o' e : process_test_opt false o t = (Some o', e) -> e = false.
Proof.
  intros E. unfold process_test_opt in E. destruct t as [|c [|k p]]; try discriminate.
  destruct (_ && (k =? COLON)); [|discriminate]. destruct (strtol0 p) as [[l rest] er].
  destruct er; [rewrite orb_true_r in E; discriminate|]. destruct (_ || _); [discriminate|]. injection E; auto.
Qed.

Lemma test_loop_ok ts : forall o o', fst (test_loop false o ts) = Some o' <-> test_options ts o o'.
Proof.
  induction ts as [|t ts IH]; intros o o'; cbn [test_loop].
  - cbn [fst]. split; [intros E; injection E; intros ->; constructor|intros X; inversion X; auto].
  - destruct (process_test_opt false o t) as [[o1|] e] eqn:P.
    + pose proof (process_test_err _ _ _ _ P). subst e. rewrite IH. split.
      * intros X. econstructor; [|exact X]. apply process_test_ok. eauto.
      * intros X. inversion X as [|? ? ? o2 ? T R]; subst. apply process_test_ok in T. destruct T as (e & T). rewrite P in T.
        injection T; intros; subst. auto.
    + split; [discriminate|]. intros X. inversion X as [|? ? ? o2 ? T R]; subst. apply process_test_ok in T. destruct T as (e' & T). congruence.
Qed.

Lemma test_option_range t o o' : test_option t o o' -> test_ok o -> test_ok o'.
Proof.
  intros (c & p & v & -> & N & R & C) (A1 & A2 & A3 & A4). unfold test_ok.
  destruct C as [[I ->]|[[I ->]|[[I ->]|[I ->]]]]; cbn [o_bytes o_max o_min o_prob]; lia.
Qed.

Lemma test_options_range ts o o' : test_options ts o o' -> test_ok o -> test_ok o'.
Proof. induction 1; auto. intros. apply IHtest_options. eapply test_option_range; eauto. Qed.

(** ** The output *)

Lemma cyc_step k : cyc (S k) = (if cyc k =? 126 then 33 else cyc k + 1).
Proof.
  unfold cyc. rewrite Nat2Z.inj_succ. unfold Z.succ. set (z := Z.of_nat k) in *.
  pose proof (Z.mod_pos_bound z 94 ltac:(lia)) as B. pose proof (Z.div_mod z 94 ltac:(lia)) as D.
  destruct (Z.eqb_spec (33 + z mod 94) 126) as [E|E].
  - replace (z + 1) with ((z / 94 + 1) * 94) by lia. rewrite Z.mod_mul by lia. lia.
  - replace (z + 1) with ((z mod 94 + 1) + (z / 94) * 94) by lia. rewrite Z.mod_add by lia. rewrite Z.mod_small by lia. lia.
Qed.

(** The last character stored after [k] have been emitted. *)
Definition last_of (k : nat) : Z := cyc k - 1.

Lemma last_step k : last_of (S k) = (if last_of k + 1 =? 126 then 32 else last_of k + 1).
Proof. unfold last_of. rewrite cyc_step. replace (cyc k - 1 + 1) with (cyc k) by lia. destruct (cyc k =? 126); lia. Qed.

Lemma fill_ok n : forall k, fill n (last_of k) = (map cyc (seq k n), last_of (k + n)).
Proof.
  induction n as [|n IH]; intros k; cbn [fill seq map]; [rewrite Nat.add_0_r; reflexivity|].
  rewrite <- last_step. rewrite IH. f_equal.
  - f_equal. unfold last_of. lia.
  - f_equal. lia.
Qed.

(** [b]: number of bursts begun *)
Definition dev_inv (o : testopt) (k b : nat) (d : test) : Prop :=
  d_last d = last_of k /\ 0 <= d_left d <= o_bytes o /\ Z.of_nat k + d_left d = Z.of_nat b * o_bytes o.

Definition starts (o : testopt) (d : test) (r1 : Z) : bool := (d_left d =? 0) && (r1 mod 100 <? o_prob o).

Lemma read_test_ok size o d r1 r2 k b : test_ok o -> dev_inv o k b d -> (0 < size)%nat ->
  match read_test_obj size o d r1 r2 with
  | Ok (d', out, delay) =>
      out = map cyc (seq k (length out)) /\
      dev_inv o (k + length out) (if starts o d r1 then S b else b) d' /\
      (length out <= size)%nat /\
      (if 0 <? d_left d' then delay = 0 else delay_ok o delay) /\
      (if (0 <? d_left d) || starts o d r1 then Z.of_nat (length out) = Z.min (if d_left d =? 0 then o_bytes o else d_left d) (Z.of_nat size) else out = [])
  | UB e => e = SignedOverflow /\ o_max o - o_min o + 1 > INT_MAX
  end.
Proof.
  intros (TB & TM & TN & TP) (IL & IB & IE) SZ. assert (I0 : 0 <= d_left d) by lia. unfold read_test_obj, starts.
  set (left := if d_left d =? 0 then o_bytes o else d_left d).
  set (n := Z.min left (Z.of_nat size)).
  assert (L0 : 0 <= left) by (unfold left; destruct (Z.eqb_spec (d_left d) 0); lia).
  assert (GO : (0 <? d_left d) || (r1 mod 100 <? o_prob o) = (0 <? d_left d) || ((d_left d =? 0) && (r1 mod 100 <? o_prob o))).
  { destruct (Z.ltb_spec 0 (d_left d)); [reflexivity|]. destruct (Z.eqb_spec (d_left d) 0); [reflexivity|lia]. }
  rewrite GO. clear GO.
  assert (DL : forall d1, 0 <= d_left d1 ->
    match (if 0 <? d_left d1 then Ok 0 else if o_max o <? 0 then Ok 100
           else if (o_min o <? 0) || (o_max o <=? o_min o) then Ok (o_max o)
           else let interval := o_max o - o_min o + 1 in if INT_MAX <? interval then UB SignedOverflow else Ok (o_min o + r2 mod interval)) with
    | Ok delay => if 0 <? d_left d1 then delay = 0 else delay_ok o delay
    | UB e => e = SignedOverflow /\ o_max o - o_min o + 1 > INT_MAX
    end).
  { intros d1 D1. unfold delay_ok. destruct (Z.ltb_spec 0 (d_left d1)); [reflexivity|].
    destruct (Z.ltb_spec (o_max o) 0); [reflexivity|]. destruct (Z.ltb_spec (o_min o) 0); cbn [orb].
    - lia.
    - destruct (Z.leb_spec (o_max o) (o_min o)); [lia|]. cbv zeta. destruct (Z.ltb_spec INT_MAX (o_max o - o_min o + 1)); [split; [reflexivity|lia]|].
      pose proof (Z.mod_pos_bound r2 (o_max o - o_min o + 1) ltac:(lia)). lia. }
  destruct ((0 <? d_left d) || (d_left d =? 0) && (r1 mod 100 <? o_prob o)) eqn:G.
  - rewrite IL, fill_ok. set (d1 := mkDev (left - n) (last_of (k + Z.to_nat n))).
    assert (D1 : 0 <= d_left d1) by (unfold d1; cbn [d_left]; unfold n; lia).
    specialize (DL d1 D1). match type of DL with match ?X with _ => _ end => destruct X as [delay|e] end; cbn [bind]; [|exact DL].
    rewrite map_length, seq_length. split; [reflexivity|]. split; [|split; [unfold n; lia|]; split; [exact DL|unfold n; lia]].
    unfold dev_inv, d1; cbn [d_left d_last]. split; [reflexivity|]. split; [unfold n, left; destruct (d_left d =? 0); lia|].
    unfold left in *. destruct (Z.eqb_spec (d_left d) 0) as [E|E]; cbn [andb].
    + destruct (Z.ltb_spec 0 (d_left d)); [lia|]. cbn [orb andb] in G. rewrite G. lia.
    + lia.
  - assert (E : d_left d = 0 /\ (d_left d =? 0) && (r1 mod 100 <? o_prob o) = false).
    { destruct (Z.ltb_spec 0 (d_left d)); [discriminate|]. split; [lia|exact G]. }
    destruct E as [E E2]. specialize (DL d I0).
    match type of DL with match ?X with _ => _ end => destruct X as [delay|e] end; cbn [bind]; [|exact DL].
    rewrite E2. cbn [length seq map]. rewrite Nat.add_0_r. split; [reflexivity|]. split; [split; [|split]; auto|].
    split; [lia|]. split; [exact DL|reflexivity].
Qed.

Lemma new_test_inv o : test_ok o -> dev_inv o 0 0 new_test.
Proof. intros (B & _). unfold dev_inv, new_test, last_of; cbn [d_left d_last]. split; [reflexivity|]. lia. Qed.

Lemma map_cyc_app k a b : map cyc (seq k (length (map cyc (seq k a) ++ map cyc (seq (k + a) b)))) =
  map cyc (seq k a) ++ map cyc (seq (k + a) b).
Proof. rewrite app_length, !map_length, !seq_length, seq_app, map_app. reflexivity. Qed.

Lemma test_run_ok size o rs : test_ok o -> o_max o - o_min o < INT_MAX -> (0 < size)%nat ->
  forall d k b, dev_inv o k b d ->
  exists d' os b', test_run size o d rs = Ok (d', os) /\
    emitted os = map cyc (seq k (length (emitted os))) /\
    dev_inv o (k + length (emitted os)) b' d' /\
    (forall os1 x, os = os1 ++ [x] -> if 0 <? d_left d' then snd x = 0 else delay_ok o (snd x)) /\
    Forall (fun x => (length (fst x) <= size)%nat) os /\
    (o_prob o = 0 -> d_left d = 0 -> emitted os = []) /\
    (o_prob o = 100 -> 0 < o_bytes o -> Forall (fun x => fst x <> []) os).
Proof.
  intros T M SZ. induction rs as [|[r1 r2] rs IH]; intros d k b I.
  - exists d, [], b. cbn [test_run emitted map concat length seq]. rewrite Nat.add_0_r.
    split; auto. split; auto. split; auto. split; [intros os1 x E; destruct os1; discriminate|]. auto.
  - cbn [test_run]. pose proof (read_test_ok size o d r1 r2 k b T I SZ) as R.
    destruct (read_test_obj size o d r1 r2) as [[[d1 out] delay]|e]; [|destruct R; lia]. cbn [bind].
    destruct R as (RO & RI & RS & RD & RN).
    destruct (IH d1 _ _ RI) as (d' & os & b' & E & EO & EI & ED & ES & E0 & E100). rewrite E. cbn [bind fst snd].
    exists d', ((out, delay) :: os), b'. split; auto.
    assert (EM : emitted ((out, delay) :: os) = out ++ emitted os) by reflexivity. rewrite EM.
    split; [rewrite EO at 1; rewrite RO at 1; rewrite app_length, seq_app, map_app; reflexivity|].
    split; [rewrite app_length, Nat.add_assoc; exact EI|].
    split.
    { intros os1 x X. destruct os1 as [|y os1]; cbn [app] in X.
      - injection X; intros X1 X2; subst. cbn [test_run] in E.
        assert (d' = d1). { destruct rs as [|[q1 q2] rs]; [cbn [test_run] in E; injection E; auto|].
          cbn [test_run] in E. destruct (read_test_obj size o d1 q1 q2) as [[[? ?] ?]|]; [|discriminate]. cbn [bind] in E.
          destruct (test_run size o t rs); [|discriminate]. cbn [bind] in E. discriminate. }
        subst. exact RD.
      - injection X; intros X1 X2; subst. apply (ED os1). reflexivity. }
    split; [constructor; auto|]. unfold starts in *. split.
    + intros P L. rewrite L, P in RN. cbn [Z.ltb Z.compare Z.eqb andb orb] in RN.
      assert (NS : (r1 mod 100 <? 0) = false) by (pose proof (Z.mod_pos_bound r1 100 ltac:(lia)); lia).
      rewrite NS in RN. subst out. cbn [app]. apply E0; auto.
      destruct RI as (_ & _ & RI2). destruct I as (_ & _ & I2). rewrite L, P, NS in RI2. cbn [andb Z.eqb length] in RI2. lia.
    + intros P B. constructor; [|auto]. cbn [fst]. intros ->. rewrite P in RN.
      assert (NS : (r1 mod 100 <? 100) = true) by (pose proof (Z.mod_pos_bound r1 100 ltac:(lia)); lia).
      rewrite NS, andb_true_r in RN. cbn [length] in RN. destruct I as (_ & I1 & _).
      destruct (Z.eqb_spec (d_left d) 0); [rewrite orb_true_r in RN; lia|].
      destruct (Z.ltb_spec 0 (d_left d)); cbn [orb] in RN; lia.
Qed.

(** ** Serial options *)

Lemma int_to_bps_table val : (int_to_bps 0 bps_table val = 0 /\ val < 50) \/ best_speed val (int_to_bps 0 bps_table val).
Proof.
  unfold bps_table. cbn [int_to_bps].
  repeat match goal with
  | |- context [if ?a <=? val then _ else _] => destruct (Z.leb_spec a val)
  end; try (left; split; [reflexivity|lia]);
  right; (split; [unfold supported; cbn [In]; tauto|split; [lia|]]); unfold supported; cbn [In]; intros w W; lia.
Qed.

Lemma parity_ok c p : parity_of c = Some p <-> parity c p.
Proof.
  unfold parity_of, parity. change (zs "Nn") with [78; 110]. change (zs "Oo") with [79; 111]. change (zs "Ee") with [69; 101]. cbn [In].
  destruct (Z.eqb_spec c 78), (Z.eqb_spec c 110), (Z.eqb_spec c 79), (Z.eqb_spec c 111), (Z.eqb_spec c 69), (Z.eqb_spec c 101); cbn [orb];
    (split; [intros E; injection E; intros; subst; lia || discriminate|intros E; try (f_equal; lia); lia]) || (split; [discriminate|lia]).
Qed.

Lemma parity_range c p : parity c p -> 0 <= p <= 2.
Proof. unfold parity. lia. Qed.

Lemma some_inj {A} (x y : A) : Some x = Some y -> x = y.
Proof. congruence. Qed.

Lemma serial_range wrap o str o' : parse_serial_opts wrap o str = Some o' -> serial_ok o -> serial_ok o'.
Proof.
  unfold parse_serial_opts. destruct str as [|c0 t]; [discriminate|].
  set (vals := sscanf_ser wrap (c0 :: t)). intros E (O1 & O2 & O3 & O4).
  set (n := length vals) in *. pose proof (int_to_bps_table (nth 0 vals 0)) as BT.
  remember (int_to_bps 0 bps_table (nth 0 vals 0)) as bp eqn:EB. clear EB.
  destruct ((1 <=? n)%nat && _) eqn:G1; [discriminate|].
  destruct ((2 <=? n)%nat && _) eqn:G2; [discriminate|].
  destruct (if (3 <=? n)%nat then _ else _) as [p|] eqn:G3; [|discriminate].
  destruct ((4 <=? n)%nat && _) eqn:G4; [discriminate|]. apply some_inj in E. rewrite <- E. unfold serial_ok.
  cbn [s_bps s_databits s_parity s_stopbits]. split; [|split; [|split]].
  - destruct (1 <=? n)%nat; [|auto]. cbn [andb] in G1.
    destruct BT as [[Z0 _]|B]; [rewrite Z0 in G1; discriminate|apply B].
  - destruct (2 <=? n)%nat; [|auto]. cbn [andb] in G2. lia.
  - destruct (3 <=? n)%nat; [|injection G3; intros; subst; auto]. apply parity_ok in G3. apply parity_range in G3. auto.
  - destruct (4 <=? n)%nat; [|auto]. cbn [andb] in G4. lia.
Qed.

Lemma num_take ds rest : Forall (fun c => isdigit c = true) ds ->
  match rest with c :: _ => isdigit c = false | [] => True end ->
  forall acc, take_digits 10 acc (ds ++ rest) = (num acc ds, rest).
Proof.
  intros F R. induction ds as [|d ds IH]; intros acc; cbn [app num].
  - destruct rest as [|c r]; [reflexivity|]. cbn [take_digits].
    assert (is_dig 10 c = false) as ->; [|reflexivity].
    destruct (is_dig 10 c) eqn:Q; [|reflexivity]. apply digit_dec in Q. unfold isdigit, dec_digit in *. lia.
  - inversion F; subst. rewrite H1. cbn [take_digits].
    assert (is_dig 10 d = true) as -> by (apply digit_dec; unfold isdigit, dec_digit in *; lia).
    unfold dval. rewrite H1. apply IH; auto.
Qed.

Lemma scan_d_fmt wrap n rest : 0 <= n <= INT_MAX -> match rest with c :: _ => isdigit c = false | [] => True end ->
  scan_d wrap (fmt_d n ++ rest) = Some (n, rest).
Proof.
  intros H R. unfold fmt_d. destruct (Z.ltb_spec n 0); [lia|].
  destruct (fmt_u_ok n ltac:(lia)) as (F & V & N). unfold scan_d.
  pose proof (num_take (fmt_u n) rest F R 0) as T. rewrite V in T.
  destruct (fmt_u n) as [|c t]; [congruence|]. cbn [app] in *. pose proof (Forall_inv F) as D. cbv beta in D.
  rewrite skip_space_digit by exact D. cbn [take_sign].
  assert (DC : 48 <= c <= 57) by (unfold isdigit in D; lia). unfold MINUS, PLUS.
  destruct (Z.eqb_spec c 45); [lia|]. destruct (Z.eqb_spec c 43); [lia|]. rewrite D, T.
  destruct (Z.leb_spec INT_MIN n); [|unfold INT_MIN in *; lia]. destruct (Z.leb_spec n INT_MAX); [|lia]. reflexivity.
Qed.

Lemma sscanf_fmt wrap b d p s : 0 <= b <= INT_MAX -> 0 <= d <= INT_MAX -> 0 <= s <= INT_MAX -> isdigit p = false ->
  sscanf_ser wrap (fmt_d b) = [b] /\
  sscanf_ser wrap (fmt_d b ++ COMMA :: fmt_d d) = [b; d] /\
  sscanf_ser wrap (fmt_d b ++ COMMA :: fmt_d d ++ [p]) = [b; d; p] /\
  sscanf_ser wrap (fmt_d b ++ COMMA :: fmt_d d ++ p :: fmt_d s) = [b; d; p; s].
Proof.
  intros B D S P. unfold sscanf_ser.
  rewrite <- (app_nil_r (fmt_d b)) at 1. rewrite <- (app_nil_r (fmt_d d)) at 1.
  rewrite !(scan_d_fmt wrap b) by (auto; reflexivity). rewrite Z.eqb_refl.
  rewrite !(scan_d_fmt wrap d) by auto. cbn [scan_d skip_space take_sign].
  rewrite <- (app_nil_r (fmt_d s)). rewrite (scan_d_fmt wrap s) by auto. auto.
Qed.

Lemma fmt_d_nonempty n r : 0 <= n -> exists c t, fmt_d n ++ r = c :: t.
Proof.
  intros H. unfold fmt_d. destruct (Z.ltb_spec n 0); [lia|]. destruct (fmt_u_ok n H) as (_ & _ & N).
  destruct (fmt_u n); [congruence|]. cbn [app]. eauto.
Qed.

Definition serial_vals (opts : seropt) (vals : list Z) : option seropt :=
  let n := length vals in
  let databits := if (2 <=? n)%nat then nth 1 vals 0 else s_databits opts in
  let stopbits := if (4 <=? n)%nat then nth 3 vals 0 else s_stopbits opts in
  let obps := if (1 <=? n)%nat then int_to_bps 0 bps_table (nth 0 vals 0) else s_bps opts in
  if (1 <=? n)%nat && (obps <=? 0) then None
  else if (2 <=? n)%nat && ((databits <? 5) || (8 <? databits)) then None
  else
    match (if (3 <=? n)%nat then parity_of (nth 2 vals 0) else Some (s_parity opts)) with
    | None => None
    | Some parity =>
        if (4 <=? n)%nat && ((stopbits <? 1) || (2 <? stopbits)) then None
        else Some (mkSer obps databits parity stopbits)
    end.

Lemma serial_by_vals wrap o str : str <> [] -> parse_serial_opts wrap o str = serial_vals o (sscanf_ser wrap str).
Proof. destruct str; [congruence|reflexivity]. Qed.

Lemma best_unique b v w : best_speed b v -> best_speed b w -> v = w.
Proof. intros (S1 & L1 & M1) (S2 & L2 & M2). specialize (M1 w S2 L2). specialize (M2 v S1 L1). lia. Qed.

Lemma speed_none b v : best_speed b v -> 50 <= b.
Proof. intros (S & L & _). unfold supported in S. cbn [In] in S. lia. Qed.
Lemma speed_pos b v : best_speed b v -> 0 < v.
Proof. intros (S & L & _). unfold supported in S. cbn [In] in S. lia. Qed.

Lemma speed_cases b : exists bp, int_to_bps 0 bps_table b = bp /\
  ((bp <=? 0) = true /\ (forall v, ~ best_speed b v) \/ (bp <=? 0) = false /\ forall v, best_speed b v <-> v = bp).
Proof.
  exists (int_to_bps 0 bps_table b). split; [reflexivity|]. pose proof (int_to_bps_table b) as H.
  remember (int_to_bps 0 bps_table b) as bp eqn:E. clear E. destruct H as [[-> L]|B].
  - left. split; [reflexivity|]. intros v V. apply speed_none in V. lia.
  - right. split; [apply speed_pos in B; lia|]. intros v. split; [intros V; eapply best_unique; eauto|intros ->; auto].
Qed.

Ltac serial_case := 
  cbn [Nat.leb length nth];
  match goal with |- context [int_to_bps 0 bps_table ?b] =>
    let bp := fresh "bp" in let H := fresh "H" in
    destruct (speed_cases b) as (bp & H & [[Q NB]|[Q B]]); rewrite H, Q; cbn [andb]
  end.

Lemma serial1 o b o' : serial_vals o [b] = Some o' <->
  best_speed b (s_bps o') /\ s_databits o' = s_databits o /\ s_parity o' = s_parity o /\ s_stopbits o' = s_stopbits o.
Proof.
  unfold serial_vals. serial_case.
  - split; [discriminate|]. intros (X & _). destruct (NB _ X).
  - rewrite B. destruct o' as [a1 a2 a3 a4]; cbn [s_bps s_databits s_parity s_stopbits]. split.
    + intros E; injection E; intros; subst; auto.
    + intros (-> & -> & -> & ->). reflexivity.
Qed.
Lemma serial2 o b d o' : serial_vals o [b; d] = Some o' <->
  best_speed b (s_bps o') /\ s_databits o' = d /\ 5 <= d <= 8 /\ s_parity o' = s_parity o /\ s_stopbits o' = s_stopbits o.
Proof.
  unfold serial_vals. serial_case.
  - split; [discriminate|]. intros (X & _). destruct (NB _ X).
  - rewrite B. destruct o' as [a1 a2 a3 a4]; cbn [s_bps s_databits s_parity s_stopbits].
    destruct (Z.ltb_spec d 5), (Z.ltb_spec 8 d); cbn [orb]; split; try discriminate; try lia.
    + intros E; injection E; intros; subst. repeat split; auto.
    + intros (-> & -> & R & -> & ->). reflexivity.
Qed.
Lemma serial3 o b d p o' : serial_vals o [b; d; p] = Some o' <->
  best_speed b (s_bps o') /\ s_databits o' = d /\ 5 <= d <= 8 /\ parity p (s_parity o') /\ s_stopbits o' = s_stopbits o.
Proof.
  unfold serial_vals. serial_case.
  - split; [discriminate|]. intros (X & _). destruct (NB _ X).
  - rewrite B. destruct o' as [a1 a2 a3 a4]; cbn [s_bps s_databits s_parity s_stopbits]. rewrite <- parity_ok.
    destruct (Z.ltb_spec d 5), (Z.ltb_spec 8 d); cbn [orb]; try (split; [discriminate|lia]).
    destruct (parity_of p) as [q|]; split; try discriminate.
    + intros E; injection E; intros; subst. repeat split; auto.
    + intros (-> & -> & R & X & ->). injection X; intros ->. reflexivity.
    + intros (_ & _ & _ & X & _). discriminate.
Qed.
Lemma serial4 o b d p s o' : serial_vals o [b; d; p; s] = Some o' <->
  best_speed b (s_bps o') /\ s_databits o' = d /\ 5 <= d <= 8 /\ parity p (s_parity o') /\ s_stopbits o' = s /\ 1 <= s <= 2.
Proof.
  unfold serial_vals. serial_case.
  - split; [discriminate|]. intros (X & _). destruct (NB _ X).
  - rewrite B. destruct o' as [a1 a2 a3 a4]; cbn [s_bps s_databits s_parity s_stopbits]. rewrite <- parity_ok.
    destruct (Z.ltb_spec d 5), (Z.ltb_spec 8 d); cbn [orb]; try (split; [discriminate|lia]).
    destruct (parity_of p) as [q|].
    + destruct (Z.ltb_spec s 1), (Z.ltb_spec 2 s); cbn [orb]; try (split; [discriminate|lia]). split.
      * intros E; injection E; intros; subst. repeat split; auto.
      * intros (-> & -> & R & X & -> & _). injection X; intros ->. reflexivity.
    + split; [discriminate|]. intros (_ & _ & _ & X & _). discriminate.
Qed.
