(** Proofs about single IPMI options. *)
From Coq Require Import String.
From Verif Require Import Base BaseProof Chars Fmt Mem StrModel StrSpec StrProof OptModel OptSpec OptProof OptProof2 OptProof3.
Local Open Scope Z_scope.

Lemma one_token p : forall cur, ~ In COMMA p -> rev cur ++ p <> [] -> tokens is_comma cur p = [rev cur ++ p].
Proof.
  induction p as [|c p IH]; intros cur N NE; cbn [tokens].
  - rewrite app_nil_r in *. destruct cur; [now elim NE|reflexivity].
  - unfold is_comma at 1. destruct (Z.eqb_spec c COMMA) as [->|D]; [elim N; now left|].
    rewrite IH; [cbn [rev]; now rewrite <- app_assoc|intros I; apply N; now right|].
    cbn [rev]. rewrite <- app_assoc. intros X. apply app_eq_nil in X. destruct X as [_ X]. discriminate X.
Qed.
Lemma one_option L o c p : c <> COMMA -> ~ In COMMA p -> (length p + 2 < MAX_LINE)%nat ->
  parse_ipmi_opts L o (c :: COLON :: p) = process_ipmi_opt L o (c :: COLON :: p).
Proof.
  intros NC NP LN. unfold parse_ipmi_opts. cbn [length]. destruct (Nat.leb_spec MAX_LINE (S (S (length p)))); [lia|].
  cbn [nth]. rewrite Z.eqb_refl. unfold strtok_all. rewrite one_token; cbn [rev app]; [|intros [X|[X|X]]; [auto|discriminate X|auto]|discriminate].
  cbn [ipmi_loop]. destruct (process_ipmi_opt L o (c :: COLON :: p)) as [[o1|]|]; reflexivity.
Qed.
Lemma same_lower p s : lower (zs s) = zs s -> same p s = true <-> lower p = zs s.
Proof. intros H. unfold same. rewrite Z.eqb_eq, strcasecmp_lower, H. reflexivity. Qed.
Lemma to_int_id v : int_range v -> to_int v = v.
Proof.
  unfold int_range, to_int. change INT_MAX with 2147483647. intros H. cbv zeta. destruct (Z.ltb_spec v 0).
  - replace (v mod 4294967296) with (v + 4294967296) by (rewrite <- (Z.mod_add v 1), Z.mod_small by lia; lia).
    destruct (Z.ltb_spec 2147483647 (v + 4294967296)); lia.
  - rewrite Z.mod_small by lia. destruct (Z.ltb_spec 2147483647 v); lia.
Qed.

Lemma numeral_first s v : numeral s v -> exists c t, s = c :: t /\ (c <= 57 \/ c < 65).
Proof.
  intros (sp & body & m & SP & MG & X).
  assert (B : exists c t, body = c :: t /\ (c <= 57 \/ c < 65)).
  { destruct MG as [(x & ds & -> & _)|[(ds & -> & _)|(d & ds & -> & D & _)]]; eexists _, _; (split; [reflexivity|]); lia. }
  destruct sp as [|c sp].
  - cbn [app] in X. destruct X as [[-> _]|[[-> _]|[-> _]]]; [exact B| |]; eexists _, _; (split; [reflexivity|]); unfold PLUS, MINUS; lia.
  - inversion SP as [|? ? S1 _]; subst. destruct X as [[-> _]|[[-> _]|[-> _]]]; eexists _, _; (split; [reflexivity|]); unfold space in S1; lia.
Qed.
Lemma numeral_word s v w : numeral s v -> lower s = w -> (exists c t, w = c :: t /\ 97 <= c <= 122) -> False.
Proof.
  intros N E (c & t & -> & R). destruct (numeral_first _ _ N) as (d & u & -> & D). cbn [lower map] in E. injection E as E _.
  unfold tolower in E. destruct (isupper d) eqn:Q; [|lia]. unfold isupper in Q. apply andb_true_iff in Q. destruct Q as [Q _]. apply Z.leb_le in Q. lia.
Qed.
Lemma numeral_nonempty v : ~ numeral [] v.
Proof. intros N. destruct (numeral_first _ _ N) as (c & t & X & _). discriminate. Qed.

Lemma number_cases s : s <> [] -> forall n rest er, strtol0 s = (n, rest, er) ->
  (negb (length rest =? 0)%nat || er = false /\ numeral s n) \/
  (negb (length rest =? 0)%nat || er = true /\ forall v, numeral s v -> ~ LONG_MIN <= v <= LONG_MAX).
Proof.
  intros NE n rest er E. destruct (negb (length rest =? 0)%nat || er) eqn:B; [right|left]; (split; [reflexivity|]).
  - intros v N R. assert (X : strtol0 s = (v, [], false)) by (apply strtol0_whole; left; auto). rewrite E in X. injection X as -> -> ->. discriminate.
  - apply orb_false_iff in B. destruct B as [B ->]. destruct rest; [|discriminate].
    apply strtol0_whole in E. destruct E as [[E _]|[E _]]; [exact E|contradiction].
Qed.

Lemma int_long v : int_range v -> LONG_MIN <= v <= LONG_MAX.
Proof. unfold int_range, LONG_MIN, LONG_MAX. change INT_MAX with 2147483647. lia. Qed.

Lemma privilege_says L o p : (forall v, numeral p v -> int_range v) -> privilege_option L o p (opt_privilege L o p).
Proof.
  intros SM. unfold opt_privilege, privilege_option. destruct p as [|c t]; [exists (-1); split; [left; auto|reflexivity]|]. set (p := c :: t) in *.
  assert (SS : forall s, lower (zs s) = zs s -> same p s = true -> lower p = zs s) by (intros s Q; apply same_lower; exact Q).
  assert (NS : forall s, lower (zs s) = zs s -> same p s = false -> lower p <> zs s) by (intros s Q W X; apply same_lower in X; [congruence|exact Q]).
  destruct (same p "user") eqn:E1; [exists (c_user L); split; [right; left; auto|reflexivity]|].
  destruct (same p "op" || same p "operator") eqn:E2.
  { exists (c_operator L). split; [|reflexivity]. right. right. left. split; [|reflexivity]. apply orb_true_iff in E2. destruct E2; auto. }
  destruct (same p "admin" || same p "administrator") eqn:E3.
  { exists (c_admin L). split; [|reflexivity]. do 3 right. left. split; [|reflexivity]. apply orb_true_iff in E3. destruct E3; auto. }
  apply orb_false_iff in E2. apply orb_false_iff in E3. destruct E2 as [E2 E4], E3 as [E3 E5].
  assert (REST : forall v, priv_says L p v -> numeral p v /\ v_priv L v = true).
  { intros v [[X _]|[[X _]|[[[X|X] _]|[[[X|X] _]|X]]]]; [discriminate|..|exact X]; exfalso; revert X; apply NS; auto. }
  destruct (strtol0 p) as [[n rest] er] eqn:E.
  destruct (number_cases p ltac:(discriminate) _ _ _ E) as [[B N]|[B N]]; rewrite B.
  - rewrite to_int_id by auto. destruct (v_priv L n) eqn:V.
    + exists n. split; [do 4 right; auto|reflexivity].
    + intros v Y. apply REST in Y. destruct Y as [Y1 Y2]. assert (n = v); [|congruence].
      assert (X : strtol0 p = (v, [], false)) by (apply strtol0_whole; left; split; [exact Y1|apply int_long; auto]). congruence.
  - intros v Y. apply REST in Y. destruct Y as [Y1 _]. apply (N v Y1). apply int_long; auto.
Qed.
Lemma cipher_says_ok L o p : (forall v, numeral p v -> int_range v) -> cipher_option L o p (opt_cipher L o p).
Proof.
  intros SM. unfold opt_cipher, cipher_option. destruct p as [|c t]; [exists (-1); split; [left; auto|reflexivity]|]. set (p := c :: t) in *.
  assert (REST : forall v, cipher_says L p v -> numeral p v /\ v_cipher L v = true).
  { intros v [[X _]|X]; [discriminate|exact X]. }
  destruct (strtol0 p) as [[n rest] er] eqn:E.
  destruct (number_cases p ltac:(discriminate) _ _ _ E) as [[B N]|[B N]]; rewrite B.
  - rewrite to_int_id by auto. destruct (v_cipher L n) eqn:V.
    + exists n. split; [right; auto|reflexivity].
    + intros v Y. apply REST in Y. destruct Y as [Y1 Y2]. assert (n = v); [|congruence].
      assert (X : strtol0 p = (v, [], false)) by (apply strtol0_whole; left; split; [exact Y1|apply int_long; auto]). congruence.
  - intros v Y. apply REST in Y. destruct Y as [Y1 _]. apply (N v Y1). apply int_long; auto.
Qed.

Lemma subject_nonneg s neg m : subject s = Some (neg, m, []) -> 0 <= m.
Proof.
  intros E. destruct (take_sign (skip_space s)) as [neg' s2] eqn:T. assert (neg' = neg).
  { rewrite (subject_base s neg' s2 T) in E. destruct (base_of s2) as [b [|c r]]; [discriminate|].
    destruct (is_dig b c); [|discriminate]. destruct (take_digits b 0 (c :: r)). injection E; auto. }
  subst neg'. apply (subject_whole s neg s2 m T) in E. exact (magnitude_nonneg _ _ E).
Qed.
Lemma strtoul0_whole s : s <> [] -> (forall v, numeral s v -> 0 <= v < 4294967296) -> forall n rest er, strtoul0 s = (n, rest, er) ->
  (negb (length rest =? 0)%nat || er = false /\ numeral s n) \/
  (negb (length rest =? 0)%nat || er = true /\ forall v, ~ numeral s v).
Proof.
  intros NE SM n rest er E. unfold strtoul0 in E. destruct (subject s) as [[[neg m] r]|] eqn:SB.
  - assert (NM : r = [] -> numeral s (if neg then - m else m)) by (intros ->; apply numeral_subject; eauto).
    destruct r as [|x r].
    + specialize (NM eq_refl). pose proof (SM _ NM) as R. assert (M : 0 <= m /\ m < 4294967296 /\ (if neg then - m else m) = m).
      { pose proof (subject_nonneg _ _ _ SB). destruct neg; lia. }
      destruct M as (M1 & M2 & M3). destruct (Z.ltb_spec ULONG_MAX m); [unfold ULONG_MAX in *; lia|]. injection E as <- <- <-. left. split; [reflexivity|].
      rewrite M3 in *. rewrite Z.mod_small by (unfold ULONG_MAX; lia). exact NM.
    + right. assert (RE : exists y z, rest = y :: z) by (destruct (ULONG_MAX <? m); injection E as <- <- <-; eauto).
      destruct RE as (y & z & ->). split; [reflexivity|]. intros v N. apply numeral_subject in N. destruct N as (? & ? & X & _). congruence.
  - injection E as <- <- <-. right. split; [destruct s; [contradiction|reflexivity]|]. intros v N. apply numeral_subject in N.
    destruct N as (? & ? & X & _). congruence.
Qed.
Lemma find_flag_ok fs p : NoDup (map fst fs) -> Forall (fun x : list Z * Z => lower (fst x) = fst x) fs ->
  forall f, find_flag fs p = Some f <-> In (lower p, f) fs.
Proof.
  induction fs as [|[n g] fs IH]; intros ND FL f; cbn [find_flag]; [split; [discriminate|intros []]|].
  cbn [map fst] in ND. inversion ND as [|? ? ND1 ND2]; subst. inversion FL as [|? ? F1 F2]; subst. cbn [fst] in F1.
  destruct (Z.eqb_spec (strcasecmp p n) 0) as [E|E].
  - apply strcasecmp_lower in E. rewrite F1 in E. split.
    + intros X; injection X as <-. left. now rewrite E.
    + intros [X|X]; [congruence|]. elim ND1. rewrite <- E. apply in_map_iff. exists (lower p, f). auto.
  - rewrite IH by assumption. split; [now right|]. intros [X|X]; [|exact X]. elim E. apply strcasecmp_lower. injection X as X _. congruence.
Qed.
Lemma to_uint_id v : 0 <= v < 4294967296 -> to_uint v = v.
Proof. intros. unfold to_uint. now apply Z.mod_small. Qed.
Lemma work_says_ok L o p : flags_ok L -> (forall v, numeral p v -> 0 <= v < 4294967296) -> work_option L o p (opt_workaround L o p).
Proof.
  intros [ND FL] SM. unfold opt_workaround.
  assert (FL1 : Forall (fun x : list Z * Z => lower (fst x) = fst x) (c_flags L)) by (eapply Forall_impl; [|exact FL]; intros x X; apply X).
  set (flag := if _ || _ then _ else _).
  assert (FS : match flag with Some f => work_says L p f | None => forall f, ~ work_says L p f end).
  { unfold flag. destruct p as [|c t]; [left; auto|]. set (p := c :: t) in *. change (length p =? 0)%nat with false. cbn [orb].
    destruct (same p "default") eqn:E1; [left; split; [right; apply same_lower in E1; [exact E1|reflexivity]|reflexivity]|].
    destruct (find_flag (c_flags L) p) as [f|] eqn:FF; [right; left; apply find_flag_ok in FF; auto|].
    destruct (same p "none") eqn:E2; [do 2 right; left; split; [apply same_lower in E2; [exact E2|reflexivity]|reflexivity]|].
    assert (REST : forall v, work_says L p v -> numeral p v /\ v_work L v = true).
    { intros v [[[X|X] _]|[X|[[X _]|X]]]; [discriminate| | | |exact X]; exfalso.
      - apply same_lower in X; [congruence|reflexivity].
      - apply find_flag_ok in X; auto. congruence.
      - apply same_lower in X; [congruence|reflexivity]. }
    destruct (strtoul0 p) as [[n rest] er] eqn:E.
    destruct (strtoul0_whole p ltac:(discriminate) SM _ _ _ E) as [[B N]|[B N]]; rewrite B.
    - rewrite to_uint_id by auto. destruct (v_work L n) eqn:V; [do 3 right; auto|]. intros v Y. apply REST in Y. destruct Y as [Y1 Y2].
      assert (n = v); [|congruence]. apply numeral_subject in N. apply numeral_subject in Y1. destruct N as (g1 & m1 & X1 & ->), Y1 as (g2 & m2 & X2 & ->). rewrite X1 in X2. now injection X2 as <- <-.
    - intros v Y. apply REST in Y. destruct Y as [Y1 _]. exact (N v Y1). }
  destruct flag as [f|]; [|exact FS]. unfold work_option. destruct ((f =? 0) || (f =? c_default L) || (i_work o =? c_default L)) eqn:B; exists f; (split; [exact FS|]); rewrite B; reflexivity.
Qed.

Lemma no_nul (p : list Z) : chars_ok p -> ~ In NUL p.
Proof. intros C I. eapply Forall_forall in C; [|exact I]. unfold char_ok, NUL in C. lia. Qed.
Lemma put_first a : (0 < length a)%nat -> exists b, put a 0 NUL = Ok (NUL :: b) /\ length (NUL :: b) = length a.
Proof. destruct a as [|c a]; cbn [length]; [lia|]. intros _. exists a. split; [exact (put_at [] c NUL a)|reflexivity]. Qed.
Lemma user_says L o p : chars_ok p -> (0 < length (i_user o))%nat -> exists r, opt_username L o p = Ok r /\ user_option L o p r.
Proof.
  intros C P. unfold opt_username. destruct p as [|c t].
  - destruct (put_first (i_user o) P) as (b & E & LB). rewrite E. cbn [bind]. eexists. split; [reflexivity|]. cbn [user_option length]. split; [exact P|].
    split; [auto|]. exists (NUL :: b). split; [exists b; reflexivity|]. split; [exact LB|reflexivity].
  - pose proof (strlcpy_ok [] (i_user o) [] (cstr (c :: t)) (c :: t) (length (i_user o))) as S. cbn [app length] in S. rewrite !app_nil_r in S.
    rewrite S; auto; [|split; auto; exists []; reflexivity]. clear S. cbn [bind]. change (S (length t)) with (length (c :: t)).
    destruct (Nat.leb_spec (length (i_user o)) (length (c :: t))); [eexists; split; [reflexivity|left; lia]|].
    destruct (copied_spec (i_user o) (c :: t) ltac:(lia)) as (junk & E & LE). rewrite firstn_all2 in E by lia. rewrite E in *.
    rewrite arr_string_ok by (apply no_nul; exact C). cbn [bind]. destruct (v_user L (c :: t)) eqn:V.
    + eexists; split; [reflexivity|]. split; [lia|]. split; [auto|]. exists ((c :: t) ++ NUL :: junk). split; [exists junk; reflexivity|]. split; [exact LE|reflexivity].
    + eexists; split; [reflexivity|]. right. split; [discriminate|exact V].
Qed.
Lemma key_empty : key [] [].
Proof. right. split; [|reflexivity]. intros (x & ds & X & _). discriminate. Qed.
Lemma key_stored a p : chars_ok p -> (0 < length a)%nat -> exists k b n, key p k /\ parse_key a p (length a) = Ok (b, n) /\
  ((length a <= length k)%nat /\ n = -1 \/ (length k < length a)%nat /\ n = Z.of_nat (length k) /\ length b = length a /\ exists junk, b = k ++ NUL :: junk).
Proof.
  intros C P. destruct (key_exists p) as (k & K). destruct (parse_key_ok a [] p k C K P) as (junk & LJ & E). rewrite !app_nil_r in E.
  exists k. eexists _, _. split; [exact K|]. split; [exact E|]. destruct (Nat.ltb_spec (length k) (length a)); [right|left; auto].
  split; [assumption|]. split; [reflexivity|]. split; [exact LJ|]. exists junk. rewrite Nat.min_l by lia. rewrite firstn_all2 by lia. reflexivity.
Qed.
Lemma password_says L o p : chars_ok p -> (0 < length (i_pass o))%nat -> exists r, opt_password L o p = Ok r /\ password_option L o p r.
Proof.
  intros C P. unfold opt_password. destruct p as [|c t].
  - destruct (put_first (i_pass o) P) as (b & E & LB). rewrite E. cbn [bind]. eexists. split; [reflexivity|]. exists []. split; [exact key_empty|]. cbn [length].
    split; [exact P|]. split; [auto|]. exists (NUL :: b). split; [exists b; reflexivity|]. split; [exact LB|reflexivity].
  - destruct (key_stored (i_pass o) (c :: t) C P) as (k & b & n & K & E & R). rewrite E. cbn [bind].
    destruct R as [[R ->]|(R & -> & LB & junk & ->)].
    + cbn [Z.ltb Z.compare]. eexists; split; [reflexivity|]. exists k. auto.
    + destruct (Z.ltb_spec (Z.of_nat (length k)) 0); [lia|].
      destruct (first_nul (k ++ [NUL]) ltac:(apply in_or_app; right; left; reflexivity)) as (s & u & ES & NS).
      assert (EA : k ++ NUL :: junk = s ++ NUL :: (u ++ junk)).
      { replace (k ++ NUL :: junk) with ((k ++ [NUL]) ++ junk) by (rewrite <- app_assoc; reflexivity). rewrite ES, <- app_assoc. reflexivity. }
      assert (AS : arr_string (k ++ NUL :: junk) = Ok s) by (rewrite EA; apply arr_string_ok; exact NS). rewrite AS. cbn [bind]. destruct (v_pass L s) eqn:V; (eexists; split; [reflexivity|]); exists k; (split; [exact K|]).
      * split; [exact R|]. split; [right; eauto|]. exists (k ++ NUL :: junk). split; [exists junk; reflexivity|]. split; [exact LB|reflexivity].
      * right. eauto.
Qed.
Lemma kg_says L o p : chars_ok p -> (0 < length (i_kg o))%nat -> exists r, opt_k_g L o p = Ok r /\ kg_option L o p r.
Proof.
  intros C P. unfold opt_k_g. destruct p as [|c t].
  - destruct (put_first (i_kg o) P) as (b & E & LB). rewrite E. cbn [bind]. eexists. split; [reflexivity|]. exists []. split; [exact key_empty|]. cbn [length].
    split; [exact P|]. split; [auto|]. exists (NUL :: b). split; [exists b; reflexivity|]. split; [exact LB|reflexivity].
  - destruct (key_stored (i_kg o) (c :: t) C P) as (k & b & n & K & E & R). rewrite E. cbn [bind].
    destruct R as [[R ->]|(R & -> & LB & junk & ->)].
    + cbn [Z.ltb Z.compare]. eexists; split; [reflexivity|]. exists k. auto.
    + destruct (Z.ltb_spec (Z.of_nat (length k)) 0); [lia|]. rewrite Nat2Z.id.
      assert (FN : firstn (length k) (k ++ NUL :: junk) = k) by (rewrite firstn_app, Nat.sub_diag, firstn_O, app_nil_r; apply firstn_all).
      rewrite FN. destruct (v_kg L k) eqn:V; (eexists; split; [reflexivity|]); exists k; (split; [exact K|]).
      * split; [exact R|]. split; [auto|]. exists (k ++ NUL :: junk). split; [exists junk; reflexivity|]. split; [exact LB|reflexivity].
      * auto.
Qed.

Lemma upper_in c (a b : Z) : 65 <= a <= 90 -> b = a + 32 -> (toupper c =? a) = true <-> In c [a; b].
Proof.
  intros A ->. unfold toupper, islower. destruct ((97 <=? c) && (c <=? 122)) eqn:B.
  - apply andb_true_iff in B. destruct B as [B1 B2]. apply Z.leb_le in B1. apply Z.leb_le in B2. rewrite Z.eqb_eq. cbn [In]. lia.
  - assert (~ (97 <= c <= 122)). { intros [X Y]. apply Z.leb_le in X. apply Z.leb_le in Y. rewrite X, Y in B. discriminate. }
    rewrite Z.eqb_eq. cbn [In]. lia.
Qed.
Lemma ipmi_option_ok L o c p : flags_ok L -> chars_ok p -> (0 < length (i_user o))%nat -> (0 < length (i_pass o))%nat -> (0 < length (i_kg o))%nat ->
  (forall v, numeral p v -> 0 <= v <= INT_MAX) -> exists r, process_ipmi_opt L o (c :: COLON :: p) = Ok r /\ ipmi_option L o c p r.
Proof.
  intros FO C P1 P2 P3 SM. unfold process_ipmi_opt. rewrite Z.eqb_refl. unfold ipmi_option.
  change (zs "Uu") with [85; 117]. change (zs "Pp") with [80; 112]. change (zs "Kk") with [75; 107]. change (zs "Ll") with [76; 108].
  change (zs "Cc") with [67; 99]. change (zs "Ww") with [87; 119].
  destruct (toupper c =? 85) eqn:E1; [apply (upper_in c 85 117) in E1; [|lia|lia]; destruct (user_says L o p C P1) as (r & X & Y); exists r; split; [exact X|]; left; split; assumption|].
  destruct (toupper c =? 80) eqn:E2; [apply (upper_in c 80 112) in E2; [|lia|lia]; destruct (password_says L o p C P2) as (r & X & Y); exists r; split; [exact X|]; right; left; split; assumption|].
  destruct (toupper c =? 75) eqn:E3; [apply (upper_in c 75 107) in E3; [|lia|lia]; destruct (kg_says L o p C P3) as (r & X & Y); exists r; split; [exact X|]; do 2 right; left; split; assumption|].
  assert (IR : forall v, numeral p v -> int_range v) by (intros v N; apply SM in N; unfold int_range; change INT_MAX with 2147483647 in *; lia).
  assert (UR : forall v, numeral p v -> 0 <= v < 4294967296) by (intros v N; apply SM in N; change INT_MAX with 2147483647 in *; lia).
  destruct (toupper c =? 76) eqn:E4; [apply (upper_in c 76 108) in E4; [|lia|lia]; eexists; split; [reflexivity|]; do 3 right; left; split; [exact E4|now apply privilege_says]|].
  destruct (toupper c =? 67) eqn:E5; [apply (upper_in c 67 99) in E5; [|lia|lia]; eexists; split; [reflexivity|]; do 4 right; left; split; [exact E5|now apply cipher_says_ok]|].
  destruct (toupper c =? 87) eqn:E6; [apply (upper_in c 87 119) in E6; [|lia|lia]; eexists; split; [reflexivity|]; do 5 right; left; split; [exact E6|now apply work_says_ok]|].
  eexists. split; [reflexivity|]. do 6 right. split; [|reflexivity]. change (zs "UuPpKkLlCcWw") with [85; 117; 80; 112; 75; 107; 76; 108; 67; 99; 87; 119]. intros I.
  assert (U : forall a b, 65 <= a <= 90 -> b = a + 32 -> (toupper c =? a) = false -> c <> a /\ c <> b).
  { intros a b A B F. split; intros ->; (assert (X : (toupper a =? a) = true \/ True) by auto); clear X.
    - assert (X : (toupper a =? a) = true) by (apply (upper_in a a (a + 32)); [lia|lia|now left]). congruence.
    - assert (X : (toupper b =? a) = true) by (apply (upper_in b a b); [lia|lia|right; now left]). congruence. }
  pose proof (U 85 117 ltac:(lia) ltac:(lia) E1). pose proof (U 80 112 ltac:(lia) ltac:(lia) E2). pose proof (U 75 107 ltac:(lia) ltac:(lia) E3).
  pose proof (U 76 108 ltac:(lia) ltac:(lia) E4). pose proof (U 67 99 ltac:(lia) ltac:(lia) E5). pose proof (U 87 119 ltac:(lia) ltac:(lia) E6).
  cbn [In] in I. lia.
Qed.

Lemma joined_tokens ts : Forall (fun t => t <> [] /\ ~ In COMMA t) ts -> strtok_all is_comma (joined ts) = ts.
Proof.
  intros F. unfold strtok_all. induction ts as [|t ts IH]; [reflexivity|]. inversion F as [|? ? [F1 F2] F3]; subst. destruct ts as [|u ts].
  - cbn [joined]. rewrite one_token; auto.
  - change (joined (t :: u :: ts)) with (t ++ COMMA :: joined (u :: ts)). rewrite tokens_app by reflexivity. rewrite IH by exact F3. rewrite one_token by auto. reflexivity.
Qed.
Lemma loop_w L : forall ws o, ipmi_loop L o (map (fun w => zs "W:" ++ field_text w) ws) = Ok (work_loop L o ws).
Proof.
  induction ws as [|w ws IH]; intros o; [reflexivity|]. cbn [map ipmi_loop work_loop].
  change (process_ipmi_opt L o (zs "W:" ++ field_text w)) with (Ok (opt_workaround L o (undash w))). cbn [bind].
  destruct (opt_workaround L o (undash w)); [apply IH|reflexivity].
Qed.
Lemma v1_labelled L o ts : parse_ipmi_opts_v1 L o ts = ipmi_loop L o (labelled ts).
Proof.
  destruct ts as [|u [|p [|k ws]]]; [reflexivity| | |]; cbn [labelled app ipmi_loop parse_ipmi_opts_v1];
    change (process_ipmi_opt L o (85 :: 58 :: field_text u)) with (opt_username L o (undash u)) in *.
  - change (process_ipmi_opt L o (zs "U:" ++ field_text u)) with (opt_username L o (undash u)). destruct (opt_username L o (undash u)) as [[o1|]|]; reflexivity.
  - change (process_ipmi_opt L o (zs "U:" ++ field_text u)) with (opt_username L o (undash u)). destruct (opt_username L o (undash u)) as [[o1|]|]; cbn [bind]; try reflexivity.
  - change (process_ipmi_opt L o (zs "U:" ++ field_text u)) with (opt_username L o (undash u)). destruct (opt_username L o (undash u)) as [[o1|]|]; cbn [bind]; try reflexivity.
    change (process_ipmi_opt L o1 (zs "P:" ++ field_text p)) with (opt_password L o1 (undash p)). destruct (opt_password L o1 (undash p)) as [[o2|]|]; cbn [bind]; try reflexivity.
    change (process_ipmi_opt L o2 (zs "K:" ++ field_text k)) with (opt_k_g L o2 (undash k)). destruct (opt_k_g L o2 (undash k)) as [[o3|]|]; cbn [bind]; try reflexivity.
    symmetry. apply loop_w.
Qed.
