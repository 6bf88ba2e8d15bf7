(** Proofs about keys, IPMI options and log options. *)
From Coq Require Import String.
From Verif Require Import Base BaseProof Chars Fmt LexModel StrModel StrSpec StrProof OptModel OptSpec OptProof.
From Coq Require Import ZifyNat.
Local Open Scope Z_scope.

Lemma nibbles a b : 0 <= a < 16 -> 0 <= b < 16 -> Z.lor (Z.land (Z.shiftl a 4) 240) (Z.land b 15) = a * 16 + b.
Proof.
  intros A B.
  assert (CA : In a (map Z.of_nat (seq 0 16))) by (apply in_map_iff; exists (Z.to_nat a); split; [lia|apply in_seq; lia]).
  assert (CB : In b (map Z.of_nat (seq 0 16))) by (apply in_map_iff; exists (Z.to_nat b); split; [lia|apply in_seq; lia]).
  assert (G : forallb (fun a => forallb (fun b => Z.lor (Z.land (Z.shiftl a 4) 240) (Z.land b 15) =? a * 16 + b) (map Z.of_nat (seq 0 16)))
    (map Z.of_nat (seq 0 16)) = true) by (vm_compute; reflexivity).
  rewrite forallb_forall in G. specialize (G a CA). rewrite forallb_forall in G. specialize (G b CB). lia.
Qed.

Lemma put_at pre (o x : Z) post : put (pre ++ o :: post) (length pre) x = Ok (pre ++ x :: post).
Proof.
  unfold put. rewrite blit_ok by (rewrite app_length; cbn; lia).
  rewrite firstn_app, firstn_all, Nat.sub_diag. cbn [firstn app length]. rewrite app_nil_r.
  rewrite skipn_app, skipn_all2 by lia. replace (length pre + 1 - length pre)%nat with 1%nat by lia. reflexivity.
Qed.
Lemma get_at pre (o : Z) post : get (pre ++ o :: post) (length pre) = Ok o.
Proof. apply get_ok. rewrite nth_error_app2 by lia. rewrite Nat.sub_diag. reflexivity. Qed.

Lemma key_loop_ok k : forall ds pre old post, (length ds <= k)%nat -> Forall hex_digit ds ->
  exists m more, m = Nat.min (length (hex_bytes ds)) (length old) /\
    key_loop (pre ++ old ++ post) (length pre + length old) ds true (length pre) (length pre) =
      Ok (pre ++ firstn m (hex_bytes ds) ++ skipn m old ++ post, more, (length pre + m)%nat) /\
    (more = [] <-> (length (hex_bytes ds) <= length old)%nat).
Proof.
  induction k as [|k IH]; intros ds pre old post L F.
  - destruct ds; [|cbn in L; lia]. exists 0%nat, []. cbn [hex_bytes length Nat.min firstn skipn app key_loop]. rewrite Nat.add_0_r.
    split; [reflexivity|]. split; [reflexivity|]. split; [lia|auto].
  - destruct ds as [|d1 ds].
    { exists 0%nat, []. cbn [hex_bytes length Nat.min firstn skipn app key_loop]. rewrite Nat.add_0_r.
      split; [reflexivity|]. split; [reflexivity|]. split; [lia|auto]. }
    destruct old as [|o old].
    { exists 0%nat, (d1 :: ds). rewrite Nat.min_0_r. split; [reflexivity|]. cbn [key_loop length]. rewrite !Nat.add_0_r.
      rewrite Nat.ltb_irrefl. cbn [firstn skipn app]. split; [reflexivity|].
      destruct ds; cbn [hex_bytes length]; split; try discriminate; lia. }
    assert (LT : (length pre <? length pre + length (o :: old))%nat = true) by (apply Nat.ltb_lt; cbn [length]; lia).
    pose proof (Forall_inv F) as D1. pose proof (Forall_inv_tail F) as F1.
    pose proof (hexv_range d1 D1) as R1.
    cbn [key_loop]. rewrite LT. cbn [app]. rewrite put_at. cbn [bind]. rewrite (toint_hexv d1 D1).
    destruct ds as [|d2 ds].
    { exists 1%nat, []. cbn [hex_bytes length key_loop]. split; [lia|].
      split; [|split; [lia|auto]]. cbn [firstn skipn app].
      pose proof (nibbles (hexv d1) 0 R1 ltac:(lia)) as N. rewrite Z.land_0_l, Z.lor_0_r, Z.add_0_r in N. rewrite N.
      rewrite Nat.add_comm. reflexivity. }
    pose proof (Forall_inv F1) as D2. pose proof (Forall_inv_tail F1) as F2.
    cbn [key_loop]. rewrite LT. rewrite get_at. cbn [bind]. rewrite put_at. cbn [bind]. rewrite (toint_hexv d2 D2), (nibbles _ _ R1 (hexv_range d2 D2)).
    destruct (IH ds (pre ++ [hexv d1 * 16 + hexv d2]) old post) as (m & more & M & E & X); [cbn [length] in L; lia|auto|].
    rewrite app_length in E. cbn [length] in E. rewrite <- app_assoc in E. cbn [app] in E.
    exists (S m), more. cbn [hex_bytes length]. split; [lia|].
    replace (length pre + S (length old))%nat with (length pre + 1 + length old)%nat by lia.
    replace (S (length pre)) with (length pre + 1)%nat by lia.
    rewrite E. cbn [firstn skipn app]. rewrite <- app_assoc. cbn [app].
    split; [replace (length pre + 1 + m)%nat with (length pre + S m)%nat by lia; reflexivity|]. rewrite X. lia.
Qed.

Lemma all_hex_ok ds : all_hex ds = true <-> Forall hex_digit ds.
Proof.
  unfold all_hex. rewrite forallb_forall, Forall_forall.
  assert (G : forall c, existsb (Z.eqb c) hexdigits = true <-> hex_digit c).
  { intros c. unfold hexdigits. change (zs _) with [48;49;50;51;52;53;54;55;56;57;65;66;67;68;69;70;97;98;99;100;101;102].
    cbn [existsb]. unfold hex_digit. lia. }
  split; intros H c I; apply G, H, I.
Qed.

Lemma copied_spec old s : (0 < length old)%nat ->
  exists junk, copied old s = firstn (length old - 1) s ++ NUL :: junk /\ length (copied old s) = length old.
Proof. intros P. eexists. split; [reflexivity|]. apply copied_length. auto. Qed.

Lemma parse_key_ok old post src k : chars_ok src -> key src k -> (0 < length old)%nat ->
  let m := Nat.min (length k) (length old - 1) in
  exists junk, length (firstn m k ++ NUL :: junk) = length old /\
  parse_key (old ++ post) src (length old) =
    Ok ((firstn m k ++ NUL :: junk) ++ post, if (length k <? length old)%nat then Z.of_nat (length k) else -1).
Proof.
  intros C K P m. unfold parse_key. destruct (Nat.eqb_spec (length old) 0); [lia|].
  assert (TXT : k = src -> exists junk, length (firstn m k ++ NUL :: junk) = length old /\
    (do r <- strlcpy (old ++ post) 0 (cstr src) (length old);
     Ok (fst r, if (length old <=? snd r)%nat then -1 else Z.of_nat (snd r))) =
    Ok ((firstn m k ++ NUL :: junk) ++ post, if (length k <? length old)%nat then Z.of_nat (length k) else -1)).
  { intros ->. pose proof (strlcpy_ok [] old post (cstr src) src (length old)) as S. cbn [app length] in S.
    rewrite S; auto; [|split; auto; exists []; reflexivity]. cbn [bind fst snd].
    destruct (copied_spec old src P) as (junk & E & L). exists junk.
    assert (FM : firstn (length old - 1) src = firstn m src).
    { unfold m. destruct (Nat.le_gt_cases (length src) (length old - 1)).
      - rewrite Nat.min_l by lia. rewrite !firstn_all2 by lia. reflexivity.
      - rewrite Nat.min_r by lia. reflexivity. }
    rewrite FM in E. rewrite <- E. split; auto. f_equal. f_equal.
    destruct (Nat.leb_spec (length old) (length src)), (Nat.ltb_spec (length src) (length old)); lia. }
  destruct K as [(x & ds & -> & X & F & ->)|[N ->]].
  - change (48 =? 48) with true. assert ((x =? 120) || (x =? 88) = true) as -> by (destruct X as [-> | ->]; reflexivity).
    rewrite (proj2 (all_hex_ok ds) F). cbn [andb].
    destruct (exists_last (l := old)) as (o1 & ol & EO); [destruct old; cbn in *; [lia|discriminate]|].
    rewrite EO in *. rewrite app_length in *. cbn [length] in *.
    destruct (key_loop_ok (length ds) ds [] o1 ([ol] ++ post) ltac:(lia) F) as (mm & more & MM & E & ME).
    cbn [app length Nat.add] in E. rewrite <- app_assoc. replace (length o1 + 1 - 1)%nat with (length o1) in * by lia.
    change ([ol] ++ post) with (ol :: post). rewrite E. cbn [bind]. assert (MEQ : m = Nat.min (length (hex_bytes ds)) (length o1)) by (unfold m; rewrite EO, app_length; cbn [length]; lia).
    rewrite <- MEQ in MM. clearbody m. subst mm.
    assert (LF : length (firstn m (hex_bytes ds)) = m) by (rewrite firstn_length; lia).
    destruct (skipn m o1 ++ [ol]) as [|z zs'] eqn:SK; [destruct (skipn m o1); discriminate|].
    assert (SL : length (skipn m o1 ++ [ol]) = S (length zs')) by (rewrite SK; reflexivity).
    rewrite app_length, skipn_length in SL. cbn [length] in SL.
    replace (firstn m (hex_bytes ds) ++ skipn m o1 ++ ol :: post) with (firstn m (hex_bytes ds) ++ (z :: zs' ++ post)).
    2:{ f_equal. change (ol :: post) with ([ol] ++ post). rewrite app_assoc, SK. reflexivity. }
    pose proof (put_at (firstn m (hex_bytes ds)) z NUL (zs' ++ post)) as PUT. rewrite LF in PUT. rewrite PUT. cbn [bind].
    exists zs'. rewrite app_length, LF. cbn [length]. split; [lia|].
    rewrite <- app_assoc. cbn [app].
    destruct more as [|c more].
    + assert (length (hex_bytes ds) <= length o1)%nat by (apply ME; reflexivity).
      assert (m = length (hex_bytes ds)) by (lia).
      destruct (Nat.ltb_spec m (length o1 + 1)); [|lia]. cbn [assert_ bind].
      destruct (Nat.ltb_spec (length (hex_bytes ds)) (length o1 + 1)); [|lia]. replace m with (length (hex_bytes ds)) by lia. reflexivity.
    + destruct (Nat.ltb_spec (length (hex_bytes ds)) (length o1 + 1)); [|reflexivity].
      assert (c :: more = []) by (apply ME; lia). discriminate.
  - destruct src as [|z [|x ds]]; try (apply TXT; reflexivity).
    destruct ((z =? 48) && ((x =? 120) || (x =? 88)) && all_hex ds) eqn:Q; [|apply TXT; reflexivity].
    exfalso. apply N. apply andb_true_iff in Q. destruct Q as [Q H]. apply all_hex_ok in H.
    exists x, ds. assert (z = 48) as -> by lia. split; auto. split; [lia|auto].
Qed.

(** ** IPMI options *)

Lemma find_nul_gen s : forall n sp junk, ~ In NUL s -> (length s < n)%nat ->
  find_nul n (sp ++ s ++ NUL :: junk) (length sp) = Ok (length sp + length s)%nat.
Proof.
  induction s as [|c s IH]; intros n sp junk N L.
  - destruct n; [cbn in L; lia|]. cbn [app find_nul]. rewrite get_at. cbn [bind]. rewrite Z.eqb_refl. cbn [length]. f_equal. lia.
  - destruct n; [cbn in L; lia|]. cbn [app find_nul]. rewrite get_at. cbn [bind].
    destruct (Z.eqb_spec c NUL) as [->|]; [exfalso; apply N; left; reflexivity|].
    specialize (IH n (sp ++ [c]) junk ltac:(intros I; apply N; right; auto) ltac:(cbn in L; lia)).
    rewrite app_length in IH. cbn [length] in IH. rewrite <- app_assoc in IH. cbn [app] in IH.
    replace (S (length sp)) with (length sp + 1)%nat by lia. rewrite IH. f_equal. cbn [length]. lia.
Qed.

Lemma first_nul (a : list Z) : In NUL a -> exists s junk, a = s ++ NUL :: junk /\ ~ In NUL s.
Proof.
  induction a as [|c a IH]; intros I; [destruct I|]. destruct (Z.eq_dec c NUL) as [->|N].
  - exists [], a. auto.
  - destruct I as [->|I]; [congruence|]. destruct (IH I) as (s & junk & -> & NS). exists (c :: s), junk. split; auto.
    intros [->|X]; [congruence|auto].
Qed.

Lemma arr_string_ok s junk : ~ In NUL s -> arr_string (s ++ NUL :: junk) = Ok s.
Proof.
  intros N. unfold arr_string, strlen.
  pose proof (find_nul_gen s (S (length (s ++ NUL :: junk))) [] junk N) as F. cbn [app length Nat.add] in F.
  rewrite F by (rewrite app_length; cbn; lia). cbn [bind]. rewrite firstn_app, firstn_all, Nat.sub_diag. cbn [firstn]. rewrite app_nil_r. reflexivity.
Qed.

Lemma key_exists src : exists k, key src k.
Proof.
  destruct src as [|z [|x ds]]; try (exists []; right; split; [intros (? & ? & E & _); discriminate|reflexivity]).
  - exists [z]. right. split; [intros (? & ? & E & _); discriminate|reflexivity].
  - destruct ((z =? 48) && ((x =? 120) || (x =? 88)) && all_hex ds) eqn:Q.
    + apply andb_true_iff in Q. destruct Q as [Q H]. apply all_hex_ok in H.
      exists (hex_bytes ds). left. exists x, ds. assert (z = 48) as -> by lia. repeat split; auto; lia.
    + exists (z :: x :: ds). right. split; auto. intros (x' & ds' & E & X & F). injection E; intros; subst.
      rewrite (proj2 (all_hex_ok ds') F) in Q. destruct X as [-> | ->]; discriminate.
Qed.

Section IPMI.
Variables (L : lib) (su sp sk : nat).
Hypotheses (PU : (0 < su)%nat) (PP : (0 < sp)%nat) (PK : (0 < sk)%nat).

Definition good (r : res (option ipmiopt)) : Prop :=
  exists x, r = Ok x /\ forall o, x = Some o -> ipmi_ok L su sp sk o.

Ltac fin := first [assumption | reflexivity].

Lemma put_nul a : (0 < length a)%nat -> exists b, put a 0 NUL = Ok (NUL :: b) /\ length (NUL :: b) = length a.
Proof. destruct a as [|c a]; cbn [length]; [lia|]. intros _. exists a. split; [exact (put_at [] c NUL a)|reflexivity]. Qed.

Lemma username_good o str : chars_ok str -> ipmi_ok L su sp sk o -> good (opt_username L o str).
Proof.
  intros C (L1 & L2 & L3 & B1 & B2 & R & K & P & CI). unfold opt_username, good.
  assert (U : forall a, length a = su -> bounded a (fun s => s = [] \/ v_user L s = true) -> ipmi_ok L su sp sk (set_user o a)).
  { intros a LA BA. unfold ipmi_ok, set_user; cbn [i_user i_pass i_kg i_kglen i_priv i_cipher].
    repeat (match goal with |- _ /\ _ => split end); auto; lia. }
  destruct str as [|c t].
  - destruct (put_nul (i_user o) ltac:(lia)) as (b & E & LB). rewrite E. cbn [bind]. eexists. split; [reflexivity|].
    intros o1 X; injection X; intros <-. apply U; [lia|]. exists [], b. cbn [In]. auto.
  - pose proof (strlcpy_ok [] (i_user o) [] (cstr (c :: t)) (c :: t) (length (i_user o))) as S. cbn [app length] in S. rewrite !app_nil_r in S.
    rewrite S; auto; [|split; auto; exists []; reflexivity|lia]. clear S. cbn [bind]. change (S (length t)) with (length (c :: t)).
    destruct (Nat.leb_spec (length (i_user o)) (length (c :: t))); [eexists; split; [reflexivity|discriminate]|].
    destruct (copied_spec (i_user o) (c :: t) ltac:(lia)) as (junk & E & LE). rewrite firstn_all2 in E by lia. rewrite E in *.
    assert (NN : ~ In NUL (c :: t)) by (intros I; eapply Forall_forall in C; [|exact I]; unfold char_ok, NUL in C; lia).
    rewrite arr_string_ok by auto. cbn [bind]. destruct (v_user L (c :: t)) eqn:V; [|eexists; split; [reflexivity|discriminate]].
    eexists; split; [reflexivity|]. intros o1 X; injection X; intros <-. apply U; [exact (eq_trans LE L1)|]. exists (c :: t), junk. auto.
Qed.

Lemma key_result a str : chars_ok str -> (0 < length a)%nat ->
  exists b n, parse_key a str (length a) = Ok (b, n) /\ length b = length a /\ In NUL b /\ n < Z.of_nat (length a).
Proof.
  intros C P. destruct (key_exists str) as (k & K).
  destruct (parse_key_ok a [] str k C K P) as (junk & LJ & E). rewrite !app_nil_r in E.
  eexists _, _. split; [exact E|]. split; [lia|]. split; [apply in_or_app; right; left; reflexivity|].
  destruct (Nat.ltb_spec (length k) (length a)); lia.
Qed.

Lemma password_good o str : chars_ok str -> ipmi_ok L su sp sk o -> good (opt_password L o str).
Proof.
  intros C (L1 & L2 & L3 & B1 & B2 & R & K & P & CI). unfold opt_password, good.
  assert (U : forall a, length a = sp -> bounded a (fun s => s = [] \/ v_pass L s = true) -> ipmi_ok L su sp sk (set_pass o a)).
  { intros a LA BA. unfold ipmi_ok, set_pass; cbn [i_user i_pass i_kg i_kglen i_priv i_cipher].
    repeat (match goal with |- _ /\ _ => split end); auto; lia. }
  destruct str as [|c t].
  - destruct (put_nul (i_pass o) ltac:(lia)) as (b & E & LB). rewrite E. cbn [bind]. eexists. split; [reflexivity|].
    intros o1 X; injection X; intros <-. apply U; [lia|]. exists [], b. cbn [In]. auto.
  - destruct (key_result (i_pass o) (c :: t) C ltac:(lia)) as (b & n & E & LB & IB & _). rewrite E. cbn [bind].
    destruct (n <? 0); [eexists; split; [reflexivity|discriminate]|].
    destruct (first_nul b IB) as (s & junk & -> & NS). rewrite arr_string_ok by auto. cbn [bind].
    destruct (v_pass L s) eqn:V; [|eexists; split; [reflexivity|discriminate]].
    eexists; split; [reflexivity|]. intros o1 X; injection X; intros <-. apply U; [lia|]. exists s, junk. auto.
Qed.

Lemma k_g_good o str : chars_ok str -> ipmi_ok L su sp sk o -> good (opt_k_g L o str).
Proof.
  intros C (L1 & L2 & L3 & B1 & B2 & R & K & P & CI). unfold opt_k_g, good.
  assert (U : forall a n, length a = sk -> 0 <= n < Z.of_nat sk -> (n = 0 \/ v_kg L (firstn (Z.to_nat n) a) = true) -> ipmi_ok L su sp sk (set_kg o a n)).
  { intros a n LA BA KA. unfold ipmi_ok, set_kg; cbn [i_user i_pass i_kg i_kglen i_priv i_cipher].
    repeat (match goal with |- _ /\ _ => split end); auto; lia. }
  destruct str as [|c t].
  - destruct (put_nul (i_kg o) ltac:(lia)) as (b & E & LB). rewrite E. cbn [bind]. eexists. split; [reflexivity|].
    intros o1 X; injection X; intros <-. apply U; [lia|lia|auto].
  - destruct (key_result (i_kg o) (c :: t) C ltac:(lia)) as (b & n & E & LB & IB & RN). rewrite E. cbn [bind].
    destruct (Z.ltb_spec n 0); [eexists; split; [reflexivity|discriminate]|].
    destruct (v_kg L (firstn (Z.to_nat n) b)) eqn:V; [|eexists; split; [reflexivity|discriminate]].
    eexists; split; [reflexivity|]. intros o1 X; injection X; intros <-. apply U; [lia|lia|auto].
Qed.

Lemma priv_ok o v : ipmi_ok L su sp sk o -> In v [-1; c_user L; c_operator L; c_admin L] \/ v_priv L v = true ->
  ipmi_ok L su sp sk (set_priv o v).
Proof. intros (L1 & L2 & L3 & B1 & B2 & R & K & P & CI) V. unfold ipmi_ok, set_priv; cbn [i_user i_pass i_kg i_kglen i_priv i_cipher].
  repeat (match goal with |- _ /\ _ => split end); auto; lia. Qed.
Lemma cipher_ok o v : ipmi_ok L su sp sk o -> v = -1 \/ v_cipher L v = true -> ipmi_ok L su sp sk (set_cipher o v).
Proof. intros (L1 & L2 & L3 & B1 & B2 & R & K & P & CI) V. unfold ipmi_ok, set_cipher; cbn [i_user i_pass i_kg i_kglen i_priv i_cipher].
  repeat (match goal with |- _ /\ _ => split end); auto; lia. Qed.
Lemma work_ok o v : ipmi_ok L su sp sk o -> ipmi_ok L su sp sk (set_work o v).
Proof. intros (L1 & L2 & L3 & B1 & B2 & R & K & P & CI). unfold ipmi_ok, set_work; cbn [i_user i_pass i_kg i_kglen i_priv i_cipher].
  repeat (match goal with |- _ /\ _ => split end); auto; lia. Qed.

Lemma privilege_good o str o' : ipmi_ok L su sp sk o -> opt_privilege L o str = Some o' -> ipmi_ok L su sp sk o'.
Proof.
  intros I E. unfold opt_privilege in E. destruct str as [|c t]; [injection E; intros <-; apply priv_ok; cbn; auto|].
  destruct (same (c :: t) "user"); [injection E; intros <-; apply priv_ok; cbn; auto|].
  destruct (same (c :: t) "op" || _); [injection E; intros <-; apply priv_ok; cbn; auto|].
  destruct (same (c :: t) "admin" || _); [injection E; intros <-; apply priv_ok; cbn; auto 6|].
  destruct (strtol0 (c :: t)) as [[n rest] er]. destruct (_ || er); [discriminate|].
  destruct (v_priv L (to_int n)) eqn:V; [|discriminate]. apply (f_equal (fun x => match x with Some y => y | None => o end)) in E. rewrite <- E. apply priv_ok; auto.
Qed.
Lemma cipher_good o str o' : ipmi_ok L su sp sk o -> opt_cipher L o str = Some o' -> ipmi_ok L su sp sk o'.
Proof.
  intros I E. unfold opt_cipher in E. destruct str as [|c t]; [injection E; intros <-; apply cipher_ok; auto|].
  destruct (strtol0 (c :: t)) as [[n rest] er]. destruct (_ || er); [discriminate|].
  destruct (v_cipher L (to_int n)) eqn:V; [|discriminate]. apply (f_equal (fun x => match x with Some y => y | None => o end)) in E. rewrite <- E. apply cipher_ok; auto.
Qed.
Lemma workaround_good o str o' : ipmi_ok L su sp sk o -> opt_workaround L o str = Some o' -> ipmi_ok L su sp sk o'.
Proof.
  intros I E. unfold opt_workaround in E.
  match type of E with match ?X with _ => _ end = _ => destruct X as [f|]; [|discriminate] end.
  destruct (_ || _); apply (f_equal (fun x => match x with Some y => y | None => o end)) in E; rewrite <- E; apply work_ok; auto.
Qed.

Lemma process_ipmi_good o str : chars_ok str -> ipmi_ok L su sp sk o -> good (process_ipmi_opt L o str).
Proof.
  intros C I. unfold process_ipmi_opt.
  assert (N : good (Ok None)) by (eexists; split; [reflexivity|discriminate]).
  destruct str as [|c [|k p]]; auto. destruct (k =? COLON); auto.
  assert (CP : chars_ok p) by (inversion C; subst; inversion H2; auto).
  repeat (match goal with |- good (if ?b then _ else _) => destruct b end); auto using username_good, password_good, k_g_good;
    (eexists; split; [reflexivity|]); intros; eauto using privilege_good, cipher_good, workaround_good.
Qed.

Lemma ipmi_loop_good ts : forall o, Forall chars_ok ts -> ipmi_ok L su sp sk o -> good (ipmi_loop L o ts).
Proof.
  induction ts as [|t ts IH]; intros o F I; cbn [ipmi_loop].
  - eexists; split; [reflexivity|]. intros ? X; injection X; intros <-; auto.
  - inversion F; subst. destruct (process_ipmi_good o t ltac:(auto) I) as (x & E & G). rewrite E. cbn [bind].
    destruct x as [o1|]; [apply IH; auto|]. eexists; split; [reflexivity|discriminate].
Qed.

Lemma work_loop_good ts : forall o o', ipmi_ok L su sp sk o -> work_loop L o ts = Some o' -> ipmi_ok L su sp sk o'.
Proof.
  induction ts as [|t ts IH]; intros o o' I E; cbn [work_loop] in E; [injection E; intros <-; auto|].
  destruct (opt_workaround L o (undash t)) as [o1|] eqn:W; [|discriminate]. eapply IH; [|exact E]. eapply workaround_good; eauto.
Qed.

Lemma undash_ok t : chars_ok t -> chars_ok (undash t).
Proof. unfold undash. intros. destruct (list_eqb t [MINUS]); [constructor|auto]. Qed.

Lemma v1_good ts o : Forall chars_ok ts -> ipmi_ok L su sp sk o -> good (parse_ipmi_opts_v1 L o ts).
Proof.
  intros F I. unfold parse_ipmi_opts_v1.
  assert (D : forall o, ipmi_ok L su sp sk o -> good (Ok (Some o))) by (intros; eexists; split; [reflexivity|]; intros ? X; injection X; intros <-; auto).
  assert (N : good (Ok None)) by (eexists; split; [reflexivity|discriminate]).
  destruct ts as [|t1 ts]; auto. inversion F as [|? ? C1 F1]; subst.
  destruct (username_good o (undash t1) (undash_ok _ C1) I) as (x & E & G). rewrite E. cbn [bind].
  destruct x as [o1|]; auto. specialize (G o1 eq_refl). destruct ts as [|t2 ts]; auto. inversion F1 as [|? ? C2 F2]; subst.
  destruct (password_good o1 (undash t2) (undash_ok _ C2) G) as (x & E2 & G2). rewrite E2. cbn [bind].
  destruct x as [o2|]; auto. specialize (G2 o2 eq_refl). destruct ts as [|t3 ts]; auto. inversion F2 as [|? ? C3 F3]; subst.
  destruct (k_g_good o2 (undash t3) (undash_ok _ C3) G2) as (x & E3 & G3). rewrite E3. cbn [bind].
  destruct x as [o3|]; auto. eexists; split; [reflexivity|]. intros o4 W; eapply work_loop_good; [apply G3; reflexivity|exact W].
Qed.

Lemma tokens_chars sep s : forall cur, chars_ok cur -> chars_ok s -> Forall chars_ok (tokens sep cur s).
Proof.
  induction s as [|c t IH]; intros cur F C; cbn [tokens].
  - destruct cur; constructor; auto. apply Forall_rev; auto.
  - inversion C; subst. destruct (sep c).
    + destruct cur; [|constructor; [apply Forall_rev; auto|]]; apply IH; auto; constructor.
    + apply IH; auto. constructor; auto.
Qed.

Lemma parse_ipmi_good o str : chars_ok str -> ipmi_ok L su sp sk o -> good (parse_ipmi_opts L o str).
Proof.
  intros C I. unfold parse_ipmi_opts. destruct (MAX_LINE <=? length str)%nat; [eexists; split; [reflexivity|discriminate]|].
  assert (T : Forall chars_ok (strtok_all is_comma str)) by (apply tokens_chars; auto; constructor).
  destruct str as [|c t]; [apply ipmi_loop_good; auto|]. destruct (nth 1 (c :: t) NUL =? COLON); auto using ipmi_loop_good, v1_good.
Qed.

Lemma init_ok : ipmi_ok L su sp sk (init_ipmi_opts L su sp sk).
Proof.
  unfold ipmi_ok, init_ipmi_opts; cbn [i_user i_pass i_kg i_kglen i_priv i_cipher]. rewrite !repeat_length.
  assert (B : forall n (ok : list Z -> Prop), (0 < n)%nat -> ok [] -> bounded (repeat 0 n) ok).
  { intros n ok P O. destruct n; [lia|]. exists [], (repeat 0 n). split; [reflexivity|]. split; auto. }
  repeat (match goal with |- _ /\ _ => split end); auto; try lia; left; cbn; auto.
Qed.
End IPMI.

Lemma ipmi_loop_app L a : forall o b, ipmi_loop L o (a ++ b) =
  do r <- ipmi_loop L o a; match r with None => Ok None | Some o' => ipmi_loop L o' b end.
Proof.
  induction a as [|t a IH]; intros o b; cbn [app ipmi_loop bind]; [reflexivity|].
  destruct (process_ipmi_opt L o t) as [[o1|]|]; cbn [bind]; auto.
Qed.

(** ** Log options *)

Lemma strcasecmp_lower a : forall b, strcasecmp a b = 0 <-> lower a = lower b.
Proof.
  induction a as [|x a IH]; intros [|y b]; cbn [strcasecmp lower map]; try (split; [lia|discriminate]); try tauto.
  destruct (Z.eqb_spec (tolower x) (tolower y)) as [E|E].
  - rewrite IH. unfold lower. rewrite E. split; [congruence|intros X; injection X; auto].
  - split; [lia|]. intros X; injection X; intros; congruence.
Qed.

Lemma setting_snoc on off ts t d b : setting on off ts d b -> zs on <> zs off ->
  setting on off (ts ++ [t]) d (if list_eq_dec Z.eq_dec (lower t) (zs on) then true else if list_eq_dec Z.eq_dec (lower t) (zs off) then false else b).
Proof.
  intros S N. destruct (list_eq_dec Z.eq_dec (lower t) (zs on)) as [E|NE].
  { left. exists ts, t, []. auto. }
  destruct (list_eq_dec Z.eq_dec (lower t) (zs off)) as [E|NE2].
  { left. exists ts, t, []. auto. }
  destruct S as [(ts1 & u & ts2 & -> & C & F)|[F ->]].
  - left. exists ts1, u, (ts2 ++ [t]). rewrite <- app_assoc. split; auto. split; auto. apply Forall_app. auto.
  - right. split; auto. apply Forall_app. auto.
Qed.

Lemma same_lower t w : lower (zs w) = zs w -> same t w = if list_eq_dec Z.eq_dec (lower t) (zs w) then true else false.
Proof.
  intros W. unfold same. destruct (list_eq_dec Z.eq_dec (lower t) (zs w)) as [E|E].
  - apply Z.eqb_eq, strcasecmp_lower. congruence.
  - apply Z.eqb_neq. intros X. apply strcasecmp_lower in X. congruence.
Qed.

Lemma log_opts_ok o : forall ts, let o' := fold_left process_log_opt ts o in
  setting "lock" "nolock" ts (g_lock o) (g_lock o') /\
  setting "sanitize" "nosanitize" ts (g_sanitize o) (g_sanitize o') /\
  setting "timestamp" "notimestamp" ts (g_timestamp o) (g_timestamp o').
Proof.
  intros ts. induction ts as [|t ts IH] using rev_ind.
  - cbv zeta. cbn [fold_left]. split; [|split]; right; auto.
  - cbv zeta in *. rewrite fold_left_app. cbn [fold_left].
    set (o1 := fold_left process_log_opt ts o) in *. destruct IH as (S1 & S2 & S3).
    apply (setting_snoc _ _ _ t) in S1; [|discriminate]. apply (setting_snoc _ _ _ t) in S2; [|discriminate]. apply (setting_snoc _ _ _ t) in S3; [|discriminate].
    unfold process_log_opt. rewrite !same_lower by reflexivity.
    repeat match goal with
    | H : context [list_eq_dec ?d ?a ?b] |- _ => destruct (list_eq_dec d a b) as [?|?]
    | |- context [list_eq_dec ?d ?a ?b] => destruct (list_eq_dec d a b) as [?|?]
    end; try congruence; cbn [g_lock g_sanitize g_timestamp];
    try match goal with A : lower t = ?a, B : lower t = ?b |- _ => rewrite A in B; discriminate end; auto.
Qed.

Lemma log_sep_ok c : log_sep c = true <-> log_separator c.
Proof.
  unfold log_sep, log_separator. change (zs " .,;") with [32; 46; 44; 59]. cbn [existsb In]. unfold SPACE, TAB, LF, DOT, COMMA. lia.
Qed.

Lemma opt_password_nonempty L o str : str <> [] -> opt_password L o str =
  do r <- parse_key (i_pass o) str (length (i_pass o));
  let '(a, n) := r in
  if n <? 0 then Ok None
  else do s <- arr_string a; if v_pass L s then Ok (Some (set_pass o a)) else Ok None.
Proof. destruct str; [congruence|reflexivity]. Qed.
