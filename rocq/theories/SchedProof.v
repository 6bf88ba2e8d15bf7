(** Proofs about the timestamps. *)
From Coq Require Import String.
From Verif Require Import Base BaseProof Chars Mem StrModel StrSpec StrProof MsgModel MsgSpec MsgProof SchedModel SchedSpec.
Local Open Scope Z_scope.

Lemma int_ok z : - INT_MAX - 1 <= z <= INT_MAX -> int_ z = Ok z.
Proof. intros H. unfold int_. destruct (Z.leb_spec (- INT_MAX - 1) z), (Z.leb_spec z INT_MAX); try lia. reflexivity. Qed.
Lemma local_parts l : l = l / 86400 * 86400 + l mod 86400 / 3600 * 3600 + l mod 3600 / 60 * 60 + l mod 60 /\
  0 <= l mod 86400 / 3600 < 24 /\ 0 <= l mod 3600 / 60 < 60 /\ 0 <= l mod 60 < 60.
Proof. Z.to_euclidean_division_equations. lia. Qed.
Lemma midnight_eq off t m : midnight off t m <-> m = (t + off t) / 86400 * 86400 - off t.
Proof. unfold midnight. generalize (off t). intros o. Z.to_euclidean_division_equations. lia. Qed.

(** the first time *)
Lemma first_ok off I now m : 0 < I -> I <= INT_MAX - 1440 -> 0 <= now -> midnight off now m ->
  exists k, 0 < k /\ schedule_timestamp off I 0 now = Ok (m + k * (I * 60)) /\ m + (k - 1) * (I * 60) <= now < m + k * (I * 60).
Proof.
  intros HI HM HN M. apply midnight_eq in M. unfold schedule_timestamp, get_localtime, localtime. destruct (Z.ltb_spec 0 I); [|lia].
  cbn [assert_ bind Z.eqb tm_day tm_hour tm_min tm_sec tm_off]. set (l := now + off now) in *. destruct (local_parts l) as (E & H1 & H2 & H3).
  set (h := l mod 86400 / 3600) in *. set (mi := l mod 3600 / 60) in *. set (se := l mod 60) in *. set (d := l / 86400) in *. set (o := off now) in *. clearbody h mi se d o.
  assert (IM : INT_MAX = 2147483647) by reflexivity.
  rewrite int_ok by lia. cbn [bind]. rewrite int_ok by lia. cbn [bind]. rewrite Z.quot_div_nonneg by lia.
  set (q := (h * 60 + mi) / I). assert (Q : q * I <= h * 60 + mi < (q + 1) * I /\ 0 <= q).
  { unfold q. pose proof (Z.div_mod (h * 60 + mi) I ltac:(lia)). pose proof (Z.mod_pos_bound (h * 60 + mi) I HI). pose proof (Z.div_pos (h * 60 + mi) I ltac:(lia) HI). nia. }
  clearbody q. destruct Q as [Q1 Q2]. assert (QI : q <= h * 60 + mi) by nia.
  rewrite int_ok by lia. cbn [bind]. rewrite int_ok by nia. cbn [bind tm_day tm_hour tm_min tm_sec tm_off]. unfold mktime. cbn [tm_day tm_hour tm_min tm_sec tm_off].
  exists (q + 1). split; [lia|]. subst m.
  assert (T : d * 86400 + 0 * 3600 + (q + 1) * I * 60 + 0 - o = d * 86400 - o + (q + 1) * (I * 60)) by ring. rewrite T.
  assert (W : d * 86400 - o + (q + 1 - 1) * (I * 60) <= now < d * 86400 - o + (q + 1) * (I * 60)) by (unfold l in E; nia).
  destruct (Z.eqb_spec (d * 86400 - o + (q + 1) * (I * 60)) (-1)); [lia|]. split; [reflexivity|exact W].
Qed.
(** later times *)
Lemma later_ok off I t now : 0 < I -> I <= INT_MAX - 59 -> 0 < t -> (t + off t) mod 60 = 0 -> schedule_timestamp off I t now = Ok (t + I * 60).
Proof.
  intros HI HM HT A. unfold schedule_timestamp, get_localtime, localtime. destruct (Z.ltb_spec 0 I); [|lia].
  destruct (Z.eqb_spec t 0); [lia|]. cbn [assert_ bind tm_day tm_hour tm_min tm_sec tm_off].
  set (l := t + off t) in *. destruct (local_parts l) as (E & H1 & H2 & H3). rewrite A in E.
  set (h := l mod 86400 / 3600) in *. set (mi := l mod 3600 / 60) in *. set (d := l / 86400) in *. set (o := off t) in *. clearbody h mi d o.
  assert (IM : INT_MAX = 2147483647) by reflexivity. rewrite int_ok by lia. cbn [bind]. unfold mktime. cbn [tm_day tm_hour tm_min tm_sec tm_off].
  assert (T : d * 86400 + h * 3600 + (mi + I) * 60 + 0 - o = t + I * 60) by (unfold l in E; lia). rewrite T.
  destruct (Z.eqb_spec (t + I * 60) (-1)); [lia|]. reflexivity.
Qed.

Lemma stamp_text_message c now : stamp_text c now = message c now.
Proof. reflexivity. Qed.
Lemma message_chars c now : chars_ok c -> chars_ok now -> chars_ok (message c now).
Proof.
  intros C N. rewrite <- stamp_text_message. unfold stamp_text. apply chars_app; [apply prefix_chars|]. apply chars_app; [repeat constructor; discriminate|].
  apply chars_app; [exact C|]. apply chars_app; [repeat constructor; discriminate|]. apply chars_app; [exact N|apply suffix_chars].
Qed.
Lemma stamp_ok now L : (4 <= L)%nat -> chars_ok now -> forall objs buf wrote, length buf = L -> objs_ok objs ->
  stamp_loop buf now objs wrote = Ok (wrote ++ map (fun c => (c, notice_text L (message c now))) (logs objs)).
Proof.
  intros L4 CN. induction objs as [|[c|] objs IH]; intros buf wrote LB O; cbn [stamp_loop logs flat_map map app].
  - rewrite app_nil_r. reflexivity.
  - unfold objs_ok in O. cbn [logs flat_map app] in O. inversion O as [|? ? O1 O2]; subst.
    destruct (notice_ok (length buf) buf (stamp_text c now)) as (b & B & LB2 & HO); [reflexivity|exact L4|rewrite stamp_text_message; apply message_chars; auto|].
    rewrite B. cbn [bind]. rewrite (strlen_ok _ _ HO). cbn [bind]. destruct HO as (CC & rest & ->). rewrite slice_ok by (rewrite app_length; cbn [length]; lia). cbn [skipn].
    rewrite firstn_app, Nat.sub_diag, firstn_O, app_nil_r, firstn_all. cbn [bind]. rewrite IH by auto. rewrite <- app_assoc. reflexivity.
  - apply IH; auto.
Qed.

(** a run of the timer *)
Lemma expiries_ok off I L : 0 < I -> I <= INT_MAX - 59 -> (4 <= L)%nat -> (forall t, off t mod 60 = 0) ->
  forall es t, 0 < t -> t mod 60 = 0 ->
  (forall n e, nth_error es n = Some e -> t + Z.of_nat n * (I * 60) <= e_clock e /\ length (e_buf e) = L /\ chars_ok (e_now e) /\ objs_ok (e_objs e) /\ logs (e_objs e) <> []) ->
  exists trace, expiries off I (Some t) es = Ok (trace, Some (t + Z.of_nat (length es) * (I * 60))) /\ length trace = length es /\
  forall n e, nth_error es n = Some e ->
    nth_error trace n = Some (t + Z.of_nat n * (I * 60), map (fun c => (c, notice_text L (message c (e_now e)))) (logs (e_objs e))).
Proof.
  intros HI HM L4 OFF. induction es as [|e es IH]; intros t T0 T60 H.
  - exists []. cbn [expiries length]. split; [do 3 f_equal; lia|]. split; [reflexivity|]. intros [|n] e X; discriminate X.
  - destruct (H 0%nat e eq_refl) as (C & LB & CN & O & NE). change (Z.of_nat 0 * (I * 60)) with 0 in C. cbn [expiries]. destruct (Z.ltb_spec (e_clock e) t); [lia|].
    unfold timestamp_logfiles. rewrite (stamp_ok _ L) by auto. cbn [bind app].
    destruct (logs (e_objs e)) as [|c cs] eqn:EL; [congruence|]. cbn [map]. rewrite later_ok; auto.
    2:{ rewrite Z.add_mod, T60, OFF by lia. reflexivity. }
    cbn [bind fst snd]. destruct (IH (t + I * 60)) as (trace & R & LT & TR); [nia|rewrite Z.add_mod, T60, Z.mul_mod by lia; change (60 mod 60) with 0; rewrite Z.mul_0_r; reflexivity| |].
    { intros n x X. destruct (H (S n) x X) as (C1 & X2). split; [lia|exact X2]. }
    rewrite R. cbn [bind fst snd]. eexists. split; [do 3 f_equal; cbn [length]; lia|]. split; [cbn [length]; congruence|].
    intros [|n] x X; cbn [nth_error] in X |- *.
    + injection X as <-. rewrite EL. do 2 f_equal. lia.
    + rewrite (TR n x X). do 2 f_equal. lia.
Qed.
