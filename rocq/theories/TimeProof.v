(** Proofs about times as texts. *)
From Coq Require Import String.
From Verif Require Import Base BaseProof Chars Fmt LexModel LexSpec LexProof TimeModel TimeSpec.
Local Open Scope Z_scope.

Lemma fmt2 n : 10 <= n <= 99 -> fmt_d n = two n.
Proof.
  intros H. assert (X : forallb (fun n => list_eqb (fmt_d n) (two n)) (map Z.of_nat (seq 10 90)) = true) by (vm_compute; reflexivity).
  rewrite forallb_forall in X. specialize (X n). apply list_eqb_eq. apply X. apply in_map_iff. exists (Z.to_nat n). split; [lia|]. apply in_seq. lia.
Qed.
Lemma fmt1 n : 0 <= n <= 9 -> fmt_d n = [48 + n].
Proof.
  intros H. assert (X : forallb (fun n => list_eqb (fmt_d n) [48 + n]) (map Z.of_nat (seq 0 10)) = true) by (vm_compute; reflexivity).
  rewrite forallb_forall in X. specialize (X n). apply list_eqb_eq. apply X. apply in_map_iff. exists (Z.to_nat n). split; [lia|]. apply in_seq. lia.
Qed.
Lemma fmt4 n : 1000 <= n <= 9999 -> fmt_d n = four n.
Proof.
  intros H. assert (X : forallb (fun n => list_eqb (fmt_d n) (four n)) (map (fun i => 1000 + Z.of_nat i) (seq 0 (90 * 100))) = true) by (vm_compute; reflexivity).
  rewrite forallb_forall in X. specialize (X n). apply list_eqb_eq. apply X. apply in_map_iff. exists (Z.to_nat (n - 1000)). split; [lia|]. apply in_seq. lia.
Qed.
Lemma d02_two n : 0 <= n <= 99 -> d02 n = two n.
Proof.
  intros H. unfold d02. destruct (Z.ltb_spec n 10); [|now apply fmt2]. rewrite fmt1 by lia. unfold two. rewrite Z.div_small, Z.mod_small by lia. reflexivity.
Qed.

Definition tm_two (x : tm) : Prop := 0 <= t_mon x <= 99 /\ 0 <= t_mday x <= 99 /\ 0 <= t_hour x <= 99 /\ 0 <= t_min x <= 99 /\ 0 <= t_sec x <= 99.
Lemma ok_two x : tm_ok x -> tm_two x.
Proof. unfold tm_ok, tm_two. lia. Qed.
Lemma expand_date x f : tm_ok x -> expand (zs "%Y-%m-%d %H:%M:%S " ++ f) x = date_text x ++ zs " " ++ expand f x.
Proof.
  intros H. pose proof (ok_two _ H) as (T1 & T2 & T3 & T4 & T5). destruct H as (Y & _).
  change (expand (zs "%Y-%m-%d %H:%M:%S " ++ f) x) with
    (fmt_d (t_year x) ++ 45 :: d02 (t_mon x) ++ 45 :: d02 (t_mday x) ++ 32 :: d02 (t_hour x) ++ 58 :: d02 (t_min x) ++ 58 :: d02 (t_sec x) ++ 32 :: expand f x).
  rewrite fmt4, !d02_two by assumption. reflexivity.
Qed.
Lemma expand_long x : tm_ok x -> expand (zs "%Y-%m-%d %H:%M:%S %Z") x = date_text x ++ zs " " ++ t_zone x.
Proof.
  intros H. change (zs "%Y-%m-%d %H:%M:%S %Z") with (zs "%Y-%m-%d %H:%M:%S " ++ zs "%Z"). rewrite expand_date by exact H.
  change (expand (zs "%Z") x) with (t_zone x ++ []). now rewrite app_nil_r.
Qed.
Lemma expand_stamp x : tm_ok x -> stamp x = date_text x ++ zs " ".
Proof. intros H. unfold stamp. rewrite <- (app_nil_r (zs "%Y-%m-%d %H:%M:%S ")), expand_date by exact H. reflexivity. Qed.
Lemma expand_short x : tm_ok x -> expand (zs "%m-%d %H:%M") x = short_text x.
Proof.
  intros H. pose proof (ok_two _ H) as (T1 & T2 & T3 & T4 & T5).
  change (expand (zs "%m-%d %H:%M") x) with (d02 (t_mon x) ++ 45 :: d02 (t_mday x) ++ 32 :: d02 (t_hour x) ++ 58 :: d02 (t_min x) ++ []).
  rewrite !d02_two, app_nil_r by assumption. reflexivity.
Qed.
Lemma strftime_fits buf max f x junk : (length (expand f x) < max)%nat -> length buf = max ->
  exists b, strftime buf 0 max f x junk = Ok (expand f x ++ NUL :: b, length (expand f x)) /\ length (expand f x ++ NUL :: b) = max.
Proof.
  intros H L. unfold strftime. apply Nat.ltb_lt in H. rewrite H. apply Nat.ltb_lt in H. rewrite blit_ok by (rewrite app_length; cbn [length]; lia). cbn [bind firstn app].
  eexists. rewrite <- app_assoc. cbn [app]. split; [reflexivity|]. rewrite app_length. cbn [length]. rewrite skipn_length, app_length. cbn [length]. lia.
Qed.
Lemma strftime_too_long buf max f x junk : (max <= length (expand f x))%nat -> (max <= length buf)%nat ->
  exists b, strftime buf 0 max f x junk = Ok (b, 0%nat).
Proof.
  intros H L. unfold strftime. apply Nat.ltb_ge in H. rewrite H. rewrite blit_ok by (rewrite firstn_length; lia). cbn [bind]. eauto.
Qed.

(** ** Order *)
Lemma before_app a : forall s t, before s t -> before (a ++ s) (a ++ t).
Proof. induction a as [|x a IH]; intros s t H; [exact H|]. cbn [app]. apply before_later. auto. Qed.
Lemma before_irrefl s : ~ before s s.
Proof. induction s as [|x s IH]; intros H; inversion H; subst; [lia|auto]. Qed.
Lemma before_diff a b : length a = length b -> forall s t, before a b -> before (a ++ s) (b ++ t).
Proof.
  intros L s t H. revert L. induction H as [y t0|x y s0 t0 H|x s0 t0 H IH]; intros L; cbn [length app] in *; [lia|now apply before_first|apply before_later; apply IH; lia].
Qed.
Lemma before_cut a b s t : length a = length b -> before (a ++ s) (b ++ t) -> before a b \/ (a = b /\ before s t).
Proof.
  revert b. induction a as [|x a IH]; intros [|y b] L H; cbn [length] in L; try lia; cbn [app] in H; [auto|].
  inversion H as [|? ? ? ? LT|? ? ? B]; subst; [left; now apply before_first|]. destruct (IH b ltac:(lia) B) as [X|[-> X]]; [left; now apply before_later|auto].
Qed.
Lemma two_inj m n : 0 <= m <= 99 -> 0 <= n <= 99 -> two m = two n -> m = n.
Proof.
  intros A B E. assert (E1 : 48 + m / 10 = 48 + n / 10) by exact (f_equal (fun l => nth 0 l 0) E).
  assert (E2 : 48 + m mod 10 = 48 + n mod 10) by exact (f_equal (fun l => nth 1 l 0) E).
  pose proof (Z.div_mod m 10 ltac:(lia)). pose proof (Z.div_mod n 10 ltac:(lia)). lia.
Qed.
Lemma before_pair a b c d : before [a; b] [c; d] <-> a < c \/ (a = c /\ b < d).
Proof.
  split.
  - intros X. inversion X as [|? ? ? ? LT|? ? ? Y]; subst; [auto|]. inversion Y as [|? ? ? ? LT|? ? ? W]; subst; [auto|]. inversion W.
  - intros [L|[-> L]]; [now apply before_first|apply before_later; now apply before_first].
Qed.
Lemma two_before m n : 0 <= m <= 99 -> 0 <= n <= 99 -> before (two m) (two n) <-> m < n.
Proof.
  intros A B. pose proof (Z.div_mod m 10 ltac:(lia)). pose proof (Z.div_mod n 10 ltac:(lia)).
  pose proof (Z.mod_pos_bound m 10 ltac:(lia)). pose proof (Z.mod_pos_bound n 10 ltac:(lia)). unfold two. rewrite before_pair. lia.
Qed.
Lemma four_inj m n : 0 <= m <= 9999 -> 0 <= n <= 9999 -> four m = four n -> m = n.
Proof.
  unfold four. intros A B E. pose proof (Z.div_mod m 100 ltac:(lia)). pose proof (Z.div_mod n 100 ltac:(lia)).
  pose proof (Z.mod_pos_bound m 100 ltac:(lia)). pose proof (Z.mod_pos_bound n 100 ltac:(lia)).
  assert (E1 : two (m / 100) = two (n / 100)) by exact (f_equal (firstn 2) E).
  assert (E2 : two (m mod 100) = two (n mod 100)) by exact (f_equal (skipn 2) E).
  apply two_inj in E1; [|lia|lia]. apply two_inj in E2; lia.
Qed.
Lemma four_before m n : 0 <= m <= 9999 -> 0 <= n <= 9999 -> before (four m) (four n) <-> m < n.
Proof.
  intros A B. pose proof (Z.div_mod m 100 ltac:(lia)). pose proof (Z.div_mod n 100 ltac:(lia)).
  pose proof (Z.mod_pos_bound m 100 ltac:(lia)). pose proof (Z.mod_pos_bound n 100 ltac:(lia)). unfold four. split.
  - intros X. apply before_cut in X; [|reflexivity]. destruct X as [X|[E X]].
    + apply two_before in X; lia.
    + apply two_inj in E; [|lia|lia]. apply two_before in X; lia.
  - intros L. destruct (Z.eq_dec (m / 100) (n / 100)) as [E|E].
    + rewrite E. apply before_app. apply two_before; lia.
    + apply before_diff; [reflexivity|]. apply two_before; lia.
Qed.
