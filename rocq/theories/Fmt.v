(** Decimal numbers: printf's %d and atoi(3). *)
From Verif Require Import Base Chars.
Local Open Scope Z_scope.

(** Digits of [n] >= 0, in front of [acc]; [k] bounds the number of steps. *)
Fixpoint digits (k : nat) (n : Z) (acc : list Z) : list Z :=
  match k with
  | O => acc
  | S k' => if n / 10 =? 0 then 48 + n mod 10 :: acc else digits k' (n / 10) (48 + n mod 10 :: acc)
  end.
Definition fmt_u (n : Z) : list Z := digits (S (Z.to_nat (Z.log2 n))) n [].
(** printf("%d", n) *)
Definition fmt_d (n : Z) : list Z := if n <? 0 then MINUS :: fmt_u (- n) else fmt_u n.

Definition INT_MAX := 2147483647.
Definition INT_MIN := -2147483648.

(** Value of the leading digits. *)
Fixpoint num (acc : Z) (s : list Z) : Z :=
  match s with
  | c :: t => if isdigit c then num (acc * 10 + (c - 48)) t else acc
  | [] => acc
  end.
Fixpoint skip_space (s : list Z) : list Z :=
  match s with c :: t => if isspace c then skip_space t else s | [] => [] end.
(** atoi(3); a value that is not representable is undefined behaviour *)
Definition atoi (s : list Z) : res Z :=
  let v := match skip_space s with
           | c :: t => if c =? MINUS then - num 0 t else if c =? PLUS then num 0 t else num 0 (c :: t)
           | [] => 0
           end in
  if (INT_MIN <=? v) && (v <=? INT_MAX) then Ok v else UB SignedOverflow.

Lemma num_app_digits a : forall acc b, Forall (fun c => isdigit c = true) a ->
  num acc (a ++ b) = num (num acc a) b.
Proof.
  induction a as [|c a IH]; intros acc b F; [reflexivity|]. inversion F; subst. cbn [app num].
  rewrite H1. apply IH. auto.
Qed.

Lemma digits_ok k : forall n acc, 0 <= n -> n < 2 ^ Z.of_nat k -> 
  exists d, digits k n acc = d ++ acc /\ Forall (fun c => isdigit c = true) d /\ num 0 d = n /\
    ((0 < k)%nat -> d <> []).
Proof.
  induction k as [|k IH]; intros n acc N L.
  - exists []. cbn in *. repeat split; auto; lia.
  - cbn [digits]. assert (0 <= n mod 10 < 10) by (apply Z.mod_pos_bound; lia).
    assert (D : isdigit (48 + n mod 10) = true) by (unfold isdigit; lia).
    destruct (Z.eqb_spec (n / 10) 0) as [E|E].
    + exists [48 + n mod 10]. split; [reflexivity|]. split; [repeat constructor; auto|]. split; [|discriminate].
      cbn [num]. rewrite D. rewrite Z.mod_eq, E by lia. lia.
    + rewrite Nat2Z.inj_succ, Z.pow_succ_r in L by lia.
      assert (0 <= n / 10) by (apply Z.div_pos; lia).
      assert (n / 10 < 2 ^ Z.of_nat k).
      { apply Z.div_lt_upper_bound; [lia|]. assert (0 < 2 ^ Z.of_nat k) by (apply Z.pow_pos_nonneg; lia). lia. }
      destruct (IH (n / 10) (48 + n mod 10 :: acc) H0 H1) as (d & E1 & F & V & NN).
      exists (d ++ [48 + n mod 10]). rewrite E1, <- app_assoc. split; [reflexivity|].
      split; [apply Forall_app; split; [auto|repeat constructor; auto]|].
      split; [|destruct d; discriminate].
      rewrite num_app_digits by auto. cbn [num]. rewrite D, V. pose proof (Z.div_mod n 10). lia.
Qed.

Lemma fmt_u_ok n : 0 <= n -> Forall (fun c => isdigit c = true) (fmt_u n) /\ num 0 (fmt_u n) = n /\ fmt_u n <> [].
Proof.
  intros H. unfold fmt_u. destruct (digits_ok (S (Z.to_nat (Z.log2 n))) n [] H) as (d & E & F & V & N).
  - rewrite Nat2Z.inj_succ. destruct (Z.eq_dec n 0) as [->|NZ]; [reflexivity|].
    rewrite Z2Nat.id by apply Z.log2_nonneg. apply Z.log2_spec. lia.
  - rewrite E, app_nil_r. auto using Nat.lt_0_succ.
Qed.

Lemma digits_len k : forall n acc j, 0 <= n < 10 ^ Z.of_nat j -> (0 < j)%nat ->
  (length (digits k n acc) <= length acc + j)%nat.
Proof.
  induction k as [|k IH]; intros n acc j R J; cbn [digits]; [lia|].
  destruct (Z.eqb_spec (n / 10) 0); [cbn; lia|].
  destruct j as [|[|j]]; [lia| |].
  - exfalso. apply n0. apply Z.div_small. change (10 ^ Z.of_nat 1) with 10 in R. lia.
  - eapply Nat.le_trans; [apply (IH _ _ (S j))|cbn; lia]; [|lia].
    rewrite Nat2Z.inj_succ, Z.pow_succ_r in R by lia.
    split; [apply Z.div_pos; lia|apply Z.div_lt_upper_bound; lia].
Qed.

Lemma fmt_u_len n j : 0 <= n < 10 ^ Z.of_nat j -> (0 < j)%nat -> (length (fmt_u n) <= j)%nat.
Proof. intros. unfold fmt_u. eapply Nat.le_trans; [apply (digits_len _ n [] j); auto|cbn; lia]. Qed.

Lemma skip_space_digit s : match s with c :: _ => isdigit c = true | [] => False end -> skip_space s = s.
Proof. destruct s as [|c t]; [tauto|]. intros H. cbn. unfold isdigit, isspace in *. destruct (_ || _) eqn:Q; [lia|reflexivity]. Qed.

Lemma atoi_fmt n : 0 <= n <= INT_MAX -> atoi (fmt_d n) = Ok n.
Proof.
  intros H. unfold fmt_d. destruct (Z.ltb_spec n 0); [lia|].
  destruct (fmt_u_ok n) as (F & V & N); [lia|]. unfold atoi. rewrite skip_space_digit.
  2:{ destruct (fmt_u n); [congruence|]. inversion F; auto. }
  destruct (fmt_u n) as [|c t]; [congruence|]. assert (D : isdigit c = true) by (inversion F; auto).
  assert ((c =? MINUS) = false /\ (c =? PLUS) = false) as [-> ->] by (unfold isdigit, MINUS, PLUS in *; lia).
  rewrite V. unfold INT_MIN, INT_MAX in *. destruct ((_ <=? n) && (n <=? _)) eqn:Q; [reflexivity|lia].
Qed.
