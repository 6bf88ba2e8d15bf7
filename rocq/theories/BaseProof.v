(** Lemmas about [Base]. *)
From Verif Require Import Base.
Set Implicit Arguments.

Section Lists.
Context {A : Type}.
Implicit Types (l : list A).

Lemma skipn_skipn_add (a b : nat) l : skipn a (skipn b l) = skipn (a + b) l.
Proof.
  revert l; induction b as [|b IH]; intros l.
  - now rewrite Nat.add_0_r.
  - rewrite Nat.add_succ_r. destruct l as [|x l]; [now rewrite !skipn_nil|apply IH].
Qed.

Lemma firstn_firstn_min (a b : nat) l : firstn a (firstn b l) = firstn (Nat.min a b) l.
Proof. apply firstn_firstn. Qed.

Lemma lastn_all n l : length l <= n -> lastn n l = l.
Proof. intros H; unfold lastn. replace (length l - n) with 0 by lia. reflexivity. Qed.

Lemma lastn_length n l : length (lastn n l) = Nat.min n (length l).
Proof. unfold lastn; rewrite skipn_length; lia. Qed.

Lemma lastn_app_short n l1 l2 : length l2 <= n ->
  lastn n (l1 ++ l2) = lastn (n - length l2) l1 ++ l2.
Proof.
  intros H; unfold lastn; rewrite app_length, skipn_app.
  f_equal.
  - f_equal; lia.
  - replace (length l1 + length l2 - n - length l1) with 0 by lia. reflexivity.
Qed.

Lemma lastn_app_long n l1 l2 : n <= length l2 ->
  lastn n (l1 ++ l2) = lastn n l2.
Proof.
  intros H; unfold lastn; rewrite app_length, skipn_app.
  rewrite skipn_all2 by lia. simpl. f_equal; lia.
Qed.

Lemma lastn_lastn_app n l1 l2 :
  lastn n (lastn n l1 ++ l2) = lastn n (l1 ++ l2).
Proof.
  destruct (le_lt_dec n (length l2)) as [H|H].
  - now rewrite !lastn_app_long by lia.
  - rewrite !lastn_app_short by lia. f_equal.
    unfold lastn at 1. rewrite lastn_length. unfold lastn.
    rewrite skipn_skipn_add. f_equal; lia.
Qed.

Lemma lastn_lastn a b l : a <= b -> lastn a (lastn b l) = lastn a l.
Proof.
  intros H. unfold lastn at 1. rewrite lastn_length. unfold lastn.
  rewrite skipn_skipn_add. f_equal; lia.
Qed.

Lemma lastn_skipn a k l : a + k <= length l -> lastn a (skipn k l) = lastn a l.
Proof.
  intros H. unfold lastn. rewrite skipn_length, skipn_skipn_add. f_equal; lia.
Qed.

Lemma skipn_lastn k n l : n <= length l -> skipn k (lastn n l) = lastn (n - k) l.
Proof.
  intros H. unfold lastn. rewrite skipn_skipn_add.
  destruct (le_lt_dec k n).
  - f_equal; lia.
  - rewrite !skipn_all2 by lia. reflexivity.
Qed.

Lemma skipn_as_lastn k l : k <= length l -> skipn k l = lastn (length l - k) l.
Proof. intros H. unfold lastn. f_equal; lia. Qed.

Lemma firstn_skipn_lastn n l : firstn (length l - n) l ++ lastn n l = l.
Proof. unfold lastn. apply firstn_skipn. Qed.

Lemma get_ok l i x : nth_error l i = Some x -> get l i = Ok x.
Proof. unfold get; now intros ->. Qed.

Lemma get_lt l i : i < length l -> exists x, get l i = Ok x.
Proof.
  intros H. unfold get. destruct (nth_error l i) eqn:E; eauto.
  apply nth_error_None in E; lia.
Qed.

Lemma slice_ok l off len : off + len <= length l ->
  slice l off len = Ok (firstn len (skipn off l)).
Proof. unfold slice; intros H. destruct (Nat.leb_spec (off + len) (length l)); auto; lia. Qed.

Lemma blit_ok l off src : off + length src <= length l ->
  blit l off src = Ok (firstn off l ++ src ++ skipn (off + length src) l).
Proof.
  unfold blit; intros H.
  destruct (Nat.leb_spec (off + length src) (length l)); auto; lia.
Qed.

Lemma blit_length l off src l' : blit l off src = Ok l' -> length l' = length l.
Proof.
  unfold blit. destruct (Nat.leb_spec (off + length src) (length l)); [|discriminate].
  intros E; injection E as <-.
  rewrite !app_length, firstn_length, skipn_length; lia.
Qed.
End Lists.

Lemma bind_ok {A B} (r : res A) (f : A -> res B) b :
  bind r f = Ok b -> exists a, r = Ok a /\ f a = Ok b.
Proof. destruct r; simpl; [eauto | discriminate]. Qed.
