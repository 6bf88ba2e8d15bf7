(** Reading and writing blocks given as concatenations. *)
From Verif Require Import Base BaseProof.

Section M.
Context {A : Type}.
Implicit Types pre post mid src : list A.

Lemma get_eq pre x post i : i = length pre -> get (pre ++ x :: post) i = Ok x.
Proof. intros ->. unfold get. rewrite nth_error_app2, Nat.sub_diag; auto. Qed.

Lemma blit_eq pre mid post src i : i = length pre -> length mid = length src ->
  blit (pre ++ mid ++ post) i src = Ok (pre ++ src ++ post).
Proof.
  intros -> L. rewrite blit_ok by (rewrite !app_length; lia). f_equal.
  rewrite firstn_app, Nat.sub_diag, firstn_all. cbn [firstn]. rewrite app_nil_r. do 2 f_equal.
  rewrite skipn_app, skipn_all2 by lia. cbn [app].
  replace (length pre + length src - length pre) with (length src) by lia.
  rewrite skipn_app, skipn_all2 by lia. rewrite <- L, Nat.sub_diag. reflexivity.
Qed.

Lemma put_eq pre x post y i : i = length pre -> put (pre ++ x :: post) i y = Ok (pre ++ y :: post).
Proof. intros H. apply (blit_eq pre [x] post [y]); auto. Qed.

Lemma slice_eq pre mid post i n : i = length pre -> n = length mid -> slice (pre ++ mid ++ post) i n = Ok mid.
Proof.
  intros -> ->. rewrite slice_ok by (rewrite !app_length; lia). f_equal.
  rewrite skipn_app, skipn_all2, Nat.sub_diag by lia. cbn [app skipn].
  rewrite firstn_app, Nat.sub_diag, firstn_all. cbn [firstn]. apply app_nil_r.
Qed.

Lemma get_oob pre i : length pre <= i -> get pre i = UB OutOfBounds.
Proof. intros H. unfold get. destruct (nth_error pre i) eqn:E; auto. assert (i < length pre) by (apply nth_error_Some; congruence). lia. Qed.

Lemma split_at (l : list A) i : i < length l -> exists pre x post, l = pre ++ x :: post /\ length pre = i.
Proof.
  intros H. destruct (nth_error l i) as [x|] eqn:E; [|apply nth_error_None in E; lia].
  apply nth_error_split in E. destruct E as (p & q & -> & L). eauto.
Qed.

Lemma split_block (l : list A) i n : i + n <= length l -> exists pre mid post, l = pre ++ mid ++ post /\ length pre = i /\ length mid = n.
Proof.
  intros H. exists (firstn i l), (firstn n (skipn i l)), (skipn n (skipn i l)).
  rewrite !firstn_skipn, !firstn_length, skipn_length. repeat split; lia.
Qed.
End M.
