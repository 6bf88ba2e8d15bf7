(** Proofs about the model of tpoll. *)
From Verif Require Import Base BaseProof TpollModel TpollSpec.
From Coq Require Import Sorted.
Open Scope Z_scope.
Set Implicit Arguments.

(** ** Traces *)

Lemma cons_snoc {A} (es : list A) e l : es ++ e :: l = (es ++ [e]) ++ l.
Proof. now rewrite <- app_assoc. Qed.

Lemma pending_snoc es e : pending (es ++ [e]) = pend1 (pending es) e.
Proof. unfold pending. now rewrite fold_left_app. Qed.
Lemma clock_snoc es e : last_clock (es ++ [e]) = clock1 (last_clock es) e.
Proof. unfold last_clock. now rewrite fold_left_app. Qed.
Lemma fresh_snoc es e : fresh (es ++ [e]) = fresh1 (fresh es) e.
Proof. unfold fresh. now rewrite fold_left_app. Qed.
Lemma called_snoc es e : called (es ++ [e]) = called1 (called es) e.
Proof. unfold called. now rewrite fold_left_app. Qed.
Lemma interest_snoc es e : interest (es ++ [e]) = interest1 (interest es) e.
Proof. unfold interest. now rewrite fold_left_app. Qed.

Lemma ready_fst es f : fst (fold_left ready1 es f) = fold_left interest1 es (fst f).
Proof. revert f; induction es as [|e es IH]; intros f; cbn; auto. now rewrite IH. Qed.
Lemma ready_snoc es e fd :
  ready (es ++ [e]) fd =
  if interest1 (interest es) e fd =? 0 then 0
  else match e with
       | EPolled l => match lookup fd l with Some r => r | None => ready es fd end
       | _ => ready es fd
       end.
Proof.
  unfold ready. rewrite fold_left_app. cbn [fold_left].
  unfold ready1 at 1. cbn [snd fst]. now rewrite ready_fst.
Qed.
Lemma ready_0 es fd : interest es fd = 0 -> ready es fd = 0.
Proof.
  destruct es as [|e es _] using rev_ind; intros H; [reflexivity|].
  rewrite ready_snoc. rewrite interest_snoc in H. now rewrite H.
Qed.

Lemma in_poll_snoc es e : in_poll (es ++ [e]) = in_poll1 (in_poll es) e.
Proof. unfold in_poll. now rewrite fold_left_app. Qed.
Lemma calm_fst es f : fst (fold_left calm1 es f) = fold_left in_poll1 es (fst f).
Proof. revert f; induction es as [|e es IH]; intros f; cbn; auto. now rewrite IH. Qed.
Lemma undisturbed_snoc es e :
  undisturbed (es ++ [e]) = undisturbed es && negb (in_poll es && withdraws e).
Proof.
  unfold undisturbed. rewrite fold_left_app. cbn [fold_left].
  unfold calm1 at 1. cbn [snd fst]. now rewrite calm_fst.
Qed.
Lemma last_poll_snoc es e : last_poll (es ++ [e]) = withdrawn1 (last_poll es) e.
Proof. unfold last_poll. now rewrite fold_left_app. Qed.

Ltac snoc :=
  repeat (rewrite ?pending_snoc, ?clock_snoc, ?fresh_snoc, ?called_snoc, ?interest_snoc,
          ?in_poll_snoc, ?undisturbed_snoc, ?last_poll_snoc in *).

(** ** Time *)

Lemma tv_lt_us a b : tv_ok a -> tv_ok b -> tv_lt a b = (us a <? us b).
Proof.
  unfold tv_ok, tv_lt, us. intros Ha Hb.
  destruct (Z.eqb_spec (tv_sec a) (tv_sec b));
    [destruct (Z.ltb_spec (tv_usec a) (tv_usec b)) | destruct (Z.ltb_spec (tv_sec a) (tv_sec b))];
    symmetry; rewrite ?Z.ltb_lt, ?Z.ltb_ge; lia.
Qed.

Lemma get_timeval_us clk ms : tv_ok clk ->
  tv_ok (get_timeval clk ms) /\ us (get_timeval clk ms) = us clk + 1000 * Z.max 0 ms.
Proof.
  unfold tv_ok, get_timeval, us. intros H.
  destruct (Z.ltb_spec 0 ms).
  - assert (E := Z.div_mod ms 1000 ltac:(lia)).
    assert (B := Z.mod_pos_bound ms 1000 ltac:(lia)).
    set (u := tv_usec clk + ms mod 1000 * 1000) in *.
    destruct (Z.leb_spec 1000000 u); cbn [tv_sec tv_usec].
    + assert (E1 := Z.div_mod u 1000000 ltac:(lia)).
      assert (B1 := Z.mod_pos_bound u 1000000 ltac:(lia)). lia.
    + lia.
  - lia.
Qed.

Lemma to_int_id x : - 2147483648 <= x <= 2147483647 -> to_int x = x.
Proof. intros H. unfold to_int. rewrite Z.mod_small; lia. Qed.

Lemma diff_ok a b : tv_ok a -> tv_ok b -> Z.abs (us a - us b) <= HORIZON ->
  exists d, diff_timeval a b = Ok d /\
    (us a <= us b -> d <= 0) /\
    (us b < us a -> us a - us b <= 1000 * d <= us a - us b + 1000).
Proof.
  unfold tv_ok, us, HORIZON, diff_timeval. intros Ha Hb H.
  set (S := tv_sec a - tv_sec b) in *. set (U := tv_usec a - tv_usec b) in *.
  assert (EU : exists q r, Z.quot U 1000 = q /\ U = 1000 * q + r /\ Z.abs r < 1000 /\ 0 <= r * U).
  { exists (Z.quot U 1000), (Z.rem U 1000).
    split; [reflexivity|]. split; [apply Z.quot_rem'|].
    split; [pose proof (Z.rem_bound_abs U 1000 ltac:(lia)); lia|].
    destruct (Z.eq_dec U 0) as [->|N]; [cbn; lia|].
    pose proof (Z.rem_sign_mul U 1000 ltac:(lia)). lia. }
  destruct EU as (q & r & -> & EU & Hr & Hs).
  assert (R : - 2147483647 <= S * 1000 + q <= 2147483646) by nia.
  rewrite to_int_id by lia.
  destruct (Z.leb_spec (tv_sec b) (tv_sec a)); destruct (Z.ltb_spec (tv_usec b) (tv_usec a));
    cbn [andb];
    [destruct (Z.eqb_spec (S * 1000 + q) INT_MAX) as [E|_]; [unfold INT_MAX in E; lia|];
     eexists; split; [reflexivity|]; split; nia | | |];
    destruct (Z.leb_spec (tv_sec a) (tv_sec b)); destruct (Z.ltb_spec (tv_usec a) (tv_usec b));
    cbn [andb];
    try (destruct (Z.eqb_spec (S * 1000 + q) (- INT_MAX - 1)) as [E|_]; [unfold INT_MAX in E; lia|]);
    eexists; (split; [reflexivity|]); split; nia.
Qed.

(** ** Arrays *)

Lemma nth_put {A} (l : list A) i x l' : put l i x = Ok l' ->
  (i < length l)%nat /\ length l' = length l /\
  forall j, nth_error l' j = if (j =? i)%nat then Some x else nth_error l j.
Proof.
  unfold put, blit. cbn [length].
  destruct (Nat.leb_spec (i + 1) (length l)) as [H|H]; [|discriminate].
  intros E. injection E as <-.
  assert (L1 : length (firstn i l) = i) by (rewrite firstn_length; lia).
  split; [lia|]. split.
  - rewrite !app_length, firstn_length. cbn [length]. rewrite skipn_length. lia.
  - intros j. destruct (Nat.eqb_spec j i) as [->|N].
    + rewrite nth_error_app2 by lia. now rewrite L1, Nat.sub_diag.
    + destruct (Nat.lt_ge_cases j i) as [Hj|Hj].
      * rewrite nth_error_app1 by lia.
        rewrite <- (firstn_skipn i l) at 2. rewrite nth_error_app1 by lia. reflexivity.
      * rewrite nth_error_app2 by lia. rewrite L1.
        destruct (j - i)%nat as [|k] eqn:K; [lia|]. cbn [app nth_error].
        rewrite <- (firstn_skipn (i + 1) l) at 2.
        rewrite nth_error_app2 by (rewrite firstn_length; lia).
        rewrite firstn_length. f_equal. lia.
Qed.

Lemma put_ok {A} (l : list A) i x : (i < length l)%nat -> exists l', put l i x = Ok l'.
Proof. intros H. unfold put. rewrite blit_ok by (cbn [length]; lia). eauto. Qed.

Definition inuse (p : pollfd) : bool := -1 <? p_fd p.
Definition count (l : list pollfd) : Z := Z.of_nat (length (filter inuse l)).
Definition one (b : bool) : Z := if b then 1 else 0.

Lemma count_cons p l : count (p :: l) = one (inuse p) + count l.
Proof. unfold count, one. cbn [filter]. destruct (inuse p); cbn [length]; lia. Qed.
Lemma count_app a b : count (a ++ b) = count a + count b.
Proof. unfold count. rewrite filter_app, app_length. lia. Qed.
Lemma count_free n : count (repeat free_pfd n) = 0.
Proof. induction n as [|n IH]; [reflexivity|]. cbn [repeat]. now rewrite count_cons, IH. Qed.

Lemma count_put l i x l' y : put l i x = Ok l' -> nth_error l i = Some y ->
  count l' = count l - one (inuse y) + one (inuse x).
Proof.
  intros P N. unfold put, blit in P. cbn [length] in P.
  destruct (Nat.leb_spec (i + 1) (length l)); [|discriminate]. injection P as <-.
  destruct (nth_error_split l i N) as (a & b & -> & <-).
  rewrite firstn_app, Nat.sub_diag, firstn_all. cbn [firstn]. rewrite app_nil_r.
  rewrite skipn_app. rewrite skipn_all2 by lia.
  replace (length a + 1 - length a)%nat with 1%nat by lia. cbn [skipn app].
  rewrite !count_app, !count_cons. lia.
Qed.

Lemma count_none l : (forall p, In p l -> inuse p = false) -> count l = 0.
Proof.
  induction l as [|p l IH]; intros H; [reflexivity|].
  rewrite count_cons, (H p), IH; cbn; auto. intros; apply H; now right.
Qed.
Lemma count_pos l : 0 <= count l.
Proof. unfold count; lia. Qed.
Lemma count_some l : 0 < count l -> exists p, In p l /\ inuse p = true.
Proof.
  induction l as [|p l IH]; [cbn; lia|]. rewrite count_cons.
  destruct (inuse p) eqn:E; [exists p; cbn; auto|].
  cbn [one]. intros H. destruct IH as (q & Q & U); [lia|]. exists q; cbn; auto.
Qed.

Lemma nth_repeat {A} (x : A) n i e : nth_error (repeat x n) i = Some e -> e = x.
Proof. intros H. apply nth_error_In in H. now apply repeat_spec in H. Qed.

Lemma scan_ok arr k : (k <= length arr)%nat ->
  exists m, scan_down arr k = Ok m /\ -1 <= m < Z.of_nat k /\
    (forall i e, nth_error arr i = Some e -> m < Z.of_nat i -> (i < k)%nat -> inuse e = false) /\
    (forall i e, nth_error arr i = Some e -> (i < k)%nat -> inuse e = true -> Z.of_nat i <= m).
Proof.
  induction k as [|k IH]; intros H; cbn [scan_down].
  - exists (-1). split; [reflexivity|]. split; [lia|]. split; intros; lia.
  - destruct (nth_error arr k) as [e|] eqn:E.
    2: { apply nth_error_None in E. lia. }
    rewrite (get_ok _ _ E). cbn [bind]. fold (inuse e).
    destruct (inuse e) eqn:U.
    + exists (Z.of_nat k). split; [reflexivity|]. split; [lia|]. split; intros; lia.
    + destruct IH as (m & -> & B & F & G); [lia|].
      exists m. split; [reflexivity|]. split; [lia|]. split; intros i e' Hi.
      * intros ? ?. destruct (Nat.eq_dec i k) as [->|]; [congruence|].
        apply (F i e'); auto; lia.
      * intros ? ?. destruct (Nat.eq_dec i k) as [->|]; [congruence|].
        apply (G i e'); auto; lia.
Qed.

Lemma grow_size_ok f : forall n req, 0 < n -> req <= n * 2 ^ Z.of_nat f -> req <= 1073741823 ->
  exists m, grow_size (S f) n req = Ok m /\ req <= m /\ n <= m.
Proof.
  induction f as [|f IH]; intros n req Hn Hr Hm.
  - cbn in Hr. cbn [grow_size].
    destruct (Z.ltb_spec n req); [lia|]. cbn [andb]. eexists; split; [reflexivity|]. lia.
  - cbn [grow_size]. destruct (Z.ltb_spec n req).
    + destruct (Z.ltb_spec 0 n); [|lia]. cbn [andb].
      destruct (Z.ltb_spec INT_MAX (n * 2)) as [X|X]; [unfold INT_MAX in X; lia|].
      destruct (IH (n * 2) req) as (m & E & A & B); [lia| |lia|].
      { rewrite Nat2Z.inj_succ, Z.pow_succ_r in Hr by lia. nia. }
      exists m. split; [exact E|]. lia.
    + cbn [andb]. eexists; split; [reflexivity|]. lia.
Qed.
Lemma grow_size_ge f : forall n req m, grow_size f n req = Ok m -> req <= m /\ n <= m.
Proof.
  induction f as [|f IH]; intros n req m; cbn [grow_size]; [discriminate|].
  destruct (Z.ltb_spec n req).
  - destruct (Z.ltb_spec 0 n); cbn [andb].
    + destruct (INT_MAX <? n * 2); [discriminate|]. intros E. apply IH in E. lia.
    + intros E; injection E as <-. lia.
  - cbn [andb]. intros E; injection E as <-. lia.
Qed.

(** ** Timer lists *)

Definition conv (t : timer) : ptimer := mkP (t_id t) (t_fnc t) (t_arg t) (us (t_tv t)).
Definition sorted (l : list ptimer) : Prop := StronglySorted (fun a b => d_due a <= d_due b) l.
Definition at_due (d : Z) (l : list ptimer) : list ptimer := filter (fun p => d_due p =? d) l.
Definition without (id : Z) (l : list ptimer) : list ptimer :=
  filter (fun p => negb (d_id p =? id)) l.

(** the active list holds the pending timers, by due time and stably *)
Definition holds (l : list timer) (ps : list ptimer) : Prop :=
  sorted (map conv l) /\ (forall d, at_due d (map conv l) = at_due d ps) /\
  Forall (fun t => tv_ok (t_tv t)) l.

Lemma filter_comm {A} (f g : A -> bool) l : filter f (filter g l) = filter g (filter f l).
Proof.
  induction l as [|x l IH]; [reflexivity|]. cbn [filter].
  destruct (f x) eqn:F, (g x) eqn:G; cbn [filter]; rewrite ?F, ?G, IH; reflexivity.
Qed.
Lemma filter_all {A} (f : A -> bool) l : (forall x, In x l -> f x = true) -> filter f l = l.
Proof.
  induction l as [|x l IH]; intros H; [reflexivity|]. cbn [filter].
  rewrite (H x) by now left. f_equal. apply IH. intros; apply H; now right.
Qed.
Lemma filter_none {A} (f : A -> bool) l : (forall x, In x l -> f x = false) -> filter f l = [].
Proof.
  induction l as [|x l IH]; intros H; [reflexivity|]. cbn [filter].
  rewrite (H x) by now left. apply IH. intros; apply H; now right.
Qed.

Lemma holds_in l ps : holds l ps -> forall p, (In p (map conv l) <-> In p ps).
Proof.
  intros (_ & H & _) p.
  assert (E : forall q, In p q <-> In p (at_due (d_due p) q)).
  { intros q. unfold at_due. rewrite filter_In, Z.eqb_refl. tauto. }
  rewrite (E (map conv l)), (E ps), H. tauto.
Qed.

Lemma holds_nil l ps : holds l ps -> l = [] <-> ps = [].
Proof.
  intros H. split; intros ->.
  - destruct ps as [|p ps]; [reflexivity|]. exfalso.
    apply (proj2 (holds_in H p)). now left.
  - destruct l as [|t l]; [reflexivity|]. exfalso.
    apply (proj1 (holds_in H (conv t))). now left.
Qed.

Lemma Forall_insert (P : ptimer -> Prop) t l :
  P (conv t) -> Forall P (map conv l) -> Forall P (map conv (insert t l)).
Proof.
  intros Ht. induction l as [|x l IH]; cbn [insert map]; intros F; [auto|].
  inversion F; subst. destruct (tv_lt _ _); cbn [map]; auto.
Qed.

Lemma sorted_insert t l : tv_ok (t_tv t) -> Forall (fun t => tv_ok (t_tv t)) l ->
  sorted (map conv l) -> sorted (map conv (insert t l)).
Proof.
  intros Ht Hl. induction l as [|x l IH]; cbn [insert map]; intros S.
  - repeat constructor.
  - inversion Hl as [|? ? Hx Hl']; subst. inversion S as [|? ? S' F]; subst.
    rewrite tv_lt_us by auto.
    destruct (Z.ltb_spec (us (t_tv t)) (us (t_tv x))) as [L|L]; cbn [map].
    + constructor; [exact S|]. constructor; [cbn; lia|].
      eapply Forall_impl; [|exact F]. cbn; intros; lia.
    + constructor; [now apply IH|].
      apply Forall_insert; [cbn; lia|exact F].
Qed.

Lemma at_due_insert d t l : tv_ok (t_tv t) -> Forall (fun t => tv_ok (t_tv t)) l ->
  sorted (map conv l) ->
  at_due d (map conv (insert t l)) = at_due d (map conv l) ++ at_due d [conv t].
Proof.
  intros Ht Hl. induction l as [|x l IH]; intros S; [reflexivity|]. cbn [insert].
  inversion Hl as [|? ? Hx Hl']; subst. inversion S as [|? ? S' F]; subst.
  rewrite tv_lt_us by auto.
  destruct (Z.ltb_spec (us (t_tv t)) (us (t_tv x))) as [L|L].
  - change (map conv (t :: x :: l)) with (conv t :: map conv (x :: l)).
    unfold at_due at 1 3. cbn [filter].
    destruct (Z.eqb_spec (d_due (conv t)) d) as [E|E].
    + assert (Q : filter (fun p => d_due p =? d) (map conv (x :: l)) = []).
      { apply filter_none. cbn [map]. intros p [<-|Hp].
        - cbn in *. apply Z.eqb_neq. lia.
        - rewrite Forall_forall in F. specialize (F p Hp). cbn in *. apply Z.eqb_neq. lia. }
      unfold at_due. now rewrite Q.
    + now rewrite app_nil_r.
  - cbn [map]. unfold at_due in *. cbn [filter]. rewrite IH by auto.
    destruct (d_due (conv x) =? d); reflexivity.
Qed.

Lemma tv_ok_insert t l : tv_ok (t_tv t) -> Forall (fun t => tv_ok (t_tv t)) l ->
  Forall (fun t => tv_ok (t_tv t)) (insert t l).
Proof.
  intros Ht Hl. induction l as [|x l IH]; cbn [insert]; [auto|].
  inversion Hl; subst. destruct (tv_lt _ _); auto.
Qed.

Lemma holds_insert t l ps : tv_ok (t_tv t) -> holds l ps -> holds (insert t l) (ps ++ [conv t]).
Proof.
  intros Ht (S & D & O). split; [|split].
  - now apply sorted_insert.
  - intros d. rewrite at_due_insert by auto. rewrite D. unfold at_due. now rewrite filter_app.
  - now apply tv_ok_insert.
Qed.

Lemma sorted_filter f l : sorted l -> sorted (filter f l).
Proof.
  induction 1 as [|x l S IH F]; cbn [filter]; [constructor|].
  destruct (f x); [|exact IH]. constructor; [exact IH|].
  rewrite Forall_forall in *. intros y Hy. apply filter_In in Hy. now apply F.
Qed.

Lemma remove_without id l : NoDup (map d_id (map conv l)) ->
  map conv (remove id l) = without id (map conv l).
Proof.
  induction l as [|x l IH]; intros N; [reflexivity|]. cbn [remove map].
  inversion N as [|? ? NI N']; subst. unfold without. cbn [filter].
  change (d_id (conv x)) with (t_id x) in *.
  rewrite (Z.eqb_sym (t_id x) id).
  destruct (Z.eqb_spec id (t_id x)) as [E|E]; cbn [negb map].
  - symmetry. apply filter_all. intros p Hp. apply negb_true_iff, Z.eqb_neq.
    intros Q. apply NI. rewrite <- E, <- Q. now apply in_map.
  - f_equal. now apply IH.
Qed.

Lemma Forall_remove (P : timer -> Prop) id l : Forall P l -> Forall P (remove id l).
Proof.
  induction 1 as [|x l Hx Hl IH]; cbn [remove]; [constructor|].
  destruct (id =? t_id x); auto.
Qed.

Lemma holds_remove id l ps : holds l ps -> NoDup (map d_id (map conv l)) ->
  holds (remove id l) (without id ps).
Proof.
  intros (S & D & O) N. split; [|split].
  - rewrite remove_without by auto. now apply sorted_filter.
  - intros d. rewrite remove_without by auto. unfold at_due, without.
    rewrite filter_comm. change (filter (fun p => d_due p =? d) (map conv l)) with (at_due d (map conv l)).
    rewrite D. unfold at_due. apply filter_comm.
  - now apply Forall_remove.
Qed.

Lemma holds_empty : holds [] [].
Proof. split; [constructor|]. split; [reflexivity|constructor]. Qed.

(** the same elements with the same multiplicity, so ids are distinct too *)
Lemma at_due_split d l p r : at_due d l = p :: r ->
  exists b a, l = b ++ p :: a /\ Forall (fun q => d_due q <> d) b /\ d_due p = d.
Proof.
  induction l as [|x l IH]; unfold at_due; cbn [filter]; [discriminate|].
  destruct (Z.eqb_spec (d_due x) d) as [E|E].
  - intros Q. injection Q as -> _. exists [], l. cbn. repeat split; auto.
  - intros Q. destruct (IH Q) as (b & a & -> & F & X). exists (x :: b), a. cbn. auto.
Qed.

Lemma holds_nodup l ps : holds l ps -> NoDup (map d_id ps) -> NoDup (map d_id (map conv l)).
Proof.
  revert ps. induction l as [|t l IH]; intros ps H N; [constructor|].
  destruct H as (S & D & O). cbn [map] in *.
  assert (Q : at_due (d_due (conv t)) ps = conv t :: at_due (d_due (conv t)) (map conv l)).
  { rewrite <- D. unfold at_due. cbn [filter]. now rewrite Z.eqb_refl. }
  destruct (at_due_split _ _ Q) as (b & a & E & F & _). subst ps.
  inversion S as [|? ? S' Fs]; subst. inversion O as [|? ? Ot O']; subst.
  assert (H' : holds l (b ++ a)).
  { split; [exact S'|]. split; [|exact O']. intros d. specialize (D d).
    unfold at_due in *. rewrite filter_app in D. cbn [filter] in D.
    rewrite filter_app.
    destruct (Z.eqb_spec (d_due (conv t)) d) as [E|E]; [|exact D].
    assert (Z0 : filter (fun p => d_due p =? d) b = []).
    { apply filter_none. rewrite Forall_forall in F. intros x Hx. apply Z.eqb_neq.
      subst d. now apply F. }
    rewrite Z0 in *. cbn [app] in *. now injection D. }
  rewrite map_app in N. cbn [map] in N. apply NoDup_remove in N. destruct N as [N1 N2].
  rewrite <- map_app in N1, N2.
  constructor; [|now apply (IH (b ++ a))].
  intros C. apply in_map_iff in C. destruct C as (p & Ep & Hp).
  apply (holds_in H' p) in Hp. apply N2. rewrite <- Ep. now apply in_map.
Qed.

(** the head of the list is the timer that must fire first *)
Lemma holds_head t l ps : holds (t :: l) ps -> NoDup (map d_id ps) ->
  exists b a, ps = b ++ conv t :: a /\
    Forall (fun p => us (t_tv t) < d_due p) b /\
    Forall (fun p => us (t_tv t) <= d_due p) a /\
    holds l (without (t_id t) ps).
Proof.
  intros H N. assert (ND := holds_nodup H N). pose proof H as H0.
  destruct H as (S & D & O). cbn [map] in *.
  assert (Q : at_due (d_due (conv t)) ps = conv t :: at_due (d_due (conv t)) (map conv l)).
  { rewrite <- D. unfold at_due. cbn [filter]. now rewrite Z.eqb_refl. }
  destruct (at_due_split _ _ Q) as (b & a & E & F & _).
  exists b, a. split; [exact E|].
  assert (M : forall p, In p ps -> us (t_tv t) <= d_due p).
  { intros p Hp. apply (holds_in H0 p) in Hp. cbn [map] in Hp. destruct Hp as [<-|Hp]; [cbn; lia|].
    inversion S as [|? ? _ Fs]; subst. rewrite Forall_forall in Fs. apply (Fs p Hp). }
  split; [|split].
  - rewrite Forall_forall in *. intros p Hp. specialize (F p Hp).
    assert (I : In p ps) by (subst ps; apply in_or_app; now left).
    specialize (M p I). cbn in F. lia.
  - rewrite Forall_forall. intros p Hp. apply M. subst ps. apply in_or_app. right. now right.
  - replace l with (remove (t_id t) (t :: l)).
    + apply holds_remove; [exact H0|exact ND].
    + cbn [remove]. now rewrite Z.eqb_refl.
Qed.

Lemma nodup_without id ps : NoDup (map d_id ps) -> NoDup (map d_id (without id ps)).
Proof.
  induction ps as [|p ps IH]; cbn [map]; intros N; [constructor|].
  inversion N as [|? ? NI N']; subst. unfold without. cbn [filter].
  destruct (negb (d_id p =? id)); [|now apply IH]. cbn [map]. constructor; [|now apply IH].
  intros C. apply NI. apply in_map_iff in C. destruct C as (q & Eq & Hq).
  apply filter_In in Hq. rewrite <- Eq. apply in_map, Hq.
Qed.
