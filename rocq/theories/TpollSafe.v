(** No undefined behaviour in tpoll, and what pending timers mean. *)
From Verif Require Import Base BaseProof TpollModel TpollSpec TpollProof TpollInv TpollRun.
From Coq Require Import Sorted.
Open Scope Z_scope.
Set Implicit Arguments.

Definition fine {A} (r : res A) : Prop := exists x, r = Ok x.
Lemma fine_ok {A} (x : A) : fine (Ok x). Proof. now exists x. Qed.
Lemma fine_bind {A B} (r : res A) (f : A -> res B) :
  fine r -> (forall x, r = Ok x -> fine (f x)) -> fine (bind r f).
Proof. intros (x & ->) H. cbn. now apply H. Qed.

Lemma get_fine {A} (l : list A) i : (i < length l)%nat -> exists x, nth_error l i = Some x /\ get l i = Ok x.
Proof.
  intros H. destruct (nth_error l i) as [x|] eqn:E.
  - exists x. split; [reflexivity|]. now apply get_ok.
  - apply nth_error_None in E. lia.
Qed.

Lemma clear_fine n0 pipe tp es fd ev : good n0 pipe tp es -> fd <> Z.of_nat pipe ->
  fine (tpoll_clear tp fd ev).
Proof.
  intros (F & _ & _) Hp. unfold tpoll_clear.
  destruct (Z.ltb_spec fd 0); [apply fine_ok|]. destruct (ev =? 0); [apply fine_ok|].
  destruct (Z.leb_spec fd (tp_max tp)); [|apply fine_ok].
  pose proof (f_max F). pose proof (f_len F).
  destruct (@get_fine _ (tp_arr tp) (Z.to_nat fd)) as (e & He & Hg); [lia|].
  rewrite Hg. cbn [bind]. destruct (Z.ltb_spec (-1) (p_fd e)); [|apply fine_ok].
  destruct (f_ent F He ltac:(lia)) as (_ & [[? _]|[B _]] & _); [lia|].
  rewrite Z2Nat.id in B by lia. rewrite B, Z.eqb_refl. cbn [assert_ bind].
  destruct (p_events e =? _); [apply fine_ok|].
  destruct (Z.land (p_events e) (Z.lnot ev) =? 0).
  - destruct (@put_ok _ (tp_arr tp) (Z.to_nat fd) (mkPfd (-1) 0 0)) as (a & Ha); [lia|].
    rewrite Ha. cbn [bind]. destruct (nth_put _ _ _ Ha) as (_ & La & _).
    destruct (Z.eqb_spec (tp_max tp) fd); [|apply fine_ok].
    destruct (@scan_ok a (Z.to_nat fd)) as (m & -> & _); [lia|]. apply fine_ok.
  - destruct (@put_ok _ (tp_arr tp) (Z.to_nat fd)
      (mkPfd fd (Z.land (p_events e) (Z.lnot ev)) (p_revents e))) as (a & Ha); [lia|].
    rewrite Ha. apply fine_ok.
Qed.

Lemma isset_fine dbg n0 pipe tp es fd ev : good n0 pipe tp es -> fd <> Z.of_nat pipe ->
  (dbg = true -> fd < Z.of_nat n0) -> fine (tpoll_is_set dbg tp fd ev).
Proof.
  intros (F & _ & _) Hp Hd. unfold tpoll_is_set.
  destruct (Z.ltb_spec fd 0); [apply fine_ok|].
  pose proof (f_max F). pose proof (f_len F). pose proof (f_n0 F).
  apply fine_bind.
  - destruct (Z.ltb_spec (tp_max tp) fd); [apply fine_ok|].
    destruct (@get_fine _ (tp_arr tp) (Z.to_nat fd)) as (e & He & Hg); [lia|].
    rewrite Hg. cbn [bind]. destruct (Z.ltb_spec (p_fd e) 0); [apply fine_ok|].
    destruct (f_ent F He ltac:(lia)) as (_ & [[? _]|[B _]] & _); [lia|].
    rewrite Z2Nat.id in B by lia. rewrite B, Z.eqb_refl. apply fine_ok.
  - intros rc _. destruct dbg; [|apply fine_ok].
    destruct (@get_fine _ (tp_arr tp) (Z.to_nat fd)) as (e & He & Hg); [lia|].
    rewrite Hg. apply fine_ok.
Qed.

Lemma grow_fine n0 pipe room tp es req : good n0 pipe tp es -> 0 < req <= 1073741823 ->
  fine (grow room tp req).
Proof.
  intros (F & _ & _) H. unfold grow. destruct (Z.ltb_spec 0 req); [|lia]. cbn [assert_ bind].
  destruct (req <=? Z.of_nat (tp_alloc tp)); [apply fine_ok|].
  destruct (@grow_size_ok 31 (Z.of_nat (tp_alloc tp)) req) as (m & E & _).
  - pose proof (f_pa F). lia.
  - pose proof (f_pa F). change (2 ^ Z.of_nat 31) with 2147483648. nia.
  - lia.
  - rewrite E. cbn [bind]. destruct (negb room); apply fine_ok.
Qed.

Lemma set_fine dbg n0 pipe room tp es fd ev : good n0 pipe tp es -> fd <> Z.of_nat pipe ->
  fd < 1073741823 -> (dbg = true -> undisturbed es = true) ->
  fine (tpoll_set dbg room tp fd ev).
Proof.
  intros G Hp Hf Hd. unfold tpoll_set.
  destruct (Z.ltb_spec fd 0); [apply fine_ok|]. destruct (ev =? 0); [apply fine_ok|].
  assert (X : exists tp1 r, (if Z.of_nat (tp_alloc tp) <=? fd then
      if INT_MAX <? fd + 1 then UB SignedOverflow else grow room tp (fd + 1)
      else Ok (tp, 0)) = Ok (tp1, r) /\ good n0 pipe tp1 es /\
      (0 <= r -> fd < Z.of_nat (tp_alloc tp1))).
  { destruct (Z.leb_spec (Z.of_nat (tp_alloc tp)) fd).
    - unfold INT_MAX. destruct (Z.ltb_spec 2147483647 (fd + 1)); [lia|].
      destruct (@grow_fine n0 pipe room tp es (fd + 1) G ltac:(lia)) as ([tp1 r] & E).
      exists tp1, r. split; [exact E|]. destruct (grow_spec _ _ G E) as (G1 & R & R1 & _).
      split; [exact G1|]. intros Hr. destruct R as [->|]; [|lia]. specialize (R1 eq_refl). lia.
    - exists tp, 0. auto. }
  destruct X as (tp1 & r & -> & G1 & R). cbn [bind].
  destruct (Z.ltb_spec r 0); [apply fine_ok|]. specialize (R ltac:(lia)).
  destruct G1 as (F & _ & _). pose proof (f_len F).
  destruct (@get_fine _ (tp_arr tp1) (Z.to_nat fd)) as (e & He & Hg); [lia|].
  rewrite Hg. cbn [bind].
  destruct (f_ent F He ltac:(lia)) as (A & B & C). rewrite Z2Nat.id in * by lia.
  destruct (Z.ltb_spec (p_fd e) 0).
  - destruct B as [[B0 B]|[B _]]; [|lia]. rewrite A, B. cbn [assert_ bind Z.eqb].
    assert (assert_if dbg (p_revents e =? 0) = Ok tt) as ->.
    { destruct dbg; [|reflexivity]. rewrite (C (Hd eq_refl)), ready_0 by exact B. reflexivity. }
    cbn [bind]. destruct (@put_ok _ (tp_arr tp1) (Z.to_nat fd) (mkPfd fd ev (p_revents e))) as (a & ->);
      [lia|]. apply fine_ok.
  - destruct (p_events e =? Z.lor (p_events e) ev); [apply fine_ok|].
    destruct (@put_ok _ (tp_arr tp1) (Z.to_nat fd)
      (mkPfd (p_fd e) (Z.lor (p_events e) ev) (p_revents e))) as (a & ->); [lia|]. apply fine_ok.
Qed.

Lemma zero_fine n0 pipe tp es how : good n0 pipe tp es -> fine (tpoll_zero tp how).
Proof.
  intros (F & _ & _). unfold tpoll_zero.
  destruct (Z.land how (Z.lnot 3) =? 0) eqn:E; cbn [negb]; [|apply fine_ok].
  unfold tpoll_init. rewrite E. pose proof (f_pa F). pose proof (f_pipe F).
  destruct (Nat.ltb_spec 0 (tp_alloc tp)); [|lia]. cbn [assert_ bind].
  destruct (has how 1); [|apply fine_ok].
  destruct (@put_ok _ (repeat free_pfd (tp_alloc tp)) (tp_pipe tp)
    (mkPfd (Z.of_nat (tp_pipe tp)) POLLIN 0)) as (a & ->); [rewrite repeat_length; lia|].
  apply fine_ok.
Qed.

(** *** What else stays true *)

Definition next_ok (tp : tpoll) (es : list event) : Prop :=
  highest es < tp_next tp <= 1 + timers_set es.

Lemma highest_snoc es e : highest (es ++ [e]) = highest1 (highest es) e.
Proof. unfold highest. now rewrite fold_left_app. Qed.

Lemma timers_set_snoc es e : timers_set (es ++ [e]) = timers_set es + one (sets_timer e).
Proof.
  unfold timers_set. rewrite filter_app, app_length. cbn [filter].
  destruct (sets_timer e); cbn [one length]; lia.
Qed.
Lemma steady_fst n0 es f : fst (fold_left (steady1 n0) es f) = fold_left in_poll1 es (fst f).
Proof. revert f; induction es as [|e es IH]; intros f; cbn; auto. now rewrite IH. Qed.
Lemma steady_snoc n0 es e : steady n0 (es ++ [e]) = steady n0 es && negb (in_poll es && grows n0 e).
Proof.
  unfold steady. rewrite fold_left_app. cbn [fold_left].
  unfold steady1 at 1. cbn [snd fst]. now rewrite steady_fst.
Qed.
Lemma timers_set_pos es : 0 <= timers_set es.
Proof. unfold timers_set. lia. Qed.

Lemma send_same tp : tp_next (signal_send tp) = tp_next tp /\ tp_gen (signal_send tp) = tp_gen tp
  /\ tp_timers (signal_send tp) = tp_timers tp.
Proof. unfold signal_send. destruct (tp_signaled tp || negb (tp_blocked tp)); auto. Qed.

Lemma call_next dbg tp c tp' rc es : do_call dbg tp c = Ok (tp', rc) -> 1 <= tp_next tp ->
  next_ok tp es -> next_ok tp' (es ++ [ECall c rc]).
Proof.
  unfold next_ok. rewrite timers_set_snoc, highest_snoc. pose proof (timers_set_pos es).
  assert (AB : forall f a tv, timeout_absolute tp f a tv = Ok (tp', rc) -> 1 <= tp_next tp ->
     highest es < tp_next tp <= 1 + timers_set es ->
     Z.max (highest es) rc < tp_next tp' <= 1 + (timers_set es + 1)).
  { intros f a tv. unfold timeout_absolute. destruct (f =? 0).
    - intros E; injection E as <- <-. lia.
    - destruct (tp_next tp =? INT_MAX); [discriminate|]. intros E; injection E as <- <-.
      cbn [tp_next set_timers]. destruct (Z.leb_spec (tp_next tp + 1) 0); lia. }
  destruct c as [fd ev room|fd ev|fd ev|f a tv|f a ms ck|id|how]; cbn [do_call sets_timer one highest1].
  - unfold tpoll_set. destruct (fd <? 0); [intros E; injection E as <- <-; lia|].
    destruct (ev =? 0); [intros E; injection E as <- <-; lia|].
    destruct (if Z.of_nat (tp_alloc tp) <=? fd then _ else _) as [[tp1 r]|] eqn:Eg; [|discriminate].
    assert (N : tp_next tp1 = tp_next tp).
    { destruct (Z.of_nat (tp_alloc tp) <=? fd); [|now injection Eg as <- <-].
      destruct (INT_MAX <? fd + 1); [discriminate|]. unfold grow in Eg.
      destruct (0 <? fd + 1); [|discriminate]. cbn [assert_ bind] in Eg.
      destruct (fd + 1 <=? Z.of_nat (tp_alloc tp)); [now injection Eg as <- <-|].
      destruct (grow_size 32 (Z.of_nat (tp_alloc tp)) (fd + 1)); [|discriminate]. cbn [bind] in Eg.
      destruct (negb room); injection Eg as <- <-; cbn; apply send_same. }
    cbn [bind]. destruct (r <? 0); [intros E; injection E as <- <-; lia|].
    destruct (get (tp_arr tp1) (Z.to_nat fd)) as [e|]; [|discriminate]. cbn [bind].
    destruct (p_fd e <? 0).
    + destruct (assert_ (p_events e =? 0)); [|discriminate]. cbn [bind].
      destruct (assert_if dbg (p_revents e =? 0)); [|discriminate]. cbn [bind].
      destruct (put _ _ _); [|discriminate]. cbn [bind].
      intros E; injection E as <- <-. rewrite (proj1 (send_same _)). cbn [tp_next set_fds]. lia.
    + destruct (p_events e =? _); [intros E; injection E as <- <-; lia|].
      destruct (put _ _ _); [|discriminate]. cbn [bind].
      intros E; injection E as <- <-. rewrite (proj1 (send_same _)). cbn [tp_next set_fds]. lia.
  - unfold tpoll_clear. destruct (fd <? 0); [intros E; injection E as <- <-; lia|].
    destruct (ev =? 0); [intros E; injection E as <- <-; lia|].
    destruct (fd <=? tp_max tp); [|intros E; injection E as <- <-; lia].
    destruct (get (tp_arr tp) (Z.to_nat fd)) as [e|]; [|discriminate]. cbn [bind].
    destruct (-1 <? p_fd e); [|intros E; injection E as <- <-; lia].
    destruct (assert_ (p_fd e =? fd)); [|discriminate]. cbn [bind].
    destruct (p_events e =? _); [intros E; injection E as <- <-; lia|].
    destruct (Z.land (p_events e) (Z.lnot ev) =? 0).
    + destruct (put _ _ _); [|discriminate]. cbn [bind].
      destruct (if tp_max tp =? fd then _ else _); [|discriminate]. cbn [bind].
      intros E; injection E as <- <-. rewrite (proj1 (send_same _)). cbn [tp_next set_fds]. lia.
    + destruct (put _ _ _); [|discriminate]. cbn [bind].
      intros E; injection E as <- <-. rewrite (proj1 (send_same _)). cbn [tp_next set_fds]. lia.
  - destruct (tpoll_is_set dbg tp fd ev); [|discriminate]. cbn [bind]. intros E; injection E as <- <-. lia.
  - apply AB.
  - apply AB.
  - unfold timeout_cancel. destruct (id <=? 0); [intros E; injection E as <- <-; lia|].
    destruct (existsb _ _); intros E; injection E as <- <-; cbn [tp_next set_timers]; lia.
  - unfold tpoll_zero. destruct (negb _); [intros E; injection E as <- <-; cbn [Z.eqb andb]; lia|].
    destruct (tpoll_init tp how) as [tp1|] eqn:Ei; [|discriminate]. cbn [bind].
    intros E; injection E as <- <-. rewrite (proj1 (send_same _)). rewrite <- has_2.
    change (0 =? 0) with true. cbn [andb].
    unfold tpoll_init in Ei. destruct (assert_ (0 <? tp_alloc tp)%nat); [|discriminate].
    destruct (assert_ _); [|discriminate]. cbn [bind] in Ei.
    destruct (has how 1).
    + destruct (put _ _ _); [|discriminate]. cbn [bind] in Ei. injection Ei as <-.
      destruct (has how 2); cbn [tp_next set_timers set_fds]; lia.
    + cbn [bind] in Ei. injection Ei as <-. destruct (has how 2); cbn [tp_next set_timers set_fds]; lia.
Qed.

(** only tpoll_set() beyond the table moves it *)
Lemma call_gen dbg n0 tp c tp' rc : do_call dbg tp c = Ok (tp', rc) -> (n0 <= tp_alloc tp)%nat ->
  grows n0 (ECall c rc) = false -> tp_gen tp' = tp_gen tp.
Proof.
  destruct c as [fd ev room|fd ev|fd ev|f a tv|f a ms ck|id|how]; cbn [do_call grows].
  - intros E Hn Hg. apply Z.leb_gt in Hg. revert E. unfold tpoll_set.
    destruct (fd <? 0); [intros E; injection E as <- <-; reflexivity|].
    destruct (ev =? 0); [intros E; injection E as <- <-; reflexivity|].
    destruct (Z.leb_spec (Z.of_nat (tp_alloc tp)) fd); [lia|]. cbn [bind].
    cbn [Z.ltb Z.compare].
    destruct (get (tp_arr tp) (Z.to_nat fd)) as [e|]; [|discriminate]. cbn [bind].
    destruct (p_fd e <? 0).
    + destruct (assert_ (p_events e =? 0)); [|discriminate]. cbn [bind].
      destruct (assert_if dbg (p_revents e =? 0)); [|discriminate]. cbn [bind].
      destruct (put _ _ _); [|discriminate]. cbn [bind].
      intros E; injection E as <- <-. exact (proj1 (proj2 (send_same _))).
    + destruct (p_events e =? _); [intros E; injection E as <- <-; reflexivity|].
      destruct (put _ _ _); [|discriminate]. cbn [bind].
      intros E; injection E as <- <-. exact (proj1 (proj2 (send_same _))).
  - intros E _ _. revert E. unfold tpoll_clear.
    destruct (fd <? 0); [intros E; injection E as <- <-; reflexivity|].
    destruct (ev =? 0); [intros E; injection E as <- <-; reflexivity|].
    destruct (fd <=? tp_max tp); [|intros E; injection E as <- <-; reflexivity].
    destruct (get (tp_arr tp) (Z.to_nat fd)) as [e|]; [|discriminate]. cbn [bind].
    destruct (-1 <? p_fd e); [|intros E; injection E as <- <-; reflexivity].
    destruct (assert_ (p_fd e =? fd)); [|discriminate]. cbn [bind].
    destruct (p_events e =? _); [intros E; injection E as <- <-; reflexivity|].
    destruct (Z.land (p_events e) (Z.lnot ev) =? 0).
    + destruct (put _ _ _); [|discriminate]. cbn [bind].
      destruct (if tp_max tp =? fd then _ else _); [|discriminate]. cbn [bind].
      intros E; injection E as <- <-. exact (proj1 (proj2 (send_same _))).
    + destruct (put _ _ _); [|discriminate]. cbn [bind].
      intros E; injection E as <- <-. exact (proj1 (proj2 (send_same _))).
  - intros E _ _. destruct (tpoll_is_set dbg tp fd ev); [|discriminate]. cbn in E.
    now injection E as <- <-.
  - intros E _ _. revert E. unfold timeout_absolute. destruct (f =? 0).
    + intros E; injection E as <- <-. reflexivity.
    + destruct (tp_next tp =? INT_MAX); [discriminate|]. intros E; injection E as <- <-. cbn.
      destruct (at_head _ _); [exact (proj1 (proj2 (send_same _)))|reflexivity].
  - intros E _ _. revert E. unfold timeout_relative, timeout_absolute. destruct (f =? 0).
    + intros E; injection E as <- <-. reflexivity.
    + destruct (tp_next tp =? INT_MAX); [discriminate|]. intros E; injection E as <- <-. cbn.
      destruct (at_head _ _); [exact (proj1 (proj2 (send_same _)))|reflexivity].
  - intros E _ _. revert E. unfold timeout_cancel.
    destruct (id <=? 0); [intros E; injection E as <- <-; reflexivity|].
    destruct (existsb _ _); intros E; injection E as <- <-; cbn; auto.
    destruct (head_id _ _); [exact (proj1 (proj2 (send_same _)))|reflexivity].
  - intros E _ _. revert E. unfold tpoll_zero.
    destruct (negb _); [intros E; injection E as <- <-; reflexivity|].
    destruct (tpoll_init tp how) as [tp1|] eqn:Ei; [|discriminate]. cbn [bind].
    intros E; injection E as <- <-. rewrite (proj1 (proj2 (send_same _))).
    unfold tpoll_init in Ei. destruct (assert_ (0 <? tp_alloc tp)%nat); [|discriminate].
    destruct (assert_ _); [|discriminate]. cbn [bind] in Ei.
    destruct (has how 1).
    + destruct (put _ _ _); [|discriminate]. cbn [bind] in Ei. injection Ei as <-.
      now destruct (has how 2).
    + cbn [bind] in Ei. injection Ei as <-. now destruct (has how 2).
Qed.

(** a descriptor other than the pipe's is in use *)
Definition live (pipe : nat) (tp : tpoll) : Prop :=
  exists i e, nth_error (tp_arr tp) i = Some e /\ i <> pipe /\ p_fd e <> -1.

Definition aux (n0 pipe : nat) (s : sys) (es : list event) : Prop :=
  next_ok (s_tp s) es /\
  match s_ph s with
  | Polling _ _ _ _ _ gen => steady n0 es = true -> gen = tp_gen (s_tp s)
  | Back _ _ _ n =>
      0 <= n -> tp_realloced (s_tp s) = false -> snd (last_poll es) = false ->
      forall r, nth_error (tp_arr (s_tp s)) pipe = Some (mkPfd (Z.of_nat pipe) POLLIN r) ->
      0 < n - one (has r POLLIN) -> live pipe (s_tp s)
  | _ => True
  end.

Lemma live_used n0 pipe tp es : fds_ok n0 pipe tp es -> live pipe tp -> 0 < tp_used tp.
Proof.
  intros F (i & e & He & Hi & Hn).
  destruct (f_ent F He Hi) as (_ & [[B _]|[_ B]] & _); [contradiction|].
  destruct (used_interest F) as (U & _ & _).
  destruct (Z_lt_dec 0 (tp_used tp)) as [|L]; [assumption|]. exfalso. apply B, U. lia.
Qed.

Lemma results_in l fd r : In (fd, r) (results l) ->
  exists i p, nth_error l i = Some p /\ p_fd p = fd /\ -1 < fd /\ p_revents p = r.
Proof.
  unfold results. rewrite in_map_iff. intros (p & E & Hp). apply filter_In in Hp.
  destruct Hp as (Hp & U). apply Z.ltb_lt in U. injection E as <- <-.
  apply In_nth_error in Hp. destruct Hp as (i & Hi). exists i, p. auto.
Qed.

Lemma next_silent tp es x : silent x \/ (exists i f a, x = EFire i f a) \/ (exists l, x = EPolled l) -> next_ok tp es -> next_ok tp (es ++ [x]).
Proof.
  unfold next_ok. intros H N. rewrite timers_set_snoc, highest_snoc.
  destruct x; cbn [highest1 sets_timer one]; try lia.
  exfalso. destruct H as [H|[(? & ? & ? & H)|(? & H)]]; try discriminate. exact H.
Qed.

Lemma recv_next tp tp' : signal_recv tp = Ok tp' -> tp_next tp' = tp_next tp.
Proof.
  unfold signal_recv. destruct (get _ _) as [e|]; [|discriminate]. cbn [bind].
  destruct (assert_ _); [|discriminate]. cbn [bind].
  destruct (negb (tp_signaled tp)); [intros E; now injection E as <-|].
  destruct (assert_ _); [|discriminate]. cbn [bind]. intros E; now injection E as <-.
Qed.

Lemma step_aux dbg n0 pipe s es a s' xs : inv n0 pipe s es -> aux n0 pipe s es -> act_ok a ->
  step dbg s a = Some (Ok (s', xs)) -> aux n0 pipe s' (es ++ xs).
Proof.
  intros I0 A0 Ha St. pose proof (step_inv dbg a I0 Ha St) as (I1 & _).
  destruct s as [tp ph]. destruct I0 as (G & P). destruct A0 as (Nx & A0).
  unfold step in St. cbn [s_tp s_ph] in *.
  destruct a as [c|ms c1 c2| |c| |n revs|c].
  - destruct (foreign tp c) eqn:Ff; [discriminate|].
    destruct (do_call dbg tp c) as [[tp' rc]|] eqn:E; [|discriminate]. cbn [bind fst snd] in St.
    injection St as <- <-.
    destruct (call_stays _ _ G Ha Ff E) as ((G' & Ev) & _).
    split; cbn [s_tp s_ph].
    + eapply call_next; eauto. destruct G as (_ & T & _). apply (m_next T).
    + destruct ph as [| | |ms tmo now T snap gen|ms tmo now n]; auto.
      * rewrite steady_snoc. intros Q. apply andb_prop in Q. destruct Q as (Q1 & Q2).
        rewrite (A0 Q1). destruct P as (_ & _ & _ & _ & Ip & _). rewrite Ip in Q2.
        apply negb_true_iff in Q2. cbn [andb] in Q2.
        destruct G as (F & _). symmetry. exact (call_gen dbg _ _ E (f_n0 F) Q2).
      * intros Hn Hr Hl r Hp Hk. destruct Ev as [Eb El Er Ew Em Ep Elv].
        rewrite last_poll_snoc in Hl. cbn [withdrawn1 snd] in Hl.
        apply orb_false_elim in Hl. destruct Hl as (Hl & Hw).
        destruct Er as [[_ Er]|Er]; [|congruence].
        destruct Ep as [Ep|[Wx _]]; [|congruence].
        destruct (A0 Hn ltac:(congruence) Hl r ltac:(congruence) Hk) as (i & e & He & Hi & Hne).
        destruct (Elv Hw i e He Hne) as (e' & He' & Hne'). exists i, e'. auto.
  - destruct ph; try discriminate. injection St as <- <-. split; cbn; auto.
    rewrite cons_snoc. repeat (apply next_silent; [cbn; eauto 6|]); auto.
  - destruct ph as [|ms tmo now| | |]; try discriminate.
    destruct (tp_timers tp) as [|t r] eqn:Et; [discriminate|].
    destruct (negb _); [|discriminate]. injection St as <- <-. split; cbn; auto.
    apply next_silent; [cbn; eauto 6|]; auto.
  - destruct ph as [|ms tmo now| | |]; try discriminate.
    destruct (match tp_timers tp with [] => true | t :: _ => tv_gt (t_tv t) now end) eqn:Ed;
      [|discriminate].
    destruct (compute tp ms tmo now c) as [[[now' T] es0]|] eqn:Ec; [|discriminate].
    cbn [bind] in St. injection St as <- <-. split; cbn; auto.
    destruct P as (Pa & Pc & _).
    destruct (compute_ok G Pa Pc Ha Ec) as (n1 & T1 & x1 & E & Hx & _). injection E as <- <- <-.
    destruct Hx as [[-> _]|[-> _]]; cbn [app]; rewrite cons_snoc.
    + repeat (apply next_silent; [cbn; eauto 6|]); auto.
    + rewrite (cons_snoc (es ++ [EDispatched])). repeat (apply next_silent; [cbn; eauto 6|]); auto.
  - destruct ph as [| |ms tmo now T| |]; try discriminate. injection St as <- <-.
    split; cbn; auto. apply next_silent; [cbn; eauto 6|]; auto.
  - destruct ph as [| | |ms tmo now T snap gen|]; try discriminate.
    destruct (Z.ltb_spec n 0) as [N|N].
    + injection St as <- <-. split; cbn; [apply next_silent; [cbn; eauto 6|]; auto|]. lia.
    + destruct (all2 (rev_ok tp) snap revs && (n =? ready_count revs) &&
                negb ((n =? 0) && (T <? 0))) eqn:V; [|discriminate].
      destruct (Nat.eqb_spec gen (tp_gen tp)) as [->|]; [|discriminate].
      injection St as <- <-. split; cbn [s_tp s_ph]; [apply next_silent; [cbn; eauto 6|]; auto|].
      intros Hn Hr Hl r Hp Hk. destruct I1 as ((F1 & _) & (_ & _ & B)). cbn [s_tp s_ph] in *.
      destruct (B Hn Hr) as (r' & Rp & _ & L). cbn [tp_arr set_fds] in *.
      rewrite Rp in Hp. injection Hp as <-.
      specialize (L (results (firstn (length snap) (store_revents (tp_arr tp) revs)))).
      rewrite last_poll_snoc in L, Hl. cbn [withdrawn1 snd] in L, Hl. rewrite Hl in L.
      specialize (L eq_refl). rewrite L in Hk. unfold count_ready in Hk.
      destruct (filter _ _) as [|x l] eqn:Ef in Hk; [cbn in Hk; lia|].
      assert (Ix : In x (x :: l)) by now left. rewrite <- Ef in Ix. apply filter_In in Ix.
      destruct Ix as (Ix & Fx). destruct x as [fd rv]. cbn [fst snd] in Fx.
      apply andb_prop in Fx. destruct Fx as (Fx & _). apply negb_true_iff, Z.eqb_neq in Fx.
      destruct (results_in _ _ _ Ix) as (i & p & Hi & Efd & Hpos & _).
      apply nth_firstn in Hi. destruct Hi as (Hi & _).
      exists i, p. split; [exact Hi|]. split; [|lia]. intros ->.
      cbn in Hi. rewrite Rp in Hi. injection Hi as <-. cbn in Efd. congruence.
  - destruct ph as [| | | |ms tmo now n]; try discriminate.
    destruct (after dbg tp ms tmo now n c) as [r|] eqn:E; [|discriminate].
    cbn [bind] in St. injection St as <- <-. cbn [fst snd].
    assert (Nx1 : forall tp', tp_next tp' = tp_next tp -> next_ok tp' es)
      by (intros tp' Q; unfold next_ok in *; now rewrite Q).
    unfold after in E.
    destruct (n <? 0). { injection E as <-. split; cbn; auto. apply next_silent; [cbn; eauto 6|]; auto. }
    destruct (tp_realloced _).
    { destruct (signal_recv _) as [tp'|] eqn:Er; [|discriminate]. injection E as <-.
      apply recv_next in Er. split; cbn; auto. apply next_silent; [cbn; eauto 6|]; auto. }
    destruct (get _ _) as [e|]; [|discriminate]. cbn [bind] in E.
    destruct (if negb _ then _ else _) as [[tp' k]|] eqn:Er in E; [|discriminate]. cbn [bind] in E.
    assert (Q : tp_next tp' = tp_next tp).
    { destruct (negb _) in Er.
      - destruct (signal_recv _) as [tp2|] eqn:E2; [|discriminate]. injection Er as <- <-.
        apply recv_next in E2. exact E2.
      - now injection Er as <- <-. }
    apply Nx1 in Q.
    destruct (0 <? k).
    { destruct (assert_if _ _); [|discriminate]. injection E as <-. split; cbn; auto.
      apply next_silent; [cbn; eauto 6|]; auto. }
    destruct (_ || _). { injection E as <-. split; cbn; auto. apply next_silent; [cbn; eauto 6|]; auto. }
    destruct (_ && _).
    { injection E as <-. split; cbn; auto. rewrite cons_snoc. repeat (apply next_silent; [cbn; eauto 6|]); auto. }
    injection E as <-. split; cbn; auto. apply next_silent; [cbn; eauto 6|]; auto.
Qed.

Lemma after_fine dbg n0 pipe tp es ms tmo now n c :
  good n0 pipe tp es -> ph_ok pipe tp es (Back ms tmo now n) ->
  aux n0 pipe (mkSys tp (Back ms tmo now n)) es ->
  (dbg = true -> snd (last_poll es) = false) -> fine (after dbg tp ms tmo now n c).
Proof.
  intros G (_ & _ & B) (_ & A) Hd. cbn [s_tp s_ph] in A. unfold after.
  assert (Gb : good n0 pipe (set_blocked tp false) es) by now apply good_blocked.
  destruct (Z.ltb_spec n 0) as [N0|N0]; [apply fine_ok|].
  destruct (tp_realloced (set_blocked tp false)) eqn:Er.
  { destruct (recv_spec (@good_realloced _ _ _ _ false Gb)) as (tp' & -> & _). apply fine_ok. }
  cbn in Er. destruct (B N0 Er) as (rv & R & K & Lp).
  assert (Gp : get (tp_arr (set_blocked tp false)) (tp_pipe (set_blocked tp false)) =
               Ok (mkPfd (Z.of_nat pipe) POLLIN rv)).
  { cbn. destruct G as (F & _). rewrite (f_pipe F). now apply get_ok. }
  rewrite Gp. cbn [bind p_revents]. fold (has rv POLLIN).
  set (rr := if has rv POLLIN then _ else _).
  assert (X : exists tp', rr = Ok (tp', n - one (has rv POLLIN)) /\ tp_used tp' = tp_used tp).
  { unfold rr. destruct (has rv POLLIN).
    - destruct (recv_spec Gb) as (tp' & E1 & G' & U & T). exists tp'. rewrite E1. cbn. auto.
    - exists (set_blocked tp false). cbn [one]. rewrite Z.sub_0_r. auto. }
  destruct X as (tp' & -> & U). cbn [bind].
  destruct (Z.ltb_spec 0 (n - one (has rv POLLIN))) as [Kp|Kp].
  - assert (assert_if dbg (0 <? tp_used tp') = Ok tt) as ->; [|apply fine_ok].
    destruct dbg; [|reflexivity]. rewrite U.
    destruct G as (F & _). pose proof (live_used F (A N0 Er (Hd eq_refl) rv R Kp)).
    destruct (Z.ltb_spec 0 (tp_used tp)); [reflexivity|lia].
  - destruct (_ || _); [apply fine_ok|]. destruct (_ && _); apply fine_ok.
Qed.

Lemma compute_fine n0 pipe tp es ms tmo now c : good n0 pipe tp es -> args es ms tmo ->
  tv_ok c -> near es (us c) -> fine (compute tp ms tmo now c).
Proof.
  intros (F & T0 & S) (fin & Hc & Ht) Hck (N1 & N2). destruct T0 as [Th Tn Ti Tx].
  rewrite Hc in N2. unfold compute. destruct (Z.eqb_spec ms 0) as [->|M0]; [apply fine_ok|].
  assert (D1 : 0 < ms -> fine (diff_timeval tmo c)).
  { intros M. destruct (Ht M) as (O & E). specialize (N2 M). rewrite <- E in N2.
    destruct (diff_ok O Hck N2) as (d & -> & _). apply fine_ok. }
  destruct (tp_timers tp) as [|t l] eqn:Et.
  - destruct (Z.ltb_spec ms 0); [apply fine_ok|].
    apply fine_bind; [apply D1; lia|]. intros. apply fine_ok.
  - assert (D2 : fine (diff_timeval (t_tv t) c)).
    { assert (O : tv_ok (t_tv t)) by (destruct Th as (_ & _ & O); now inversion O).
      assert (I1 : In (conv t) (pending es)).
      { apply (holds_in Th). now left. }
      rewrite Forall_forall in N1. specialize (N1 _ I1). cbn [conv d_due] in N1.
      destruct (diff_ok O Hck N1) as (d & -> & _). apply fine_ok. }
    apply fine_bind; [|intros; apply fine_ok].
    destruct (Z.ltb_spec ms 0); [exact D2|].
    destruct (negb _); [exact D2|]. apply D1. lia.
Qed.

Lemma step_fine dbg n0 pipe s es a r : inv n0 pipe s es -> aux n0 pipe s es -> act_ok a ->
  careful dbg n0 es a -> step dbg s a = Some r -> fine r.
Proof.
  destruct s as [tp ph]. intros (G & P) Ax Ha Hc. unfold step. cbn [s_tp s_ph] in *.
  assert (Hpipe : tp_pipe tp = pipe) by (destruct G as (F & _); apply (f_pipe F)).
  destruct a as [c|ms c1 c2| |c| |n revs|c].
  - destruct (foreign tp c) eqn:Ff; [discriminate|]. intros E; injection E as <-.
    assert (X : fine (do_call dbg tp c)).
    { destruct c as [fd ev room|fd ev|fd ev|f a tv|f a ms ck|id|how]; cbn [do_call foreign] in *;
        rewrite ?Hpipe in Ff; try apply Z.eqb_neq in Ff.
      - destruct Hc. eapply set_fine; eauto.
      - eapply clear_fine; eauto.
      - apply fine_bind; [eapply isset_fine; eauto|]. intros; apply fine_ok.
      - unfold timeout_absolute. destruct (f =? 0); [apply fine_ok|].
        destruct Ax as (Nx & _). unfold next_ok in Nx. cbn [s_tp] in Nx. unfold careful in Hc. unfold INT_MAX.
        destruct (Z.eqb_spec (tp_next tp) 2147483647); [lia|]. apply fine_ok.
      - unfold timeout_relative, timeout_absolute. destruct (f =? 0); [apply fine_ok|].
        destruct Ax as (Nx & _). unfold next_ok in Nx. cbn [s_tp] in Nx. unfold careful in Hc. unfold INT_MAX.
        destruct (Z.eqb_spec (tp_next tp) 2147483647); [lia|]. apply fine_ok.
      - unfold timeout_cancel. destruct (id <=? 0); [apply fine_ok|].
        destruct (existsb _ _); apply fine_ok.
      - eapply zero_fine; eauto. }
    apply fine_bind; [exact X|]. intros; apply fine_ok.
  - destruct ph; try discriminate. intros E; injection E as <-. apply fine_ok.
  - destruct ph; try discriminate. destruct (tp_timers tp); [discriminate|].
    destruct (negb _); [|discriminate]. intros E; injection E as <-. apply fine_ok.
  - destruct ph as [|ms tmo now| | |]; try discriminate.
    destruct (match tp_timers tp with [] => true | t :: _ => tv_gt (t_tv t) now end); [|discriminate].
    intros E; injection E as <-. apply fine_bind.
    + destruct P as (Pa & _). eapply compute_fine; eauto.
    + intros [[? ?] ?] _. apply fine_ok.
  - destruct ph; try discriminate. intros E; injection E as <-. apply fine_ok.
  - destruct ph as [| | |ms tmo now T snap gen|]; try discriminate.
    destruct (n <? 0); [intros E; injection E as <-; apply fine_ok|].
    destruct (_ && _); [|discriminate]. intros E; injection E as <-.
    destruct Ax as (_ & Ax). cbn [s_ph s_tp] in Ax. rewrite (Ax Hc), Nat.eqb_refl. apply fine_ok.
  - destruct ph as [| | | |ms tmo now n]; try discriminate. intros E; injection E as <-.
    apply fine_bind; [eapply after_fine; eauto|]. intros; apply fine_ok.
Qed.

Lemma run_aux dbg n0 pipe : forall acts s es s' xs, inv n0 pipe s es -> aux n0 pipe s es ->
  Forall act_ok acts -> run dbg s acts = Some (Ok (s', xs)) -> aux n0 pipe s' (es ++ xs).
Proof.
  induction acts as [|a acts IH]; intros s es s' xs I0 A0 Ha; cbn [run].
  - intros E; injection E as <- <-. now rewrite app_nil_r.
  - inversion Ha; subst. destruct (step dbg s a) as [[[s1 e1]|]|] eqn:E1; try discriminate.
    destruct (step_inv dbg a I0 H1 E1) as (I1 & T1).
    pose proof (step_aux dbg a I0 A0 H1 E1) as A1.
    destruct (run dbg s1 acts) as [[[s2 e2]|]|] eqn:E2; try discriminate.
    intros E; injection E as <- <-. rewrite app_assoc. eapply IH; eauto.
Qed.

Lemma start_aux n pipe s : start n pipe = Ok s -> aux (table_size n) pipe s [].
Proof.
  unfold start, tpoll_create, tpoll_init. cbn [tp_alloc].
  destruct (assert_ _); [|discriminate]. cbn [bind].
  change (Z.land 3 (Z.lnot 3) =? 0) with true. change (has 3 1) with true. change (has 3 2) with true.
  cbn [assert_ bind]. destruct (put _ _ _); [|discriminate]. cbn [bind].
  intros E; injection E as <-. split; cbn; [unfold next_ok; cbn; lia|exact I].
Qed.
Lemma start_inv' n pipe s : start n pipe = Ok s -> inv (table_size n) pipe s [].
Proof. apply start_inv. Qed.

Lemma start_fine n pipe : (pipe < table_size n)%nat -> exists s, start n pipe = Ok s.
Proof.
  intros H. unfold start, tpoll_create, tpoll_init. cbn [tp_alloc].
  change (Z.to_nat (if n <=? 0 then Z.of_nat TPOLL_ALLOC else n)) with (table_size n).
  destruct (Nat.ltb_spec 0 (table_size n)); [|lia]. cbn [assert_ bind].
  change (Z.land 3 (Z.lnot 3) =? 0) with true. change (has 3 1) with true. change (has 3 2) with true.
  cbn [assert_ bind tp_pipe].
  destruct (@put_ok _ (repeat free_pfd (table_size n)) pipe
    (mkPfd (Z.of_nat pipe) POLLIN 0)) as (a & ->); [now rewrite repeat_length|].
  cbn. eauto.
Qed.


(** ids are new *)
Lemma call_new dbg tp c tp' rc es : do_call dbg tp c = Ok (tp', rc) -> next_ok tp es ->
  new_id es (ECall c rc).
Proof.
  intros E (N & _). destruct c; cbn [new_id]; auto; cbn [do_call] in E;
    unfold timeout_relative, timeout_absolute in E;
    (destruct (Z.eqb_spec fnc 0); [now left|right]);
    (destruct (tp_next tp =? INT_MAX); [discriminate|]); injection E as <- <-; exact N.
Qed.

Lemma step_new dbg n0 pipe s es a s' xs : inv n0 pipe s es -> aux n0 pipe s es ->
  step dbg s a = Some (Ok (s', xs)) ->
  forall past e rest, xs = past ++ e :: rest -> new_id (es ++ past) e.
Proof.
  intros I0 (Nx & _) St.
  assert (Q : forall past e rest, xs = past ++ e :: rest ->
     (exists c rc, xs = [ECall c rc] /\ do_call dbg (s_tp s) c = Ok (s_tp s', rc)) \/
     Forall (fun e => match e with ECall _ _ => False | _ => True end) xs).
  { intros _ _ _ _. destruct s as [tp ph]. unfold step in St. cbn [s_tp s_ph] in *.
    destruct a as [c|ms c1 c2| |c| |n revs|c].
    - destruct (foreign tp c); [discriminate|].
      destruct (do_call dbg tp c) as [[tp' rc]|] eqn:Ec; [|discriminate]. cbn [bind fst snd] in St.
      injection St as <- <-. left. exists c, rc. auto.
    - destruct ph; try discriminate. injection St as <- <-. right. repeat constructor.
    - destruct ph; try discriminate. destruct (tp_timers tp); [discriminate|].
      destruct (negb _); [|discriminate]. injection St as <- <-. right. repeat constructor.
    - destruct ph as [|ms tmo now| | |]; try discriminate.
      destruct (match tp_timers tp with [] => true | t :: _ => tv_gt (t_tv t) now end); [|discriminate].
      destruct (compute tp ms tmo now c) as [[[now' T] es0]|] eqn:Ec; [|discriminate].
      cbn [bind] in St. injection St as <- <-. right.
      assert (Forall (fun e => match e with ECall _ _ => False | _ => True end) es0) as H0.
      { unfold compute in Ec. destruct (ms =? 0); [injection Ec as <- <- <-; constructor|].
        destruct (tp_timers tp).
        - destruct (ms <? 0); [injection Ec as <- <- <-; constructor|].
          destruct (diff_timeval _ _); [|discriminate]. injection Ec as <- <- <-. repeat constructor.
        - destruct (if ms <? 0 then _ else _); [|discriminate].
          injection Ec as <- <- <-. repeat constructor. }
      constructor; [exact I|]. apply Forall_app. split; [exact H0|]. repeat constructor.
    - destruct ph; try discriminate. injection St as <- <-. right. repeat constructor.
    - destruct ph; try discriminate. destruct (n <? 0).
      + injection St as <- <-. right. repeat constructor.
      + destruct (_ && _); [|discriminate]. destruct (gen =? tp_gen tp)%nat; [|discriminate].
        injection St as <- <-. right. repeat constructor.
    - destruct ph as [| | | |ms tmo now n]; try discriminate.
      destruct (after dbg tp ms tmo now n c) as [r|] eqn:E; [|discriminate].
      cbn [bind] in St. injection St as <- <-. right. unfold after in E.
      destruct (n <? 0); [injection E as <-; repeat constructor|].
      destruct (tp_realloced _).
      { destruct (signal_recv _); [|discriminate]. injection E as <-. repeat constructor. }
      destruct (get _ _) as [e|]; [|discriminate]. cbn [bind] in E.
      destruct (if negb _ then _ else _) as [[tp' k]|] in E; [|discriminate]. cbn [bind] in E.
      destruct (0 <? k).
      { destruct (assert_if _ _); [|discriminate]. injection E as <-. repeat constructor. }
      destruct (_ || _); [injection E as <-; repeat constructor|].
      destruct (_ && _); injection E as <-; repeat constructor. }
  intros past e rest E. destruct (Q _ _ _ E) as [(c & rc & -> & Ec)|F].
  - destruct past as [|? [|? ?]]; cbn in E; try discriminate. injection E as <- <-.
    rewrite app_nil_r. eapply call_new; eauto.
  - rewrite E in F. apply Forall_app in F. destruct F as (_ & F). inversion F; subst.
    destruct e; cbn; auto. contradiction.
Qed.

(** position of an event in two concatenated lists *)
Lemma split_two {A} (e1 e2 past rest : list A) e : e1 ++ e2 = past ++ e :: rest ->
  (exists r1, e1 = past ++ e :: r1) \/ (exists p2, past = e1 ++ p2 /\ e2 = p2 ++ e :: rest).
Proof.
  revert past. induction e1 as [|x e1 IH]; intros past Q; cbn in Q.
  - right. exists past. auto.
  - destruct past as [|y past]; cbn in Q; injection Q as -> Q.
    + left. exists e1. reflexivity.
    + destruct (IH _ Q) as [(r1 & ->)|(p2 & -> & ->)]; [left|right].
      * exists r1. reflexivity.
      * exists p2. auto.
Qed.

Lemma run_new dbg n0 pipe : forall acts s es s' xs, inv n0 pipe s es -> aux n0 pipe s es ->
  Forall act_ok acts -> run dbg s acts = Some (Ok (s', xs)) ->
  forall past e rest, xs = past ++ e :: rest -> new_id (es ++ past) e.
Proof.
  induction acts as [|a acts IH]; intros s es s' xs I0 A0 Ha; cbn [run].
  - intros E; injection E as <- <-. intros [|? ?] ? ? ?; discriminate.
  - inversion Ha; subst. destruct (step dbg s a) as [[[s1 e1]|]|] eqn:E1; try discriminate.
    destruct (step_inv dbg a I0 H1 E1) as (I1 & T1).
    pose proof (step_aux dbg a I0 A0 H1 E1) as A1.
    destruct (run dbg s1 acts) as [[[s2 e2]|]|] eqn:E2; try discriminate.
    intros E; injection E as <- <-. intros past e rest Q.
    apply split_two in Q; destruct Q as [(r1 & R)|(p2 & -> & R)].
    + eapply step_new; [exact I0|exact A0|exact E1|exact R].
    + rewrite app_assoc. eapply IH; eauto.
Qed.

(** ** What a pending timer is *)

Lemma pend1_in l e p : In p (pend1 l e) <-> setting p e \/ In p l /\ ~ ending (d_id p) e.
Proof.
  destruct e as [[]| | | | | | | | | |]; cbn [pend1 setting ending]; try tauto.
  - destruct (Z.ltb_spec 0 rc); [rewrite in_app_iff; cbn; intuition|].
    split; [tauto|]. intros [[_ ?]|[? _]]; [lia|assumption].
  - destruct (Z.ltb_spec 0 rc); [rewrite in_app_iff; cbn; intuition|].
    split; [tauto|]. intros [[_ ?]|[? _]]; [lia|assumption].
  - rewrite filter_In. destruct (Z.eqb_spec (d_id p) id); cbn [negb]; intuition congruence.
  - destruct (Z.eqb_spec rc 0); cbn [andb].
    + destruct (Z.testbit how 1) eqn:B; cbn; intuition congruence.
    + intuition.
  - rewrite filter_In. destruct (Z.eqb_spec (d_id p) id); cbn [negb]; intuition congruence.
Qed.

Lemma pending_in es p : In p (pending es) <->
  exists a e b, es = a ++ e :: b /\ setting p e /\ forall x, In x b -> ~ ending (d_id p) x.
Proof.
  induction es as [|x es IH] using rev_ind.
  - split; [intros []|]. intros ([|? ?] & x & b & E & _); discriminate E.
  - rewrite pending_snoc, pend1_in, IH. split.
    + intros [S|((a & e & b & -> & S & N) & Hx)].
      * exists es, x, []. split; [reflexivity|]. split; [exact S|]. intros y [].
      * exists a, e, (b ++ [x]). rewrite <- app_assoc. split; [reflexivity|]. split; [exact S|].
        intros y Hy. apply in_app_or in Hy. destruct Hy as [Hy|[<-|[]]]; auto.
    + intros (a & e & b & E & S & N).
      destruct b as [|y b _] using rev_ind.
      * apply app_inj_tail in E. destruct E as (-> & ->). now left.
      * rewrite app_comm_cons, app_assoc in E. apply app_inj_tail in E. destruct E as (-> & ->).
        right. split; [|apply N; apply in_or_app; right; now left].
        exists a, e, b. split; [reflexivity|]. split; [exact S|]. intros z Hz. apply N.
        apply in_or_app; now left.
Qed.

Lemma pending_nodup es : every id_ok es -> NoDup (map d_id (pending es)).
Proof.
  induction es as [|x es IH] using rev_ind; intros H; [constructor|].
  assert (H0 : every id_ok es).
  { intros past e rest E. apply (H past e (rest ++ [x])). rewrite E, <- app_assoc. reflexivity. }
  specialize (IH H0). assert (Hx : id_ok es x) by (apply (H es x []); reflexivity).
  rewrite pending_snoc.
  assert (AD : forall rc f d due, 0 < rc /\ ~ In rc (map d_id (pending es)) ->
     NoDup (map d_id (pending es ++ [mkP rc f d due]))).
  { intros rc f d due (_ & NI). rewrite map_app. cbn [map d_id].
    apply NoDup_Add with (l := map d_id (pending es)) (a := rc).
    - rewrite <- (app_nil_r (map d_id (pending es))) at 1. apply Add_app.
    - auto. }
  destruct x as [[]| | | | | | | | | |]; cbn [pend1 id_ok] in *; auto.
  - destruct (fnc =? 0); [subst rc; exact IH|].
    destruct (0 <? rc); [now apply AD|exact IH].
  - destruct (fnc =? 0); [subst rc; exact IH|].
    destruct (0 <? rc); [now apply AD|exact IH].
  - now apply nodup_without.
  - destruct (_ && _); [constructor|exact IH].
  - now apply nodup_without.
Qed.

Lemma nodup_id (l : list ptimer) p q : NoDup (map d_id l) -> In p l -> In q l -> d_id p = d_id q -> p = q.
Proof.
  induction l as [|x l IH]; cbn [map]; intros N Hp Hq E; [destruct Hp|].
  inversion N as [|? ? NI N']; subst.
  destruct Hp as [->|Hp], Hq as [->|Hq]; auto.
  - exfalso. apply NI. rewrite E. now apply in_map.
  - exfalso. apply NI. rewrite <- E. now apply in_map.
Qed.

Lemma ending_dec id e : ending id e \/ ~ ending id e.
Proof.
  destruct e as [[]| | | | | | | | | |]; cbn [ending]; try tauto; try lia.
  destruct (Z.eq_dec rc 0) as [->|]; [destruct (Z.testbit how 1); [now left; auto|right; intros [_ ?]; discriminate]|tauto].
Qed.

(** the first end of a timer in a list *)
Lemma first_ending id l : (forall x, In x l -> ~ ending id x) \/
  exists a x b, l = a ++ x :: b /\ ending id x /\ forall y, In y a -> ~ ending id y.
Proof.
  induction l as [|x l IH]; [left; intros ? []|].
  destruct (ending_dec id x) as [Ex|Nx].
  - right. exists [], x, l. split; [reflexivity|]. split; [exact Ex|]. intros ? [].
  - destruct IH as [IH|(a & y & b & -> & Ey & N)].
    + left. intros y [<-|Hy]; auto.
    + right. exists (x :: a), y, b. split; [reflexivity|]. split; [exact Ey|].
      intros z [<-|Hz]; auto.
Qed.

(** a timer that has become due fires exactly then, unless cancelled *)
Lemma due_fires es : every fire_ok es -> every id_ok es -> every dispatched_ok es ->
  forall a e b c p now, es = a ++ e :: b ++ EDispatched :: c -> setting p e ->
  (forall x, In x b -> ending (d_id p) x -> exists f g, x = EFire (d_id p) f g) ->
  last_clock (a ++ e :: b) = Some now -> d_due p <= now ->
  In (EFire (d_id p) (d_fnc p) (d_arg p)) b.
Proof.
  intros HF HI HD a e b c p now E S N C D.
  destruct (first_ending (d_id p) b) as [Nb|(b1 & x & b2 & -> & Ex & Nb)].
  - exfalso. assert (P : In p (pending (a ++ e :: b))) by (apply pending_in; exists a, e, b; auto).
    destruct (HD (a ++ e :: b) EDispatched c) as (_ & t & Ct & F).
    { rewrite E, <- app_assoc. reflexivity. }
    rewrite C in Ct. injection Ct as <-. rewrite Forall_forall in F. specialize (F _ P). lia.
  - destruct (N x) as (f & g & ->); [apply in_or_app; right; now left|exact Ex|].
    assert (E' : es = (a ++ e :: b1) ++ EFire (d_id p) f g :: b2 ++ EDispatched :: c).
    { rewrite E, <- !app_assoc. reflexivity. }
    assert (P : In p (pending (a ++ e :: b1))) by (apply pending_in; exists a, e, b1; auto).
    destruct (HF _ _ _ E') as (u & v & due & t & Pe & _).
    assert (Q : In (mkP (d_id p) f g due) (pending (a ++ e :: b1))).
    { rewrite Pe. apply in_or_app. right. now left. }
    assert (Nd : NoDup (map d_id (pending (a ++ e :: b1)))).
    { apply pending_nodup. intros past y rest Ey. apply (HI past y (rest ++ EFire (d_id p) f g :: b2 ++ EDispatched :: c)).
      rewrite E', Ey, <- app_assoc. reflexivity. }
    pose proof (nodup_id _ _ _ Nd Q P eq_refl) as Eq. apply in_or_app. right. left.
    rewrite <- Eq. reflexivity.
Qed.

(** ** Waking up *)

Lemma woken_ok pipe snap bytes : indexed 0 snap ->
  (exists r, nth_error snap pipe = Some (mkPfd (Z.of_nat pipe) POLLIN r)) ->
  forall tp, tp_pipe tp = pipe -> tp_bytes tp = S bytes ->
  all2 (rev_ok tp) snap (woken pipe snap) = true /\ ready_count (woken pipe snap) = 1.
Proof.
  intros Ix (r & Hr) tp Hp Hb.
  assert (X : forall l off, indexed off l ->
    (forall i p, nth_error l i = Some p -> (off + i)%nat = pipe -> p_events p = POLLIN) ->
    all2 (rev_ok tp) l (woken pipe l) = true).
  { induction l as [|p l IH]; intros off I0 He; [reflexivity|]. cbn [woken map all2].
    apply andb_true_intro. split.
    - unfold rev_ok. rewrite Hp. destruct (Z.eqb_spec (p_fd p) (Z.of_nat pipe)) as [E|E].
      + destruct (Z.ltb_spec (p_fd p) 0); [lia|]. rewrite Hb. cbn [Nat.eqb].
        assert (p_events p = POLLIN) as ->; [|reflexivity].
        apply (He O p eq_refl). destruct (indexed_head I0); lia.
      + destruct (Z.ltb_spec (p_fd p) 0); [reflexivity|]. now rewrite Z.land_0_l.
    - apply (IH (S off)); [now apply indexed_tail in I0|]. intros i q Hq Hi.
      apply (He (S i) q Hq). lia. }
  split.
  - apply (X snap O Ix). intros i p Hi E. cbn in E. subst i. rewrite Hr in Hi. now injection Hi as <-.
  - assert (Y : forall l off, indexed off l ->
      ready_count (woken pipe l) = if ((off <=? pipe) && (pipe <? off + length l))%nat then
         one (match nth_error l (pipe - off) with Some p => -1 <? p_fd p | None => false end) else 0).
    { unfold ready_count. induction l as [|p l IH]; intros off I0.
      - cbn [woken map filter length]. destruct (Nat.leb_spec off pipe), (Nat.ltb_spec pipe (off + 0)); try reflexivity. lia.
      - cbn [woken map filter]. specialize (IH (S off) (indexed_tail I0)). unfold woken in IH.
        destruct (Nat.leb_spec off pipe) as [L|L]; cbn [andb].
        + destruct (Nat.eq_dec off pipe) as [->|Ne].
          * rewrite Nat.sub_diag. cbn [nth_error length].
            destruct (Nat.ltb_spec pipe (pipe + S (length l))); [|lia].
            destruct (Nat.leb_spec (S pipe) pipe); [lia|]. cbn [andb] in IH.
            destruct (Z.eqb_spec (p_fd p) (Z.of_nat pipe)) as [E|E].
            -- rewrite E. change (negb (POLLIN =? 0)) with true. cbn [length].
               destruct (Z.ltb_spec (-1) (Z.of_nat pipe)); [|lia]. cbn [one]. lia.
            -- cbn [negb Z.eqb]. destruct (indexed_head I0) as [Q|Q]; [|contradiction].
               rewrite Q. cbn [one Z.ltb Z.compare]. exact IH.
          * destruct (Z.eqb_spec (p_fd p) (Z.of_nat pipe)) as [E|E].
            { destruct (indexed_head I0); lia. }
            cbn [negb Z.eqb]. rewrite IH. cbn [length].
            destruct (Nat.leb_spec (S off) pipe); [|lia]. cbn [andb].
            replace (off + S (length l))%nat with (S off + length l)%nat by lia.
            replace (pipe - off)%nat with (S (pipe - S off)) by lia. reflexivity.
        + destruct (Z.eqb_spec (p_fd p) (Z.of_nat pipe)) as [E|E].
          { destruct (indexed_head I0); lia. }
          cbn [negb Z.eqb]. rewrite IH. destruct (Nat.leb_spec (S off) pipe); [lia|reflexivity]. }
    rewrite (Y snap O Ix), Nat.sub_0_r, Hr. cbn [p_fd].
    assert (pipe < length snap)%nat by (apply nth_error_Some; congruence).
    destruct (Nat.leb_spec 0 pipe); [|lia].
    destruct (Nat.ltb_spec pipe (0 + length snap)); [|lia]. cbn [andb].
    destruct (Z.ltb_spec (-1) (Z.of_nat pipe)); [reflexivity|lia].
Qed.
