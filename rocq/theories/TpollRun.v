(** Runs of the tpoll transition system keep the invariant. *)
From Verif Require Import Base BaseProof TpollModel TpollSpec TpollProof TpollInv.
From Coq Require Import Sorted.
Open Scope Z_scope.
Set Implicit Arguments.

Definition args (es : list event) (ms : Z) (tmo : timeval) : Prop :=
  exists fin, called es = Some (ms, fin) /\ (0 < ms -> tv_ok tmo /\ us tmo = fin).
Definition clk (es : list event) (now : timeval) : Prop :=
  last_clock es = Some (us now) /\ tv_ok now.

Definition fin_near (es : list event) (now : Z) : Prop :=
  match called es with
  | Some (ms, fin) => 0 < ms -> Z.abs (fin - now) <= HORIZON
  | None => True
  end.

Definition timely (tp : tpoll) (es : list event) (now T : Z) : Prop :=
  match hd_error (tp_timers tp) with
  | None => True
  | Some t =>
      Z.abs (us (t_tv t) - now) <= HORIZON -> fin_near es now ->
      0 <= T /\ now + 1000 * T <= Z.max now (us (t_tv t)) + 1000
  end.

Record snap_ok (pipe : nat) (tp : tpoll) (es : list event) (snap : list pollfd) : Prop := {
  sn_pipe : exists r, nth_error snap pipe = Some (mkPfd (Z.of_nat pipe) POLLIN r);
  sn_len : (length snap <= length (tp_arr tp))%nat;
  sn_fd : forall i p, nth_error snap i = Some p -> p_fd p = -1 \/ p_fd p = Z.of_nat i;
  sn_same : (0 < tp_bytes tp)%nat \/ poll_ok pipe es (EPoll (interests snap));
  sn_live : snd (last_poll es) = false -> forall i p, nth_error snap i = Some p ->
    p_fd p <> -1 -> exists e, nth_error (tp_arr tp) i = Some e /\ p_fd e <> -1 }.

Definition back_ok (pipe : nat) (tp : tpoll) (es : list event) (n : Z) : Prop :=
  0 <= n -> tp_realloced tp = false ->
  exists r, nth_error (tp_arr tp) pipe = Some (mkPfd (Z.of_nat pipe) POLLIN r) /\
    0 <= n - one (has r POLLIN) /\
    forall l, last_poll es = (Some l, false) -> n - one (has r POLLIN) = count_ready pipe l.

Definition ph_ok (pipe : nat) (tp : tpoll) (es : list event) (ph : phase) : Prop :=
  match ph with
  | Idle => True
  | Disp ms tmo now => args es ms tmo /\ clk es now /\ fresh es = true
  | Ready ms tmo now T =>
      args es ms tmo /\ clk es now /\ tp_blocked tp = true /\
      ((0 < tp_bytes tp)%nat \/ timely tp es (us now) T)
  | Polling ms tmo now T snap gen =>
      args es ms tmo /\ clk es now /\ tp_blocked tp = true /\
      ((0 < tp_bytes tp)%nat \/ timely tp es (us now) T) /\
      in_poll es = true /\ snap_ok pipe tp es snap
  | Back ms tmo now n => args es ms tmo /\ clk es now /\ back_ok pipe tp es n
  end.

Definition inv (n0 pipe : nat) (s : sys) (es : list event) : Prop :=
  good n0 pipe (s_tp s) es /\ ph_ok pipe (s_tp s) es (s_ph s).

Definition all_ok (pipe : nat) (past : list event) (e : event) : Prop :=
  fire_ok past e /\ id_ok past e /\ poll_ok pipe past e /\ isset_ok past e /\
  wait_ok past e /\ dispatched_ok past e /\ return_ok pipe past e.

Definition trace_ok (pipe : nat) (es xs : list event) : Prop :=
  forall past e rest, xs = past ++ e :: rest -> all_ok pipe (es ++ past) e.

Lemma trace_nil pipe es : trace_ok pipe es [].
Proof. intros [|? ?] x rest H; discriminate. Qed.
Lemma trace_cons pipe es e xs : all_ok pipe es e -> trace_ok pipe (es ++ [e]) xs ->
  trace_ok pipe es (e :: xs).
Proof.
  intros H T [|x past] e' rest E; cbn in E; injection E as -> ->.
  - now rewrite app_nil_r.
  - rewrite cons_snoc. eapply T. reflexivity.
Qed.

Lemma calm_poll es : in_poll es = true -> undisturbed es = true -> snd (last_poll es) = false.
Proof.
  induction es as [|e es IH] using rev_ind; [discriminate|].
  rewrite in_poll_snoc, undisturbed_snoc, last_poll_snoc. intros I U.
  apply andb_prop in U. destruct U as [U W].
  destruct e; cbn in *; try discriminate; try (apply IH; assumption);
    try (rewrite orb_false_r; apply IH; assumption); try reflexivity.
  rewrite (IH I U). cbn. rewrite I in W. cbn in W. now apply negb_true_iff in W.
Qed.

(** a call by any thread, in any phase *)
Lemma ph_call n0 pipe tp es tp' c rc ph : good n0 pipe tp es ->
  stays n0 pipe tp es tp' (ECall c rc) -> ph_ok pipe tp es ph ->
  ph_ok pipe tp' (es ++ [ECall c rc]) ph.
Proof.
  intros G (G' & [Eb El Er Ew Em Ep Ev]) H. set (x := ECall c rc) in *.
  assert (A : forall ms tmo, args es ms tmo -> args (es ++ [x]) ms tmo).
  { intros ms tmo (fin & F & X). exists fin. rewrite called_snoc. cbn. auto. }
  assert (C : forall now, clk es now -> clk (es ++ [x]) now).
  { intros now (X & Y). split; [|exact Y]. rewrite clock_snoc. exact X. }
  assert (W : forall now T, tp_blocked tp = true ->
    ((0 < tp_bytes tp)%nat \/ timely tp es (us now) T) ->
    ((0 < tp_bytes tp')%nat \/ timely tp' (es ++ [x]) (us now) T)).
  { intros now T B [K|K]; [left; lia|]. destruct Ew as [Ew|[Ew _]]; [left; auto|right].
    unfold timely, fin_near in *. rewrite Ew, called_snoc. exact K. }
  destruct ph as [|ms tmo now|ms tmo now T|ms tmo now T snap gen|ms tmo now n]; cbn [ph_ok] in *.
  - exact I.
  - destruct H as (H1 & H2 & H3). rewrite fresh_snoc. cbn. auto.
  - destruct H as (H1 & H2 & H3 & H4). rewrite Eb. auto.
  - destruct H as (H1 & H2 & H3 & H4 & H5 & H6). rewrite Eb.
    rewrite in_poll_snoc. cbn [in_poll1]. repeat (split; [auto|]).
    destruct H6 as [S1 S2 S3 S4 S5]. constructor; auto.
    + lia.
    + destruct S4 as [S4|S4]; [left; lia|]. destruct Ew as [Ew|[_ Ew]]; [left; auto|right].
      cbn in *. destruct S4 as (N & S4). split; [exact N|]. intros fd ev. rewrite S4, Ew. tauto.
    + rewrite last_poll_snoc. unfold x at 1. cbn [withdrawn1 snd]. fold x.
      intros Q. apply orb_false_elim in Q. destruct Q as [Q1 Q2].
      intros i p Hi Hp. destruct (S5 Q1 i p Hi Hp) as (e & He & Hne).
      exact (Ev Q2 i e He Hne).
  - destruct H as (H1 & H2 & H3). split; [auto|]. split; [auto|].
    intros Hn Hr. destruct Er as [[_ Er]|Er]; [|congruence].
    destruct H3 as (r & R & K & L); [exact Hn|congruence|].
    destruct Ep as [Ep|[Wx Ep]].
    + exists r. rewrite Ep. split; [exact R|]. split; [exact K|]. intros l Hl.
      rewrite last_poll_snoc in Hl. unfold x in Hl. cbn [withdrawn1] in Hl. fold x in Hl.
      injection Hl as Hl1 Hl2. apply orb_false_elim in Hl2. destruct Hl2 as [Hl2 _].
      apply L. destruct (last_poll es); cbn in *; congruence.
    + exists 0. split; [exact Ep|]. cbn. split; [lia|]. intros l Hl.
      rewrite last_poll_snoc in Hl. unfold x in Hl. cbn [withdrawn1] in Hl. fold x in Hl.
      rewrite Wx in Hl. rewrite orb_true_r in Hl. discriminate.
Qed.

(** ** Lists of poll entries *)

(** entry number [i] is free or holds descriptor [off + i] *)
Definition indexed (off : nat) (l : list pollfd) : Prop :=
  forall i p, nth_error l i = Some p -> p_fd p = -1 \/ p_fd p = Z.of_nat (off + i).

Lemma indexed_tail off p l : indexed off (p :: l) -> indexed (S off) l.
Proof.
  intros H i q Hq. replace (S off + i)%nat with (off + S i)%nat by lia. now apply H.
Qed.
Lemma indexed_head off p l : indexed off (p :: l) -> p_fd p = -1 \/ p_fd p = Z.of_nat off.
Proof.
  intros H. replace off with (off + 0)%nat by lia. now apply H.
Qed.

Lemma interests_nodup l : forall off, indexed off l ->
  NoDup (map fst (interests l)) /\
  Forall (fun fd => Z.of_nat off <= fd) (map fst (interests l)).
Proof.
  unfold interests. induction l as [|p l IH]; intros off H; [split; constructor|].
  destruct (IH _ (indexed_tail H)) as (N & F). cbn [filter].
  assert (F' : Forall (fun fd => Z.of_nat off <= fd)
     (map fst (map (fun p => (p_fd p, p_events p)) (filter (fun p => -1 <? p_fd p) l)))).
  { eapply Forall_impl; [|exact F]. cbn; intros; lia. }
  destruct (Z.ltb_spec (-1) (p_fd p)) as [U|U]; [|auto]. cbn [map fst].
  destruct (indexed_head H) as [E|E]; [lia|]. rewrite E. split; constructor; auto; try lia.
  intros C. rewrite Forall_forall in F. specialize (F _ C). lia.
Qed.

Lemma interests_in l fd ev : In (fd, ev) (interests l) <->
  exists i p, nth_error l i = Some p /\ p_fd p = fd /\ -1 < fd /\ p_events p = ev.
Proof.
  unfold interests. rewrite in_map_iff. split.
  - intros (p & E & Hp). apply filter_In in Hp. destruct Hp as (Hp & U). apply Z.ltb_lt in U.
    injection E as <- <-. apply In_nth_error in Hp. destruct Hp as (i & Hi).
    exists i, p. auto.
  - intros (i & p & Hp & <- & U & <-). exists p. split; [reflexivity|]. apply filter_In.
    split; [eapply nth_error_In; eauto|]. now apply Z.ltb_lt.
Qed.

Lemma lookup_results l : forall off, indexed off l ->
  (forall i p, nth_error l i = Some p -> p_fd p <> -1 ->
     lookup (Z.of_nat (off + i)) (results l) = Some (p_revents p)) /\
  (forall fd, fd < Z.of_nat off \/ Z.of_nat (off + length l) <= fd ->
     lookup fd (results l) = None).
Proof.
  unfold results. induction l as [|p l IH]; intros off H.
  - split; [|reflexivity]. intros [|i] p E; discriminate.
  - destruct (IH _ (indexed_tail H)) as (A & B). cbn [filter].
    destruct (Z.ltb_spec (-1) (p_fd p)) as [U|U]; cbn [map lookup].
    + destruct (indexed_head H) as [E|E]; [lia|]. rewrite E. split.
      * intros [|i] q Hq Hn; cbn in Hq.
        -- injection Hq as <-. rewrite Nat.add_0_r, Z.eqb_refl. reflexivity.
        -- destruct (Z.eqb_spec (Z.of_nat off) (Z.of_nat (off + S i))); [lia|].
           replace (off + S i)%nat with (S off + i)%nat by lia. now apply A.
      * intros fd Hfd. cbn [length] in Hfd. destruct (Z.eqb_spec (Z.of_nat off) fd); [lia|].
        apply B. lia.
    + split.
      * intros [|i] q Hq Hn; cbn in Hq.
        -- injection Hq as <-. destruct (indexed_head H); lia.
        -- replace (off + S i)%nat with (S off + i)%nat by lia. now apply A.
      * intros fd Hfd. apply B. cbn [length] in Hfd. lia.
Qed.

Lemma store_length arr : forall revs, length (store_revents arr revs) = length arr.
Proof. induction arr as [|p a IH]; intros [|r rs]; cbn; auto. Qed.

Lemma store_nth arr : forall revs i p, nth_error (store_revents arr revs) i = Some p ->
  exists q, nth_error arr i = Some q /\ p_fd p = p_fd q /\ p_events p = p_events q /\
    ((i < length revs)%nat -> nth_error revs i = Some (p_revents p)) /\
    ((length revs <= i)%nat -> p_revents p = p_revents q).
Proof.
  induction arr as [|a arr IH]; intros revs i p; [now destruct revs, i|].
  destruct revs as [|r rs]; cbn [store_revents].
  - intros H. exists p. cbn [length]. repeat split; auto. lia.
  - destruct i as [|i]; cbn [nth_error].
    + intros E; injection E as <-. exists a. cbn. repeat split; auto. lia.
    + intros E. destruct (IH _ _ _ E) as (q & Q & F & V & R1 & R2).
      exists q. cbn [length nth_error]. repeat split; auto.
      * intros; apply R1; lia.
      * intros; apply R2; lia.
Qed.

Lemma store_revs arr : forall revs, (length revs <= length arr)%nat ->
  map p_revents (firstn (length revs) (store_revents arr revs)) = revs.
Proof.
  induction arr as [|a arr IH]; intros [|r rs] H; cbn in *; auto; try lia.
  now rewrite IH by lia.
Qed.

Lemma all2_nth {A B} (f : A -> B -> bool) a : forall b, all2 f a b = true ->
  length a = length b /\
  forall i x y, nth_error a i = Some x -> nth_error b i = Some y -> f x y = true.
Proof.
  induction a as [|x a IH]; intros [|y b] H; cbn in H; try discriminate.
  - split; [reflexivity|]. intros [|i] ? ? E; discriminate.
  - apply andb_prop in H. destruct H as (H & K). destruct (IH _ K) as (L & N).
    split; [cbn; lia|]. intros [|i] u v; cbn; [congruence|apply N].
Qed.

Lemma count_store arr revs : count (store_revents arr revs) = count arr.
Proof.
  revert revs; induction arr as [|a arr IH]; intros [|r rs]; cbn [store_revents]; auto.
  rewrite !count_cons, IH. reflexivity.
Qed.

Lemma filter_map {A B} (f : A -> B) g l : filter g (map f l) = map f (filter (fun x => g (f x)) l).
Proof.
  induction l as [|x l IH]; [reflexivity|]. cbn. destruct (g (f x)); cbn; now rewrite IH.
Qed.
Lemma filter_filter {A} (f g : A -> bool) l : filter f (filter g l) = filter (fun x => g x && f x) l.
Proof.
  induction l as [|x l IH]; [reflexivity|]. cbn. destruct (g x); cbn; [|exact IH].
  destruct (f x); cbn; now rewrite IH.
Qed.

(** counting the ready descriptors: those of the pipe and of the others *)
Lemma count_split pipe : forall l off, indexed off l ->
  (off <= pipe)%nat -> (pipe < off + length l)%nat ->
  (forall p, In p l -> p_revents p <> 0 -> p_fd p <> -1) ->
  forall q, nth_error l (pipe - off) = Some q -> p_fd q = Z.of_nat pipe ->
  Z.of_nat (length (filter (fun p => negb (p_revents p =? 0)) l)) =
  one (negb (p_revents q =? 0)) + count_ready pipe (results l).
Proof.
  unfold count_ready, results. intros l.
  assert (G : forall l off, indexed off l -> (pipe < off)%nat ->
    (forall p, In p l -> p_revents p <> 0 -> p_fd p <> -1) ->
    length (filter (fun p => negb (p_revents p =? 0)) l) =
    length (filter (fun x => negb (fst x =? Z.of_nat pipe) && negb (snd x =? 0))
      (map (fun p => (p_fd p, p_revents p)) (filter (fun p => -1 <? p_fd p) l)))).
  { clear l. induction l as [|p l IH]; intros off H L V; [reflexivity|].
    specialize (IH _ (indexed_tail H) ltac:(lia) (fun p Hp => V p (or_intror Hp))).
    cbn [filter].
    destruct (Z.ltb_spec (-1) (p_fd p)) as [U|U]; cbn [map filter fst snd].
    - destruct (indexed_head H) as [E|E]; [lia|]. rewrite E.
      destruct (Z.eqb_spec (Z.of_nat off) (Z.of_nat pipe)); [lia|]. cbn [negb andb].
      destruct (p_revents p =? 0); cbn [negb length]; lia.
    - destruct (Z.eqb_spec (p_revents p) 0) as [E|E]; cbn [negb]; [exact IH|].
      specialize (V p (or_introl eq_refl) E). destruct (indexed_head H); lia. }
  induction l as [|p l IH]; intros off H L1 L2 V q Hq Hf; [cbn in L2; lia|].
  cbn [length] in L2. cbn [filter].
  destruct (Nat.eq_dec off pipe) as [->|N].
  - rewrite Nat.sub_diag in Hq. cbn in Hq. injection Hq as <-.
    specialize (G l _ (indexed_tail H) ltac:(lia) (fun p Hp => V p (or_intror Hp))).
    destruct (Z.ltb_spec (-1) (p_fd p)) as [U|U]; [|lia]. cbn [map filter fst snd].
    rewrite Hf, Z.eqb_refl. cbn [negb andb].
    destruct (p_revents p =? 0); cbn [negb one length]; lia.
  - replace (pipe - off)%nat with (S (pipe - S off)) in Hq by lia. cbn in Hq.
    specialize (IH _ (indexed_tail H) ltac:(lia) ltac:(lia) (fun p Hp => V p (or_intror Hp)) q Hq Hf).
    destruct (Z.ltb_spec (-1) (p_fd p)) as [U|U]; cbn [map filter fst snd].
    + destruct (indexed_head H) as [E|E]; [lia|]. rewrite E.
      destruct (Z.eqb_spec (Z.of_nat off) (Z.of_nat pipe)); [lia|]. cbn [negb andb].
      destruct (p_revents p =? 0); cbn [negb length]; lia.
    + destruct (Z.eqb_spec (p_revents p) 0) as [E|E]; cbn [negb]; [exact IH|].
      specialize (V p (or_introl eq_refl) E). destruct (indexed_head H); lia.
Qed.

(** ** Steps of the polling thread *)

Definition silent (e : event) : Prop :=
  match e with ECall _ _ | EFire _ _ _ | EPolled _ => False | _ => True end.

Lemma good_silent n0 pipe tp es x : silent x -> good n0 pipe tp es -> good n0 pipe tp (es ++ [x]).
Proof.
  intros H (F & T & S). split; [|split; [|exact S]].
  - apply fds_keep; [now destruct x| |exact F]. intros fd. rewrite interest_snoc. now destruct x.
  - apply tm_keep; [|exact T]. rewrite pending_snoc. now destruct x.
Qed.

Lemma good_blocked n0 pipe tp es b : good n0 pipe tp es -> good n0 pipe (set_blocked tp b) es.
Proof. intros ([] & [] & S). split; [now constructor|]. split; [now constructor|exact S]. Qed.
Lemma good_realloced n0 pipe tp es b : good n0 pipe tp es -> good n0 pipe (set_realloced tp b) es.
Proof. intros ([] & [] & S). split; [now constructor|]. split; [now constructor|exact S]. Qed.

Lemma recv_spec n0 pipe tp es : good n0 pipe tp es ->
  exists tp', signal_recv tp = Ok tp' /\ good n0 pipe tp' es /\
    tp_used tp' = tp_used tp /\ tp_timers tp' = tp_timers tp.
Proof.
  intros G. pose proof G as (F & T & S). unfold signal_recv.
  destruct (f_pe F) as (r & R). rewrite (f_pipe F), (get_ok _ _ R). cbn [bind p_fd].
  rewrite Z.eqb_refl. cbn [assert_ bind].
  destruct (tp_signaled tp) eqn:E; cbn [negb].
  - unfold sig_ok in S. rewrite E in S. rewrite S. cbn. eexists. split; [reflexivity|].
    cbn. split; [|auto]. split; [now apply fds_signal|]. split; [now apply tm_signal|reflexivity].
  - exists tp. auto.
Qed.

Ltac trivial_event := unfold all_ok; cbn; tauto.

Lemma step_enter n0 pipe tp es ms c1 c2 : good n0 pipe tp es -> tv_ok c1 -> tv_ok c2 ->
  inv n0 pipe (mkSys tp (enter ms c1 c2)) (es ++ [EEnter ms c1; EClock c2]) /\
  trace_ok pipe es [EEnter ms c1; EClock c2].
Proof.
  intros G H1 H2. split.
  - rewrite cons_snoc. split; cbn [s_tp s_ph].
    + apply good_silent; [exact I|]. apply good_silent; [exact I|exact G].
    + unfold enter, ph_ok. split; [|split].
      * exists (us c1 + 1000 * ms). rewrite !called_snoc. cbn [called1]. split; [reflexivity|].
        intros M. destruct (Z.ltb_spec 0 ms); [|lia].
        destruct (get_timeval_us ms H1) as (A & B). split; [exact A|]. lia.
      * unfold get_timeval. cbn [Z.ltb Z.compare]. split; [|exact H2]. now rewrite clock_snoc.
      * now rewrite fresh_snoc.
  - apply trace_cons; [trivial_event|]. apply trace_cons; [trivial_event|]. apply trace_nil.
Qed.

Lemma step_fire n0 pipe tp es ms tmo now t r : good n0 pipe tp es ->
  ph_ok pipe tp es (Disp ms tmo now) -> tp_timers tp = t :: r -> tv_gt (t_tv t) now = false ->
  inv n0 pipe (mkSys (set_timers tp r (tp_next tp)) (Disp ms tmo now))
    (es ++ [EFire (t_id t) (t_fnc t) (t_arg t)]) /\
  trace_ok pipe es [EFire (t_id t) (t_fnc t) (t_arg t)].
Proof.
  intros G (A & C & Fr) E Du. pose proof G as (F & T & S). destruct T as [Th Tn Ti Tx].
  rewrite E in Th. destruct (holds_head Th Tn) as (b & a & P & Fb & Fa & H').
  set (x := EFire (t_id t) (t_fnc t) (t_arg t)).
  assert (Pn : pending (es ++ [x]) = without (t_id t) (pending es)) by now rewrite pending_snoc.
  destruct C as (C1 & C2).
  assert (Dl : us (t_tv t) <= us now).
  { unfold tv_gt in Du. rewrite tv_lt_us in Du; [apply Z.ltb_ge in Du; lia|exact C2|].
    destruct Th as (_ & _ & O). now inversion O. }
  split.
  - split; [split; [|split]|]; cbn [s_tp s_ph].
    + apply fds_timers. apply fds_keep; [exact I| |exact F]. intros; now rewrite interest_snoc.
    + constructor; cbn; rewrite ?Pn; auto.
      * now apply nodup_without.
      * now apply without_ids.
    + exact S.
    + cbn. rewrite fresh_snoc. cbn. split; [|split; [|exact Fr]].
      * destruct A as (fin & A1 & A2). exists fin. now rewrite called_snoc.
      * split; [|exact C2]. now rewrite clock_snoc.
  - apply trace_cons; [|apply trace_nil]. unfold all_ok. cbn.
    split; [|tauto]. exists b, a, (us (t_tv t)), (us now). auto.
Qed.

Lemma args_snoc es x ms tmo : silent x -> (forall m c, x <> EEnter m c) ->
  args es ms tmo -> args (es ++ [x]) ms tmo.
Proof.
  intros S N (fin & A & B). exists fin. rewrite called_snoc. split; [|exact B].
  destruct x; cbn; auto. exfalso. eapply N; reflexivity.
Qed.

(** the timeout handed to poll() *)
Lemma compute_ok n0 pipe tp es ms tmo now c r : good n0 pipe tp es -> args es ms tmo ->
  clk es now -> tv_ok c -> compute tp ms tmo now c = Ok r ->
  exists now' T xs, r = (now', T, xs) /\ (xs = [] /\ now' = now \/ xs = [EClock c] /\ now' = c) /\
    timely tp es (us now') T /\
    (near es (us now') ->
     not_late es (us now') T /\
     (0 < ms -> forall fin, called es = Some (ms, fin) ->
        0 <= T /\ us now' + 1000 * T <= Z.max (us now') fin + 1000) /\
     (ms = 0 -> T = 0) /\
     (ms < 0 -> pending es = [] -> T = 0 /\ tp_used tp <= 0 \/ T = -1 /\ 0 < tp_used tp) /\
     (ms <> 0 -> 0 <= T ->
        (exists p, In p (pending es) /\ d_due p <= us now' + 1000 * T) \/
        (0 < ms /\ forall fin, called es = Some (ms, fin) -> fin <= us now' + 1000 * T) \/
        (ms < 0 /\ pending es = [] /\ T = 0))).
Proof.
  intros (F & T0 & S) (fin & Hc & Ht) (C1 & C2) Hck. destruct T0 as [Th Tn Ti Tx].
  unfold compute, timely, near, fin_near, not_late. rewrite Hc.
  (* all pending timers are due after the first of the list *)
  assert (HM : forall t l, tp_timers tp = t :: l ->
    In (conv t) (pending es) /\ tv_ok (t_tv t) /\
    forall p, In p (pending es) -> us (t_tv t) <= d_due p).
  { intros t l E. rewrite E in Th. destruct (holds_head Th Tn) as (b & a & P & Fb & Fa & _).
    rewrite P. split; [apply in_or_app; right; now left|].
    split; [destruct Th as (_ & _ & O); now inversion O|].
    intros p Hp. apply in_app_or in Hp. rewrite Forall_forall in *.
    destruct Hp as [Hp|[<-|Hp]]; [specialize (Fb p Hp); lia|cbn; lia|now apply Fa]. }
  assert (HE : tp_timers tp = [] <-> pending es = []) by now apply holds_nil.
  destruct (Z.eqb_spec ms 0) as [->|M0].
  { intros E; injection E as <-. exists now, 0, []. split; [reflexivity|]. split; [auto|].
    split.
    - destruct (tp_timers tp) as [|t l]; cbn; [auto|]. intros; lia.
    - intros (N1 & _). split; [|split; [lia|split; [auto|split; [lia|lia]]]].
      apply Forall_forall. intros p _. lia. }
  destruct (tp_timers tp) as [|t l] eqn:Et; cbn [hd_error].
  - assert (Pe : pending es = []) by now apply HE.
    destruct (Z.ltb_spec ms 0) as [Mn|Mn].
    + intros E; injection E as <-. eexists now, _, []. split; [reflexivity|]. split; [auto|].
      split; [auto|]. intros _. rewrite Pe. split; [constructor|]. split; [lia|]. split; [lia|].
      split.
      * intros _ _. destruct (Z.ltb_spec 0 (tp_used tp)); [right|left]; auto.
      * intros _ H. right; right. destruct (Z.ltb_spec 0 (tp_used tp)); [lia|auto].
    + destruct Ht as (Ht1 & Ht2); [lia|].
      destruct (diff_timeval tmo c) as [d|] eqn:Ed; [|discriminate]. cbn [bind].
      intros E; injection E as <-. eexists c, _, _. split; [reflexivity|]. split; [auto|].
      split; [auto|]. rewrite Pe. intros (_ & N2). specialize (N2 ltac:(lia)).
      destruct (@diff_ok tmo c Ht1 Hck) as (d' & Ed' & D1 & D2); [lia|].
      rewrite Ed in Ed'. injection Ed' as <-.
      split; [constructor|].
      split; [intros _ fin' Ef; injection Ef as <-; destruct (Z.ltb_spec 0 d); lia|].
      split; [lia|]. split; [lia|]. intros _ _. right; left. split; [lia|].
      intros fin' Ef; injection Ef as <-. destruct (Z.ltb_spec 0 d); lia.
  - destruct (HM t l eq_refl) as (I1 & O1 & A1).
    assert (Pn : pending es <> []) by (intros Q; rewrite Q in I1; destruct I1).
    set (from := if ms <? 0 then t_tv t else if negb (tv_gt (t_tv t) tmo) then t_tv t else tmo).
    assert (Ed0 : (if ms <? 0 then diff_timeval (t_tv t) c
                 else if negb (tv_gt (t_tv t) tmo) then diff_timeval (t_tv t) c
                 else diff_timeval tmo c) = diff_timeval from c).
    { unfold from. destruct (ms <? 0); [reflexivity|]. now destruct (negb (tv_gt (t_tv t) tmo)). }
    rewrite Ed0. clear Ed0.
    assert (Hfrom : tv_ok from /\ us from <= us (t_tv t) /\ (0 < ms -> us from <= fin) /\
       (from = t_tv t \/ 0 < ms /\ from = tmo)).
    { unfold from. destruct (Z.ltb_spec ms 0) as [Mn|Mn].
      - split; [exact O1|]. split; [lia|]. split; [lia|]. now left.
      - destruct Ht as (Ht1 & Ht2); [lia|]. unfold tv_gt. rewrite tv_lt_us by auto.
        destruct (Z.ltb_spec (us tmo) (us (t_tv t))); cbn [negb].
        + split; [exact Ht1|]. split; [lia|]. split; [lia|]. right. split; [lia|reflexivity].
        + split; [exact O1|]. split; [lia|]. split; [lia|]. now left. }
    destruct Hfrom as (F1 & F2 & F3 & F4).
    destruct (diff_timeval from c) as [d|] eqn:Ed; [|discriminate]. cbn [bind].
    intros E; injection E as <-. eexists c, _, _. split; [reflexivity|]. split; [auto|].
    assert (X : Z.abs (us (t_tv t) - us c) <= HORIZON ->
                (0 < ms -> Z.abs (fin - us c) <= HORIZON) ->
                (us from <= us c -> d <= 0) /\
                (us c < us from -> us from - us c <= 1000 * d <= us from - us c + 1000)).
    { intros N1 N2. destruct (@diff_ok from c F1 Hck) as (d' & Ed' & D1 & D2).
      - destruct F4 as [->|[Mp ->]]; [exact N1|]. destruct (Ht Mp) as (_ & ->). auto.
      - rewrite Ed in Ed'. injection Ed' as <-. auto. }
    split.
    + intros N1 N2. destruct (X N1 N2) as (D1 & D2). destruct (Z.ltb_spec 0 d); lia.
    + intros (N1 & N2). rewrite Forall_forall in N1. specialize (N1 _ I1). cbn [conv d_due] in N1.
      destruct (X N1 N2) as (D1 & D2).
      split.
      { apply Forall_forall. intros p Hp. specialize (A1 p Hp). destruct (Z.ltb_spec 0 d); lia. }
      split.
      { intros Mp fin' Ef; injection Ef as <-. specialize (F3 Mp). destruct (Z.ltb_spec 0 d); lia. }
      split; [lia|]. split; [intros _ Q; contradiction|].
      intros _ _. destruct F4 as [Ff|[Mp Ff]].
      * left. exists (conv t). split; [exact I1|]. cbn [conv d_due]. rewrite Ff in *.
        destruct (Z.ltb_spec 0 d); lia.
      * right; left. split; [exact Mp|]. intros fin' Ef; injection Ef as <-.
        destruct (Ht Mp) as (_ & Hf). rewrite Ff in *. destruct (Z.ltb_spec 0 d); lia.
Qed.

(** the count of used entries tells whether any descriptor is of interest *)
Lemma used_interest n0 pipe tp es : fds_ok n0 pipe tp es ->
  (tp_used tp <= 0 -> forall fd, interest es fd = 0) /\
  (0 < tp_used tp -> exists fd, interest es fd <> 0) /\ 0 <= tp_used tp.
Proof.
  intros F. destruct (f_pe F) as (r & R).
  destruct (nth_error_split _ _ R) as (l1 & l2 & E & L).
  assert (U : tp_used tp = count l1 + count l2).
  { rewrite (f_used F), E, count_app, count_cons. unfold inuse at 1. cbn [p_fd].
    destruct (Z.ltb_spec (-1) (Z.of_nat pipe)); [|lia]. cbn [one]. lia. }
  assert (NI : forall i e, nth_error (tp_arr tp) i = Some e -> i <> pipe -> In e l1 \/ In e l2).
  { intros i e He Hi. rewrite E in He. destruct (Nat.lt_ge_cases i (length l1)) as [Q|Q].
    - rewrite nth_error_app1 in He by auto. left. eapply nth_error_In; eauto.
    - rewrite nth_error_app2 in He by auto. destruct (i - length l1)%nat eqn:K; [lia|].
      cbn in He. right. eapply nth_error_In; eauto. }
  pose proof (count_pos l1). pose proof (count_pos l2).
  split; [|split; [|lia]].
  - intros Hu fd. destruct (Z_lt_dec fd 0) as [|Hf]; [apply (f_out F); auto|].
    destruct (Z.eq_dec fd (Z.of_nat pipe)) as [|Hp]; [apply (f_out F); auto|].
    destruct (nth_error (tp_arr tp) (Z.to_nat fd)) as [e|] eqn:He.
    2: { apply nth_error_None in He. apply (f_out F). rewrite (f_len F) in He. lia. }
    destruct (f_ent F He ltac:(lia)) as (_ & B & _). rewrite Z2Nat.id in B by lia.
    destruct B as [[_ B]|[B _]]; [exact B|]. exfalso.
    assert (Iu : inuse e = true) by (unfold inuse; apply Z.ltb_lt; lia).
    assert (P : forall l, In e l -> 0 < count l).
    { intros l Hl. apply in_split in Hl. destruct Hl as (u & v & ->).
      rewrite count_app, count_cons, Iu. pose proof (count_pos u). pose proof (count_pos v).
      cbn [one]. lia. }
    destruct (NI _ _ He ltac:(lia)) as [Q|Q]; apply P in Q; lia.
  - intros Hu.
    assert (Q : exists e i, nth_error (tp_arr tp) i = Some e /\ i <> pipe /\ inuse e = true).
    { destruct (Z_lt_dec 0 (count l1)) as [C|C].
      - destruct (count_some _ C) as (e & He & Ie). apply In_nth_error in He. destruct He as (i & Hi).
        exists e, i. assert (i < length l1)%nat by (apply nth_error_Some; congruence).
        split; [|split; [lia|exact Ie]]. rewrite E. now rewrite nth_error_app1.
      - destruct (@count_some l2) as (e & He & Ie); [lia|]. apply In_nth_error in He.
        destruct He as (i & Hi).
        exists e, (length l1 + S i)%nat. split; [|split; [lia|exact Ie]].
        rewrite E, nth_error_app2 by lia. replace (length l1 + S i - length l1)%nat with (S i) by lia.
        exact Hi. }
    destruct Q as (e & i & He & Hi & Ie). exists (Z.of_nat i).
    destruct (f_ent F He Hi) as (_ & [[B _]|[_ B]] & _); [|exact B].
    unfold inuse in Ie. rewrite B in Ie. discriminate.
Qed.

Lemma step_wait n0 pipe tp es ms tmo now c now' T xs : good n0 pipe tp es ->
  ph_ok pipe tp es (Disp ms tmo now) -> tv_ok c ->
  (match tp_timers tp with [] => true | t :: _ => tv_gt (t_tv t) now end) = true ->
  compute tp ms tmo now c = Ok (now', T, xs) ->
  inv n0 pipe (mkSys (set_blocked tp true) (Ready ms tmo now' T))
    (es ++ EDispatched :: xs ++ [EWait T]) /\
  trace_ok pipe es (EDispatched :: xs ++ [EWait T]).
Proof.
  intros G (A & C & Fr) Hc Hd Hcomp. pose proof G as (F & Tm & S).
  destruct (compute_ok G A C Hc Hcomp) as (n1 & T1 & x1 & E & Hx & Ht & Hn).
  injection E as <- <- <-.
  set (es1 := es ++ [EDispatched]).
  set (es2 := es1 ++ xs).
  assert (Pe : pending es2 = pending es /\ called es2 = called es /\ interest es2 = interest es /\
     last_clock es2 = Some (us now') /\ tv_ok now').
  { unfold es2, es1. destruct C as (C1 & C2). destruct Hx as [[-> ->]|[-> ->]];
      rewrite ?app_nil_r; snoc; cbn; auto. }
  destruct Pe as (P1 & P2 & P3 & P4 & P5).
  assert (G1 : good n0 pipe tp es1) by (apply good_silent; [exact I|exact G]).
  assert (G2 : good n0 pipe tp es2).
  { unfold es2. destruct Hx as [[-> ->]|[-> ->]]; [now rewrite app_nil_r|].
    apply good_silent; [exact I|exact G1]. }
  assert (Efull : es ++ EDispatched :: xs ++ [EWait T] = es2 ++ [EWait T]).
  { unfold es2, es1. rewrite <- !app_assoc. reflexivity. }
  split.
  - rewrite Efull. split; cbn [s_tp s_ph].
    + apply good_blocked. apply good_silent; [exact I|exact G2].
    + cbn. split; [|split; [|split; [reflexivity|]]].
      * destruct A as (fin & A1 & A2). exists fin. split; [|exact A2].
        rewrite called_snoc. cbn. congruence.
      * split; [|exact P5]. rewrite clock_snoc. exact P4.
      * right. unfold timely, fin_near in *. rewrite called_snoc. cbn. rewrite P2. exact Ht.
  - apply trace_cons.
    + unfold all_ok. cbn. repeat (split; [exact I|]). split; [|exact I].
      split; [exact Fr|]. destruct C as (C1 & C2). exists (us now). split; [exact C1|].
      destruct Tm as [Th Tn _ _]. destruct (tp_timers tp) as [|t l] eqn:Et.
      * rewrite (proj1 (holds_nil Th)) by reflexivity. constructor.
      * destruct (holds_head Th Tn) as (b & a & P & Fb & Fa & _).
        unfold tv_gt in Hd. rewrite tv_lt_us in Hd.
        2: exact C2.
        2: { destruct Th as (_ & _ & O). now inversion O. }
        apply Z.ltb_lt in Hd. rewrite P. apply Forall_app. rewrite Forall_forall in *. split.
        -- intros p Hp. specialize (Fb p Hp). lia.
        -- constructor; [cbn; lia|]. apply Forall_forall. intros p Hp. specialize (Fa p Hp). lia.
    + assert (W : all_ok pipe es2 (EWait T)).
      { unfold all_ok. cbn. repeat (split; [exact I|]). split; [|auto].
        destruct A as (fin & A1 & A2). exists (us now'), ms, fin.
        rewrite P1, P2, P3. split; [exact P4|]. split; [exact A1|].
        unfold near, not_late in *. rewrite P1, P2. intros N.
        destruct (Hn N) as (K1 & K2 & K3 & K4 & K5).
        split; [exact K1|]. split; [intros M; exact (K2 M fin A1)|]. split; [exact K3|].
        destruct (used_interest F) as (U1 & U2 & _).
        split.
        - intros M Pz. destruct (K4 M Pz) as [[-> U]|[-> U]]; [left|right]; auto.
        - intros M N0. destruct (K5 M N0) as [Q|[(Q1 & Q2)|Q]]; auto. }
      fold es1. unfold es2 in W. destruct Hx as [[-> ->]|[-> ->]]; cbn [app].
      * rewrite app_nil_r in W. apply trace_cons; [exact W|apply trace_nil].
      * apply trace_cons; [trivial_event|]. apply trace_cons; [exact W|apply trace_nil].
Qed.

Lemma indexed_arr n0 pipe tp es : fds_ok n0 pipe tp es -> indexed 0 (tp_arr tp).
Proof.
  intros F i p Hp. cbn [Nat.add]. destruct (Nat.eq_dec i pipe) as [->|N].
  - destruct (f_pe F) as (r & R). rewrite R in Hp. injection Hp as <-. now right.
  - destruct (f_ent F Hp N) as (_ & [[B _]|[B _]] & _); auto.
Qed.

Lemma nth_firstn {A} (l : list A) k i x : nth_error (firstn k l) i = Some x ->
  nth_error l i = Some x /\ (i < k)%nat.
Proof.
  intros H. assert (L : (i < length (firstn k l))%nat) by (apply nth_error_Some; congruence).
  rewrite firstn_length in L. split; [|lia].
  rewrite <- (firstn_skipn k l). rewrite nth_error_app1; [exact H|]. rewrite firstn_length. lia.
Qed.
Lemma firstn_nth {A} (l : list A) k i x : nth_error l i = Some x -> (i < k)%nat ->
  nth_error (firstn k l) i = Some x.
Proof.
  intros H L. assert (L1 : (i < length l)%nat) by (apply nth_error_Some; congruence).
  rewrite <- (firstn_skipn k l) in H. rewrite nth_error_app1 in H; [exact H|].
  rewrite firstn_length. lia.
Qed.

Lemma step_poll n0 pipe tp es ms tmo now T : good n0 pipe tp es ->
  ph_ok pipe tp es (Ready ms tmo now T) ->
  let snap := firstn (Z.to_nat (tp_max tp + 1)) (tp_arr tp) in
  inv n0 pipe (mkSys tp (Polling ms tmo now T snap (tp_gen tp)))
    (es ++ [EPoll (interests snap)]) /\
  trace_ok pipe es [EPoll (interests snap)].
Proof.
  intros G (A & C & B & W) snap. pose proof G as (F & Tm & S).
  assert (Ix : indexed 0 snap).
  { intros i p Hp. apply nth_firstn in Hp. apply (indexed_arr F). tauto. }
  assert (PO : poll_ok pipe es (EPoll (interests snap))).
  { cbn. split; [apply (interests_nodup Ix)|]. intros fd ev. rewrite interests_in. split.
    - intros (i & p & Hp & <- & U & <-). apply nth_firstn in Hp. destruct Hp as (Hp & _).
      destruct (Nat.eq_dec i pipe) as [->|N].
      + destruct (f_pe F) as (r & R). rewrite R in Hp. injection Hp as <-. now left.
      + destruct (f_ent F Hp N) as (E1 & [[E2 _]|[E2 E3]] & _); [lia|].
        right. rewrite E2, E1. split; [lia|]. auto.
    - pose proof (f_max F) as M.
      intros [[-> ->]|(N & Nz & E)].
      + destruct (f_pe F) as (r & R). eexists pipe, _.
        split; [apply firstn_nth; [exact R|lia]|]. cbn. split; [reflexivity|]. split; [lia|reflexivity].
      + assert (Hf : 0 <= fd) by (destruct (Z_lt_dec fd 0); [rewrite (f_out F) in E by auto; congruence|lia]).
        destruct (nth_error (tp_arr tp) (Z.to_nat fd)) as [p|] eqn:Hp.
        2: { apply nth_error_None in Hp. rewrite (f_len F) in Hp.
             rewrite (f_out F) in E by (right; left; lia). congruence. }
        destruct (f_ent F Hp ltac:(lia)) as (E1 & B1 & _). rewrite Z2Nat.id in * by lia.
        destruct B1 as [[_ B1]|[B1 _]]; [congruence|].
        exists (Z.to_nat fd), p. split; [|split; [exact B1|split; [lia|congruence]]].
        apply firstn_nth; [exact Hp|].
        destruct (Z_lt_dec (tp_max tp) fd) as [L|L]; [|lia].
        pose proof (f_above F _ Hp ltac:(lia)). lia. }
  split.
  - split; cbn [s_tp s_ph]; [apply good_silent; [exact I|exact G]|].
    cbn. split; [now apply args_snoc|].
    split; [destruct C as (C1 & C2); split; [now rewrite clock_snoc|exact C2]|].
    split; [exact B|]. split.
    { destruct W as [W|W]; [now left|right]. unfold timely, fin_near in *.
      now rewrite called_snoc. }
    split; [now rewrite in_poll_snoc|].
    constructor.
    + destruct (f_pe F) as (r & R). exists r. apply firstn_nth; [exact R|]. pose proof (f_max F). lia.
    + unfold snap. rewrite firstn_length. lia.
    + exact Ix.
    + right. cbn in *. rewrite interest_snoc. exact PO.
    + intros _ i p Hp Hn. apply nth_firstn in Hp. exists p. tauto.
  - apply trace_cons; [|apply trace_nil]. unfold all_ok. cbn in *. tauto.
Qed.

Lemma filter_count_pos {A} (f : A -> bool) l i x : nth_error l i = Some x -> f x = true ->
  (0 < length (filter f l))%nat.
Proof.
  intros H Hx. apply nth_error_In in H.
  assert (In x (filter f l)) as Q by now apply filter_In.
  destruct (filter f l); [destruct Q|cbn; lia].
Qed.

Lemma step_polled n0 pipe tp es ms tmo now T snap revs n : good n0 pipe tp es ->
  ph_ok pipe tp es (Polling ms tmo now T snap (tp_gen tp)) ->
  all2 (rev_ok tp) snap revs = true -> n = ready_count revs ->
  let a := store_revents (tp_arr tp) revs in
  let x := EPolled (results (firstn (length snap) a)) in
  inv n0 pipe (mkSys (set_fds tp a (tp_used tp) (tp_max tp)) (Back ms tmo now n)) (es ++ [x]) /\
  trace_ok pipe es [x].
Proof.
  intros G (A & C & B & W & Ip & SN) Ha Hn a x. pose proof G as (F & Tm & S).
  destruct SN as [S1 S2 S3 S4 S5].
  destruct (all2_nth _ _ _ Ha) as (L & R).
  assert (Li : length a = length (tp_arr tp)) by apply store_length.
  assert (Ix : indexed 0 a).
  { intros i p Hp. apply store_nth in Hp. destruct Hp as (q & Hq & E & _). rewrite E.
    now apply (indexed_arr F). }
  set (K := firstn (length snap) a).
  assert (Ik : indexed 0 K).
  { intros i p Hp. apply nth_firstn in Hp. apply Ix. tauto. }
  assert (Lk : length K = length snap) by (unfold K; rewrite firstn_length; lia).
  destruct (lookup_results Ik) as (LR1 & LR2).
  (* ready entries are still in use *)
  assert (Lv : snd (last_poll es) = false -> forall i p r, nth_error a i = Some p ->
     nth_error revs i = Some r -> r <> 0 -> p_fd p <> -1).
  { intros Q i p r Hp Hr Nz. apply store_nth in Hp. destruct Hp as (q & Hq & E & _).
    rewrite E. destruct (nth_error snap i) as [sp|] eqn:Hs.
    2: { apply nth_error_None in Hs.
         assert (nth_error revs i <> None) as Z0 by congruence. apply nth_error_Some in Z0. lia. }
    specialize (R _ _ _ Hs Hr). unfold rev_ok in R.
    destruct (Z.ltb_spec (p_fd sp) 0) as [U|U].
    - apply Z.eqb_eq in R. contradiction.
    - destruct (S5 Q i sp Hs ltac:(lia)) as (e & He & Hne). congruence. }
  destruct S1 as (rp & Rp).
  assert (Hpl : (pipe < length snap)%nat) by (apply nth_error_Some; congruence).
  destruct (nth_error revs pipe) as [r|] eqn:Er.
  2: { apply nth_error_None in Er. lia. }
  destruct (f_pe F) as (r0 & R0).
  assert (Ap : nth_error a pipe = Some (mkPfd (Z.of_nat pipe) POLLIN r)).
  { destruct (nth_error a pipe) as [q|] eqn:Hq.
    - apply store_nth in Hq. destruct Hq as (q0 & Hq0 & E1 & E2 & E3 & _).
      rewrite R0 in Hq0. injection Hq0 as <-. specialize (E3 ltac:(lia)).
      rewrite Er in E3. injection E3 as ->. destruct q; cbn in *. congruence.
    - apply nth_error_None in Hq. rewrite Li, (f_len F) in Hq. pose proof (f_pa F). lia. }
  assert (Rv : r = 0 \/ r = POLLIN).
  { specialize (R _ _ _ Rp Er). unfold rev_ok in R. cbn [p_fd] in R.
    destruct (Z.ltb_spec (Z.of_nat pipe) 0); [lia|].
    rewrite (f_pipe F), Z.eqb_refl in R. apply Z.eqb_eq in R.
    destruct (tp_bytes tp =? 0)%nat; [now left|]. right. rewrite R. reflexivity. }
  assert (Hone : one (has r POLLIN) = one (negb (r =? 0))) by (destruct Rv as [->| ->]; reflexivity).
  assert (Rc : ready_count revs = Z.of_nat (length (filter (fun p => negb (p_revents p =? 0)) K))).
  { unfold ready_count. rewrite <- (@store_revs (tp_arr tp) revs) at 1 by lia.
    rewrite filter_map, map_length. unfold K. now rewrite L. }
  split.
  - split; [split; [|split]|]; cbn [s_tp s_ph].
    + destruct F as [Fp Fl Fn Fpa Fpe Fe Fo Fm Fa Fu]. constructor; cbn; auto.
      * congruence.
      * eauto.
      * intros i e He Hi. pose proof He as He0. apply store_nth in He.
        destruct He as (q & Hq & E1 & E2 & E3 & E4).
        destruct (Fe _ _ Hq Hi) as (B1 & B2 & B3). unfold ent_ok.
        rewrite interest_snoc. cbn [interest1]. rewrite E1, E2. split; [exact B1|].
        split; [exact B2|]. intros U. pose proof U as U0. apply undisturbed_le in U.
        rewrite ready_snoc. unfold x. cbn [interest1]. specialize (B3 U).
        destruct (Z.eqb_spec (interest es (Z.of_nat i)) 0) as [Z0|Z0].
        -- destruct (Nat.lt_ge_cases i (length revs)) as [Q|Q].
           ++ specialize (E3 Q). destruct (Z.eq_dec (p_revents e) 0) as [Y|Y]; [exact Y|].
              exfalso. apply (Lv (calm_poll _ Ip U) i e _ He0 E3 Y).
              rewrite E1. destruct B2 as [[B2 _]|[_ B2]]; [exact B2|contradiction].
           ++ rewrite (E4 Q), B3. now apply ready_0.
        -- destruct B2 as [[_ B2]|[B2 _]]; [contradiction|].
           destruct (Nat.lt_ge_cases i (length revs)) as [Q|Q].
           ++ assert (Hk : nth_error K i = Some e) by (apply firstn_nth; [exact He0|lia]).
              specialize (LR1 i e Hk). cbn [Nat.add] in LR1. fold K. rewrite LR1; [reflexivity|lia].
           ++ fold K. rewrite (LR2 (Z.of_nat i)) by (right; cbn [Nat.add]; lia).
              now rewrite (E4 Q).
      * intros fd Hfd. rewrite interest_snoc. cbn. auto.
      * intros i e He Hi. apply store_nth in He. destruct He as (q & Hq & E1 & _).
        rewrite E1. eauto.
      * unfold a. now rewrite count_store.
    + destruct Tm. constructor; cbn; rewrite ?pending_snoc; auto.
    + exact S.
    + cbn. split; [|split].
      * destruct A as (fin & A1 & A2). exists fin. now rewrite called_snoc.
      * destruct C as (C1 & C2). split; [now rewrite clock_snoc|exact C2].
      * intros _ _. exists r. cbn. split; [exact Ap|]. rewrite Hone. split.
        -- rewrite Hn. unfold ready_count. destruct (Z.eqb_spec r 0) as [Z0|Z0]; cbn [negb one]; [lia|].
           assert (0 < length (filter (fun r => negb (r =? 0)%Z) revs))%nat; [|lia].
           eapply filter_count_pos; [exact Er|]. now apply negb_true_iff, Z.eqb_neq.
        -- intros l Hl. rewrite last_poll_snoc in Hl. unfold x in Hl. cbn [withdrawn1] in Hl.
           injection Hl as Hl1 Hl2. subst l. fold K.
           rewrite Hn, Rc.
           assert (Kp : nth_error K (pipe - 0) = Some (mkPfd (Z.of_nat pipe) POLLIN r)).
           { rewrite Nat.sub_0_r. apply firstn_nth; [exact Ap|lia]. }
           rewrite (@count_split pipe K 0 Ik ltac:(lia) ltac:(lia)) with (q := mkPfd (Z.of_nat pipe) POLLIN r).
           ++ cbn [p_revents]. lia.
           ++ intros p Hp Nz. apply In_nth_error in Hp. destruct Hp as (i & Hp).
              apply nth_firstn in Hp. destruct Hp as (Hp & Hi).
              pose proof Hp as Hp0. apply store_nth in Hp0. destruct Hp0 as (q & _ & _ & _ & E3 & _).
              apply (Lv Hl2 i p (p_revents p)); auto. apply E3. lia.
           ++ exact Kp.
           ++ reflexivity.
  - apply trace_cons; [trivial_event|apply trace_nil].
Qed.

Lemma step_after dbg n0 pipe tp es ms tmo now n c r : good n0 pipe tp es ->
  ph_ok pipe tp es (Back ms tmo now n) -> tv_ok c ->
  after dbg tp ms tmo now n c = Ok r ->
  inv n0 pipe (mkSys (fst (fst r)) (snd (fst r))) (es ++ snd r) /\ trace_ok pipe es (snd r).
Proof.
  intros G (A & C & B) Hc. unfold after.
  assert (Gb : good n0 pipe (set_blocked tp false) es) by now apply good_blocked.
  assert (Ret : forall tp' k es', good n0 pipe tp' es' -> return_ok pipe es' (EReturn k) ->
    inv n0 pipe (mkSys tp' Idle) (es' ++ [EReturn k]) /\ trace_ok pipe es' [EReturn k]).
  { intros tp' k es' G' R. split.
    - split; cbn [s_tp s_ph]; [apply good_silent; [exact I|exact G']|exact I].
    - apply trace_cons; [|apply trace_nil]. unfold all_ok.
      repeat (split; [exact I|]). exact R. }
  destruct A as (fin & A1 & A2).
  destruct (Z.ltb_spec n 0) as [N0|N0].
  { intros E; injection E as <-. cbn [fst snd]. apply Ret; [exact Gb|].
    cbn. exists ms, fin. split; [exact A1|]. split; lia. }
  destruct (tp_realloced (set_blocked tp false)) eqn:Er.
  - cbn in Er.
    destruct (recv_spec (@good_realloced _ _ _ _ false Gb)) as (tp' & E1 & G' & _).
    rewrite E1. cbn [bind]. intros E; injection E as <-. cbn [fst snd].
    split; [|apply trace_cons; [trivial_event|apply trace_nil]].
    split; cbn [s_tp s_ph]; [apply good_silent; [exact I|exact G']|].
    cbn. split; [exists fin; now rewrite called_snoc|]. split; [|now rewrite fresh_snoc].
    destruct C as (C1 & C2). split; [now rewrite clock_snoc|exact C2].
  - cbn in Er. destruct B as (rv & R & K & Lp); [exact N0|exact Er|].
    assert (Gp : get (tp_arr (set_blocked tp false)) (tp_pipe (set_blocked tp false)) =
                 Ok (mkPfd (Z.of_nat pipe) POLLIN rv)).
    { cbn. destruct G as (F & _). rewrite (f_pipe F). now apply get_ok. }
    rewrite Gp. cbn [bind p_revents]. fold (has rv POLLIN).
    set (rr := if has rv POLLIN then _ else _).
    assert (X : exists tp', rr = Ok (tp', n - one (has rv POLLIN)) /\ good n0 pipe tp' es /\
      tp_used tp' = tp_used tp /\ tp_timers tp' = tp_timers tp).
    { unfold rr. destruct (has rv POLLIN).
      - destruct (recv_spec Gb) as (tp' & E1 & G' & U & T). exists tp'. rewrite E1. cbn. auto.
      - exists (set_blocked tp false). cbn [one]. rewrite Z.sub_0_r. auto. }
    destruct X as (tp' & E1 & G' & U & T). rewrite E1. cbn [bind]. clear E1 rr.
    set (k := n - one (has rv POLLIN)) in *.
    destruct (Z.ltb_spec 0 k) as [Kp|Kp].
    { destruct (assert_if dbg (0 <? tp_used tp')); [|discriminate]. cbn [bind].
      intros E; injection E as <-. cbn [fst snd]. apply Ret; [exact G'|].
      cbn. exists ms, fin. split; [exact A1|]. split; [lia|]. intros _ l Hl. now apply Lp. }
    assert (k = 0) as K0 by lia. rewrite K0.
    destruct (Z.eqb_spec ms 0) as [M0|M0]; cbn [orb].
    { intros E; injection E as <-. cbn [fst snd]. apply Ret; [exact G'|].
      cbn. exists ms, fin. split; [exact A1|]. split; [auto|lia]. }
    destruct ((ms <? 0) && (tp_used tp' =? 0) && match tp_timers tp' with [] => true | _ => false end) eqn:Q.
    { intros E; injection E as <-. cbn [fst snd]. apply Ret; [exact G'|].
      apply andb_prop in Q. destruct Q as (Q & Q3). apply andb_prop in Q. destruct Q as (Q1 & Q2).
      apply Z.ltb_lt in Q1. apply Z.eqb_eq in Q2.
      cbn. exists ms, fin. split; [exact A1|]. split; [|lia]. intros _. right; right.
      split; [exact Q1|]. destruct G' as (F' & T' & _). split.
      - apply (holds_nil (m_holds T')). destruct (tp_timers tp'); [reflexivity|discriminate].
      - apply (used_interest F'). lia. }
    destruct ((0 <? ms) && negb (tv_gt tmo c)) eqn:Q2.
    { intros E; injection E as <-. cbn [fst snd].
      apply andb_prop in Q2. destruct Q2 as (Q1 & Q2). apply Z.ltb_lt in Q1.
      apply negb_true_iff in Q2. destruct (A2 Q1) as (A3 & A4).
      unfold tv_gt in Q2. rewrite tv_lt_us in Q2 by auto. apply Z.ltb_ge in Q2.
      destruct (@Ret tp' 0 (es ++ [EClock c])) as (I1 & I2).
      - apply good_silent; [exact I|exact G'].
      - cbn. exists ms, fin. rewrite called_snoc. split; [exact A1|]. split; [|lia].
        intros _. right; left. split; [exact Q1|]. exists (us c).
        rewrite clock_snoc, fresh_snoc. cbn. split; [reflexivity|]. split; [reflexivity|]. lia.
      - split; [now rewrite cons_snoc|]. apply trace_cons; [trivial_event|exact I2]. }
    intros E; injection E as <-. cbn [fst snd].
    split; [|apply trace_cons; [trivial_event|apply trace_nil]].
    split; cbn [s_tp s_ph]; [apply good_silent; [exact I|exact G']|].
    cbn. split; [exists fin; now rewrite called_snoc|].
    split; [split; [now rewrite clock_snoc|exact Hc]|now rewrite fresh_snoc].
Qed.

(** One step, any action *)
Lemma step_inv dbg n0 pipe s es a s' xs : inv n0 pipe s es -> act_ok a ->
  step dbg s a = Some (Ok (s', xs)) -> inv n0 pipe s' (es ++ xs) /\ trace_ok pipe es xs.
Proof.
  destruct s as [tp ph]. intros (G & P) Ha. unfold step. cbn [s_tp s_ph] in *.
  destruct a as [c|ms c1 c2| |c| |n revs|c].
  - destruct (foreign tp c) eqn:Ff; [discriminate|].
    destruct (do_call dbg tp c) as [[tp' rc]|] eqn:E; [|discriminate]. cbn [bind fst snd].
    intros Q; injection Q as <- <-.
    destruct (call_stays _ _ G Ha Ff E) as (St & Id & Is).
    split.
    + split; cbn [s_tp s_ph]; [apply St|]. eapply ph_call; eauto.
    + apply trace_cons; [|apply trace_nil]. unfold all_ok.
      split; [exact I|]. split; [exact Id|]. split; [exact I|]. split; [exact Is|].
      repeat (split; [exact I|]). exact I.
  - destruct ph; try discriminate. intros Q; injection Q as <- <-. destruct Ha.
    now apply step_enter.
  - destruct ph as [|ms tmo now| | |]; try discriminate.
    destruct (tp_timers tp) as [|t r] eqn:Et; [discriminate|].
    destruct (tv_gt (t_tv t) now) eqn:Eg; cbn [negb]; [discriminate|].
    intros Q; injection Q as <- <-. now apply step_fire.
  - destruct ph as [|ms tmo now| | |]; try discriminate.
    destruct (match tp_timers tp with [] => true | t :: _ => tv_gt (t_tv t) now end) eqn:Ed;
      [|discriminate].
    destruct (compute tp ms tmo now c) as [[[now' T] es0]|] eqn:Ec; [|discriminate].
    cbn [bind]. intros Q; injection Q as <- <-. eapply step_wait; eauto.
  - destruct ph as [| |ms tmo now T| |]; try discriminate.
    intros Q; injection Q as <- <-. now apply step_poll.
  - destruct ph as [| | |ms tmo now T snap gen|]; try discriminate.
    destruct (Z.ltb_spec n 0) as [N|N].
    + intros Q; injection Q as <- <-. destruct P as (A & C & _).
      split; [|apply trace_cons; [trivial_event|apply trace_nil]].
      split; cbn [s_tp s_ph]; [apply good_silent; [exact I|exact G]|].
      cbn. split; [now apply args_snoc|]. split; [|intros ?; lia].
      destruct C as (C1 & C2). split; [now rewrite clock_snoc|exact C2].
    + destruct (all2 (rev_ok tp) snap revs && (n =? ready_count revs) &&
                negb ((n =? 0) && (T <? 0))) eqn:V; [|discriminate].
      destruct (Nat.eqb_spec gen (tp_gen tp)) as [->|]; [|discriminate].
      intros Q; injection Q as <- <-.
      apply andb_prop in V. destruct V as (V & _). apply andb_prop in V. destruct V as (V1 & V2).
      apply Z.eqb_eq in V2. eapply step_polled; eauto.
  - destruct ph as [| | | |ms tmo now n]; try discriminate.
    destruct (after dbg tp ms tmo now n c) as [r|] eqn:E; [|discriminate]. cbn [bind].
    intros Q; injection Q as <- <-. eapply step_after; eauto.
Qed.

Lemma run_inv dbg n0 pipe : forall acts s es s' xs, inv n0 pipe s es -> Forall act_ok acts ->
  run dbg s acts = Some (Ok (s', xs)) -> inv n0 pipe s' (es ++ xs) /\ trace_ok pipe es xs.
Proof.
  induction acts as [|a acts IH]; intros s es s' xs I0 Ha; cbn [run].
  - intros E; injection E as <- <-. rewrite app_nil_r. split; [exact I0|apply trace_nil].
  - inversion Ha; subst. destruct (step dbg s a) as [[[s1 e1]|]|] eqn:E1; try discriminate.
    destruct (step_inv dbg _ I0 H1 E1) as (I1 & T1).
    destruct (run dbg s1 acts) as [[[s2 e2]|]|] eqn:E2; try discriminate.
    intros E; injection E as <- <-.
    destruct (IH _ _ _ _ I1 H2 E2) as (I2 & T2). rewrite app_assoc. split; [exact I2|].
    intros past e rest Q.
    destruct (Nat.lt_ge_cases (length past) (length e1)) as [L|L].
    + assert (exists r1, e1 = past ++ e :: r1) as (r1 & ->).
      { exists (skipn (S (length past)) e1).
        assert (X := f_equal (firstn (length e1)) Q).
        rewrite firstn_app, Nat.sub_diag, firstn_all in X. cbn [firstn] in X. rewrite app_nil_r in X.
        rewrite firstn_app in X. rewrite firstn_all2 in X by lia.
        destruct (length e1 - length past)%nat as [|k] eqn:K; [lia|]. cbn [firstn] in X.
        rewrite X at 1. f_equal. f_equal.
        rewrite X. rewrite skipn_app. rewrite skipn_all2 by lia.
        replace (S (length past) - length past)%nat with 1%nat by lia. reflexivity. }
      eapply T1. reflexivity.
    + assert (exists p2, past = e1 ++ p2 /\ e2 = p2 ++ e :: rest) as (p2 & -> & ->).
      { exists (skipn (length e1) past).
        assert (X := f_equal (firstn (length e1)) Q).
        rewrite firstn_app, Nat.sub_diag, firstn_all in X. cbn [firstn] in X. rewrite app_nil_r in X.
        rewrite firstn_app in X. replace (length e1 - length past)%nat with 0%nat in X by lia.
        cbn [firstn] in X. rewrite app_nil_r in X.
        assert (Y := f_equal (skipn (length e1)) Q).
        rewrite skipn_app, Nat.sub_diag, skipn_all in Y. cbn [skipn app] in Y.
        rewrite skipn_app in Y. replace (length e1 - length past)%nat with 0%nat in Y by lia.
        split; [|exact Y]. rewrite X at 1. now rewrite firstn_skipn. }
      rewrite app_assoc. eapply T2. reflexivity.
Qed.

Lemma start_inv n pipe s : start n pipe = Ok s ->
  inv (Z.to_nat (if n <=? 0 then Z.of_nat TPOLL_ALLOC else n)) pipe s [].
Proof.
  unfold start, tpoll_create. set (m := Z.to_nat _).
  unfold tpoll_init. cbn [tp_alloc].
  destruct (Nat.ltb_spec 0 m); cbn [assert_ bind]; [|discriminate].
  change (Z.land 3 (Z.lnot 3) =? 0) with true. change (has 3 1) with true. change (has 3 2) with true.
  cbn [assert_ bind tp_pipe].
  destruct (put _ _ _) as [a|] eqn:Pa; [|discriminate]. cbn [bind].
  intros E; injection E as <-. destruct (nth_put _ _ _ Pa) as (K & La & Ga).
  rewrite repeat_length in *.
  split; [|exact I]. cbn [s_tp]. split; [|split; [|reflexivity]].
  - constructor; cbn; auto; try lia.
    + exists 0. now rewrite Ga, Nat.eqb_refl.
    + intros i e He Hi. rewrite Ga in He. destruct (Nat.eqb_spec i pipe); [lia|].
      apply nth_repeat in He. subst e. unfold ent_ok. cbn. auto.
    + intros i e He Hi. rewrite Ga in He. destruct (Nat.eqb_spec i pipe); [lia|].
      apply nth_repeat in He. now subst e.
    + destruct (nth_error (repeat free_pfd m) pipe) as [y|] eqn:Ny.
      2: { apply nth_error_None in Ny. rewrite repeat_length in Ny. lia. }
      rewrite (count_put _ _ _ Pa Ny), count_free. apply nth_repeat in Ny. subst y.
      unfold inuse. cbn [p_fd free_pfd]. destruct (Z.ltb_spec (-1) (Z.of_nat pipe)); [|lia].
      reflexivity.
  - constructor; cbn; try constructor; try lia.
    + constructor.
    + split; [reflexivity|constructor].
Qed.
