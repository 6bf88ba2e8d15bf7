(** Proofs about ReconnModel: symbolic execution of every handler and the
    invariant they preserve. *)
From Verif Require Import Base ReconnModel ReconnSpec.
Set Implicit Arguments.
Open Scope Z_scope.

(** ** Lists *)
Lemma nth_set_same A (l : list A) c x y : nth_error l c = Some y -> nth_error (set_nth l c x) c = Some x.
Proof. revert c; induction l; destruct c; cbn; intros; try discriminate; auto. Qed.
Lemma nth_set_other A (l : list A) c c' x : c <> c' -> nth_error (set_nth l c x) c' = nth_error l c'.
Proof. revert c c'; induction l; destruct c, c'; cbn; intros; auto; congruence. Qed.
Lemma set_set A (l : list A) c x y : set_nth (set_nth l c x) c y = set_nth l c y.
Proof. revert c; induction l; destruct c; cbn; intros; auto. f_equal; auto. Qed.
Lemma set_same A (l : list A) c x : nth_error l c = Some x -> set_nth l c x = l.
Proof. revert c; induction l; destruct c; cbn; intros; try discriminate; auto. congruence. f_equal; auto. Qed.
Lemma set_length A (l : list A) c x : length (set_nth l c x) = length l.
Proof. revert c; induction l; destruct c; cbn; auto. Qed.
Lemma map_set A B (f : A -> B) l c x y : nth_error l c = Some y -> f x = f y -> map f (set_nth l c x) = map f l.
Proof. revert c; induction l; destruct c; cbn; intros; try discriminate; auto. congruence. f_equal; eauto. Qed.

(** ** Worlds in normal form *)
Definition drop (id : Z) (ts : list timer) : list timer := filter (fun t => negb (t_id t =? id)) ts.
Definition at_ (w : world) (c : nat) (d : dev) (ts : list timer) (nx : Z) (lg : list (Z * effect)) : world :=
  mkWorld (w_now w) (set_nth (w_devs w) c d) ts nx lg.

Section Exec.
Variables (w : world) (c : nat) (d0 : dev).
Hypothesis HC : nth_error (w_devs w) c = Some d0.
Lemma at_start : at_ w c d0 (w_timers w) (w_next w) (w_log w) = w.
Proof using HC. unfold at_. rewrite (set_same _ _ HC). destruct w; reflexivity. Qed.
Lemma dev_of_at d ts nx lg : dev_of (at_ w c d ts nx lg) c = Ok d.
Proof using HC. unfold dev_of, at_; cbn. rewrite (nth_set_same _ _ _ HC). reflexivity. Qed.
Lemma upd_at f d ts nx lg : upd c f (at_ w c d ts nx lg) = Ok (at_ w c (f d) ts nx lg).
Proof using HC. unfold upd. rewrite dev_of_at. cbn. unfold set_dev, at_; cbn. rewrite set_set. reflexivity. Qed.
Lemma say_at e d ts nx lg : say e (at_ w c d ts nx lg) = at_ w c d ts nx ((w_now w, e) :: lg).
Proof using. reflexivity. Qed.
Lemma arm_at cb ms d ts nx lg : arm c cb ms (at_ w c d ts nx lg)
  = Ok (at_ w c (with_timer nx d) (mkTimer nx c cb (w_now w + ms) :: ts) (nx + 1) lg).
Proof using HC. unfold arm. rewrite upd_at. reflexivity. Qed.
Lemma cancel_at d ts nx lg : -1 <= d_timer d -> Forall (fun t => 0 < t_id t) ts ->
  cancel_timer c (at_ w c d ts nx lg) = Ok (at_ w c (with_timer (-1) d) (drop (d_timer d) ts) nx lg).
Proof using HC.
  intros T F. unfold cancel_timer. rewrite dev_of_at. cbn [bind].
  destruct (Z.leb_spec 0 (d_timer d)).
  - change (cancel (d_timer d) (at_ w c d ts nx lg)) with (at_ w c d (drop (d_timer d) ts) nx lg).
    apply upd_at.
  - assert (d_timer d = -1) as E by lia. rewrite E. f_equal. f_equal.
    + destruct d; cbn in *; subst; reflexivity.
    + induction F; cbn; auto. destruct (Z.eqb_spec (t_id x) (-1)); cbn; [lia|]. f_equal; auto.
Qed.
End Exec.

(** ** The invariant *)
Definition is_up (s : cstate) : bool := match s with Up => true | _ => false end.
Definition noticed (c : nat) (l : list (Z * effect)) : bool :=
  match last_notice c l with Some (_, true) => true | _ => false end.
Definition delay_of (k : kind) (s : fresh * nat) : Z := let (f, n) := s in delay_after k f n.

Definition shape (d : dev) : Prop :=
  match d_kind d, d_st d with
  | Process, Up => 0 <= d_fd d /\ 0 < d_pid d
  | Process, Down => d_fd d = -1 /\ d_pid d = -1
  | Serial, Up => 0 <= d_fd d /\ d_timer d = -1
  | Serial, Down => d_fd d = -1 /\ d_timer d = -1
  | _, Up => 0 <= d_fd d
  | _, Down => d_fd d = -1
  | Telnet, Pending => 0 <= d_fd d /\ d_timer d = -1
  | Ipmi, Pending => d_fd d = -1
  | _, Pending => False
  end.

Definition vpre (c : nat) (d : dev) (lg : list (Z * effect)) : Prop :=
  shape d
  /\ (d_kind d <> Serial -> d_delay d * 1000 = delay_of (d_kind d) (since c lg))
  /\ (d_kind d <> Serial -> noticed c lg = is_up (d_st d))
  /\ (d_kind d = Process -> child c lg = if is_up (d_st d) then Some (d_pid d) else None).

(** what the one timer of a console may be *)
Definition tok (c : nat) (now : Z) (d : dev) (lg : list (Z * effect)) (t : timer) : Prop :=
  match t_cb t with
  | Reconnect => is_up (d_st d) = false /\ d_kind d <> Serial /\
      exists t0 ms, scheduled c lg = Some (t0, ms) /\ t_due t = t0 + ms /\ t0 <= now /\ 0 <= ms <= 1800 * 1000
  | Settled => is_up (d_st d) = true /\ d_kind d <> Serial /\
      exists t0, last_notice c lg = Some (t0, true) /\ t_due t = t0 + need (d_kind d) * 1000
  end.

Definition tinv (c : nat) (now : Z) (d : dev) (ts : list timer) (lg : list (Z * effect)) : Prop :=
  Forall (tok c now d lg) ts
  /\ match d_kind d, d_st d with
     | Serial, _ => True
     | _, Up => steady c lg = true \/ exists t, In t ts /\ t_cb t = Settled
     | Telnet, Pending => ts = []
     | _, _ => exists t, In t ts /\ t_cb t = Reconnect
     end.

Definition own (c : nat) (ts : list timer) : list timer := filter (fun t => (t_con t =? c)%nat) ts.

Fixpoint log_ok (ks : list kind) (l : list (Z * effect)) : Prop :=
  match l with
  | [] => True
  | (t, e) :: l => justified ks t e l /\ log_ok ks l
  end.

Record inv (P : nat -> Prop) (w : world) : Prop := mkInv {
  i_nodup : NoDup (map t_id (w_timers w));
  i_rng : Forall (fun t => 0 < t_id t < w_next w) (w_timers w);
  i_own : forall t, In t (w_timers w) ->
          exists d, nth_error (w_devs w) (t_con t) = Some d /\ d_timer d = t_id t;
  i_sep : forall c d t, nth_error (w_devs w) c = Some d -> In t (w_timers w) ->
          d_timer d = t_id t -> t_con t = c;
  i_dt : forall c d, nth_error (w_devs w) c = Some d -> -1 <= d_timer d < w_next w;
  i_next : 0 < w_next w;
  i_pre : forall c d, nth_error (w_devs w) c = Some d -> vpre c d (w_log w);
  i_tim : forall c d, P c -> nth_error (w_devs w) c = Some d ->
          tinv c (w_now w) d (own c (w_timers w)) (w_log w);
  i_log : log_ok (map d_kind (w_devs w)) (w_log w) }.

(** ** What other consoles see of new log entries *)
Definition stamp (now : Z) (es : list effect) : list (Z * effect) := map (pair now) es.

Lemma eqb_no (a b : nat) : a <> b -> (a =? b)%nat = false.
Proof. apply Nat.eqb_neq. Qed.

Lemma skip_since c now es l : Forall (fun e => about e <> c) es -> since c (stamp now es ++ l) = since c l.
Proof. induction 1 as [|e es A F IH]; cbn; auto. destruct e; cbn in *; rewrite ?eqb_no by auto; auto. Qed.
Lemma skip_notice c now es l : Forall (fun e => about e <> c) es -> last_notice c (stamp now es ++ l) = last_notice c l.
Proof. induction 1 as [|e es A F IH]; cbn; auto. destruct e; cbn in *; rewrite ?eqb_no by auto; auto. Qed.
Lemma skip_sched c now es l : Forall (fun e => about e <> c) es -> scheduled c (stamp now es ++ l) = scheduled c l.
Proof. induction 1 as [|e es A F IH]; cbn; auto. destruct e; cbn in *; rewrite ?eqb_no by auto; auto. Qed.
Lemma skip_child c now es l : Forall (fun e => about e <> c) es -> child c (stamp now es ++ l) = child c l.
Proof. induction 1 as [|e es A F IH]; cbn; auto. destruct e; cbn in *; rewrite ?eqb_no by auto; auto. Qed.
Lemma skip_steady c now es l : Forall (fun e => about e <> c) es -> steady c (stamp now es ++ l) = steady c l.
Proof. induction 1 as [|e es A F IH]; cbn; auto. destruct e; cbn in *; rewrite ?eqb_no by auto; auto. Qed.

Lemma skip_vpre c d now es l : Forall (fun e => about e <> c) es ->
  vpre c d l -> vpre c d (stamp now es ++ l).
Proof.
  intros F (A & B & C & D). unfold vpre, noticed. rewrite skip_since, skip_notice, skip_child by auto. auto.
Qed.
Lemma skip_tinv c now d ts es l : Forall (fun e => about e <> c) es ->
  tinv c now d ts l -> tinv c now d ts (stamp now es ++ l).
Proof.
  intros F (A & B). split; [|rewrite skip_steady by auto; exact B]. eapply Forall_impl; [|exact A]. cbn. unfold tok. intros t.
  rewrite skip_notice, skip_sched by auto. auto.
Qed.

(** ** The effect of one handler on console [c] *)
Definition post (c : nat) (w : world) (d d' : dev) (new : list timer) (es : list effect) : world :=
  at_ w c d' (new ++ drop (d_timer d) (w_timers w)) (w_next w + Z.of_nat (length new))
     (stamp (w_now w) es ++ w_log w).

Fixpoint justs (ks : list kind) (now : Z) (es : list effect) (l : list (Z * effect)) : Prop :=
  match es with
  | [] => True
  | e :: es => justified ks now e (stamp now es ++ l) /\ justs ks now es l
  end.

Record fine (b : bool) (c : nat) (w : world) (d d' : dev) (new : list timer) (es : list effect) : Prop := mkFine {
  f_kind : d_kind d' = d_kind d;
  f_new : (new = [] /\ d_timer d' = -1)
          \/ (exists cb due, new = [mkTimer (w_next w) c cb due] /\ d_timer d' = w_next w);
  f_about : Forall (fun e => about e = c) es;
  f_pre : vpre c d' (stamp (w_now w) es ++ w_log w);
  f_tim : b = true -> tinv c (w_now w) d' new (stamp (w_now w) es ++ w_log w);
  f_just : justs (map d_kind (w_devs w)) (w_now w) es (w_log w) }.

Lemma log_ok_app ks now es l : justs ks now es l -> log_ok ks l -> log_ok ks (stamp now es ++ l).
Proof. induction es as [|e es IH]; cbn; auto. intros [A B] L. split; auto. Qed.

Lemma in_drop t id ts : In t (drop id ts) <-> In t ts /\ t_id t <> id.
Proof. unfold drop. rewrite filter_In. rewrite negb_true_iff, Z.eqb_neq. tauto. Qed.

Lemma nodup_map_filter A B (f : A -> B) p l : NoDup (map f l) -> NoDup (map f (filter p l)).
Proof.
  induction l as [|a l IH]; cbn; auto. intros N. inversion N as [|? ? I N']; subst.
  destruct (p a); cbn; auto. constructor; auto. intros X. apply I. apply in_map_iff in X.
  destruct X as (y & E & Y). apply filter_In in Y. apply in_map_iff. exists y. tauto.
Qed.

Lemma own_nil c ts : (forall t, In t ts -> t_con t <> c) -> own c ts = [].
Proof.
  induction ts as [|t ts IH]; cbn; auto. intros H. rewrite eqb_no by auto. apply IH. auto.
Qed.

Lemma own_drop_other c id ts : (forall t, In t ts -> t_con t = c -> t_id t <> id) ->
  own c (drop id ts) = own c ts.
Proof.
  induction ts as [|t ts IH]; cbn; auto. intros H.
  destruct (Z.eqb_spec (t_id t) id); cbn.
  - rewrite eqb_no. apply IH; auto. intros E. apply (H t); auto.
  - destruct (t_con t =? c)%nat; [f_equal|]; apply IH; auto.
Qed.

Lemma inv_post b P c w d d' new es : inv P w -> nth_error (w_devs w) c = Some d -> fine b c w d d' new es ->
  inv (fun x => (P x /\ x <> c) \/ (b = true /\ x = c)) (post c w d d' new es).
Proof.
  intros I HC [K N A VP VT J]. destruct I as [i1 i2 i3 i4 i5 i6 i7 i8 i9].
  set (ts' := drop (d_timer d) (w_timers w)).
  assert (forall t, In t ts' -> In t (w_timers w) /\ t_id t <> d_timer d) as InD by (intros; apply in_drop; auto).
  assert (forall t, In t ts' -> t_con t <> c) as NoC.
  { intros t T E. apply InD in T. destruct T as [T1 T2]. destruct (i3 _ T1) as (x & X1 & X2). rewrite E in X1. congruence. }
  assert (forall t, In t new -> t_con t = c /\ t_id t = w_next w /\ d_timer d' = w_next w) as InN.
  { intros t T. destruct N as [[N1 N2]|(cb & due & N1 & N2)]; subst new; [destruct T|].
    destruct T as [T|[]]; subst t; auto. }
  assert (d_timer d' = -1 \/ d_timer d' = w_next w /\ length new = 1%nat) as DT.
  { destruct N as [[N1 N2]|(cb & due & N1 & N2)]; subst new; auto. }
  constructor; cbn [post at_ w_timers w_devs w_next w_log w_now]; fold ts'.
  - rewrite map_app. destruct N as [[N1 N2]|(cb & due & N1 & N2)]; subst new; cbn.
    + apply nodup_map_filter; auto.
    + constructor; [|apply nodup_map_filter; auto]. intros X. apply in_map_iff in X.
      destruct X as (y & E & Y). apply InD in Y. rewrite Forall_forall in i2. specialize (i2 _ (proj1 Y)). cbn in E. lia.
  - apply Forall_app. split.
    + rewrite Forall_forall. intros t T. destruct (InN _ T) as (_ & E & _). rewrite E.
      destruct new; [destruct T|]. cbn [length]. lia.
    + rewrite Forall_forall. intros t T. apply InD in T. rewrite Forall_forall in i2. specialize (i2 _ (proj1 T)). lia.
  - intros t T. apply in_app_iff in T. destruct T as [T|T].
    + destruct (InN _ T) as (E1 & E2 & E3). exists d'. rewrite E1, (nth_set_same _ _ _ HC). split; congruence.
    + rewrite nth_set_other by (intro; subst; eapply NoC; eauto). apply i3. apply InD; auto.
  - intros c0 d1 t D T E. apply in_app_iff in T. destruct (Nat.eq_dec c c0) as [->|Nc].
    + rewrite (nth_set_same _ _ _ HC) in D. injection D as <-. destruct T as [T|T].
      * apply InN; auto.
      * exfalso. apply InD in T. rewrite Forall_forall in i2. specialize (i2 _ (proj1 T)). lia.
    + rewrite nth_set_other in D by auto. destruct T as [T|T].
      * exfalso. destruct (InN _ T) as (_ & E2 & _). specialize (i5 _ _ D). lia.
      * eapply i4; eauto. apply InD; auto.
  - intros c0 d1 D. destruct (Nat.eq_dec c c0) as [->|Nc].
    + rewrite (nth_set_same _ _ _ HC) in D. injection D as <-. destruct DT as [DT|[DT DL]]; rewrite DT, ?DL; lia.
    + rewrite nth_set_other in D by auto. specialize (i5 _ _ D). lia.
  - lia.
  - intros c0 d1 D. destruct (Nat.eq_dec c c0) as [->|Nc].
    + rewrite (nth_set_same _ _ _ HC) in D. injection D as <-. exact VP.
    + rewrite nth_set_other in D by auto. apply skip_vpre; auto.
      eapply Forall_impl; [|exact A]. cbn. intros; subst; auto.
  - intros c0 d1 PC D. unfold own. rewrite filter_app. fold (own c0 new) (own c0 ts').
    destruct (Nat.eq_dec c c0) as [->|Nc].
    + rewrite (nth_set_same _ _ _ HC) in D. injection D as <-.
      rewrite (@own_nil c0 ts') by auto. rewrite app_nil_r.
      destruct PC as [[_ PC]|[PC _]]; [congruence|]. specialize (VT PC).
      destruct N as [[N1 N2]|(cb & due & N1 & N2)]; subst new; cbn; auto.
      rewrite Nat.eqb_refl. exact VT.
    + rewrite nth_set_other in D by auto.
      rewrite (@own_nil c0 new) by (intros t T; destruct (InN _ T); congruence). cbn [app].
      unfold ts'. rewrite own_drop_other.
      * apply skip_tinv; [|apply i8; auto]. { eapply Forall_impl; [|exact A]. cbn. intros; subst; auto. } destruct PC as [[PC _]|[_ PC]]; [exact PC|congruence].
      * intros t T E1 E2. apply Nc. rewrite <- E1. symmetry. eapply i4; eauto.
  - rewrite (map_set d_kind _ _ _ HC K). apply log_ok_app; auto.
Qed.

Lemma inv_weaken (P Q : nat -> Prop) w : (forall c, Q c -> P c) -> inv P w -> inv Q w.
Proof. intros H [? ? ? ? ? ? ? ? ?]. constructor; auto. Qed.

(** ** The delays *)
Lemma doubled_pos k n : k <> Serial -> 1000 <= doubled k n <= 1000 * dmax k.
Proof.
  intros K. unfold doubled. assert (1 <= 2 ^ Z.of_nat n) by (change 1 with (2 ^ 0); apply Z.pow_le_mono_r; lia).
  destruct k; cbn [dmin dmax]; try congruence; split; nia || lia.
Qed.
Lemma doubled_S k n : k <> Serial -> doubled k (S n) = Z.min (2 * doubled k n) (1000 * dmax k).
Proof.
  intros K. unfold doubled. rewrite Nat2Z.inj_succ, Z.pow_succ_r by lia.
  set (p := 2 ^ Z.of_nat n). assert (1 <= p) by (unfold p; change 1 with (2 ^ 0); apply Z.pow_le_mono_r; lia).
  clearbody p. destruct k; cbn [dmin dmax]; try congruence; lia.
Qed.
Lemma delay_zero k f n : delay_after k f n = 0 -> k <> Serial -> f = AfterStable /\ n = 0%nat /\ (k = Telnet \/ k = Process).
Proof.
  intros E K. pose proof (fun n => @doubled_pos k n K) as D. pose proof (D n). pose proof (D (pred n)).
  destruct k, f, n; cbn [delay_after pred] in *; try congruence; auto 9; lia.
Qed.
Lemma delay_bounds k f n : k <> Serial -> 0 <= delay_after k f n <= 1000 * dmax k.
Proof.
  intros K. pose proof (fun n => @doubled_pos k n K) as D. pose proof (D n). pose proof (D (pred n)).
  destruct k, f, n; cbn [delay_after pred] in *; try congruence; try lia; cbn [dmax] in *; lia.
Qed.
Lemma delay_max k f n : k <> Serial -> delay_after k f n <= 1800 * 1000.
Proof. intros K. pose proof (@delay_bounds k f n K). destruct k; cbn [dmax] in *; lia. Qed.

Lemma delay_S k f n : k <> Serial -> delay_after k f n <> 0 ->
  delay_after k f (S n) = Z.min (2 * delay_after k f n) (1000 * dmax k).
Proof. intros K NZ. destruct k, f, n; cbn [delay_after] in *; try congruence; apply doubled_S; congruence. Qed.

Lemma next_zero k f n dl : (k = Telnet \/ k = Process) -> dl * 1000 = delay_after k f n ->
  (if dl =? 0 then dmin k else Z.min (dl * 2) (dmax k)) * 1000 = delay_after k f (S n).
Proof.
  intros K E. assert (k <> Serial) as KS by (destruct K; subst; discriminate).
  destruct (Z.eqb_spec dl 0) as [->|NZ].
  - destruct (@delay_zero k f n) as (-> & -> & _); auto. destruct K; subst; reflexivity.
  - rewrite delay_S; auto; [|lia]. rewrite <- E. lia.
Qed.
Lemma next_telnet f n dl : dl * 1000 = delay_after Telnet f n ->
  (if dl =? 0 then TELNET_MIN_TIMEOUT else if dl <? TELNET_MAX_TIMEOUT then Z.min (dl * 2) TELNET_MAX_TIMEOUT else dl) * 1000
  = delay_after Telnet f (S n).
Proof.
  intros E. rewrite <- (@next_zero Telnet f n dl) by auto. cbn [dmin dmax].
  unfold TELNET_MIN_TIMEOUT, TELNET_MAX_TIMEOUT.
  pose proof (@delay_bounds Telnet f n ltac:(discriminate)). cbn [dmax] in *.
  destruct (dl =? 0); auto. destruct (Z.ltb_spec dl 1800); lia.
Qed.
Lemma next_min k f n dl m : (k = Unixsock \/ k = Ipmi) -> m = dmax k -> dl * 1000 = delay_after k f n ->
  (if dl <? m then Z.min (dl * 2) m else dl) * 1000 = delay_after k f (S n).
Proof.
  intros K -> E. assert (k <> Serial) as KS by (destruct K; subst; discriminate).
  pose proof (@delay_bounds k f n KS).
  rewrite delay_S; auto.
  - rewrite <- E. destruct (Z.ltb_spec dl (dmax k)); lia.
  - intros Z0. apply delay_zero in Z0; auto. destruct Z0 as (_ & _ & [X|X]); destruct K; congruence.
Qed.

(** ** Symbolic execution *)
Definition does (b : bool) (r : res world) (c : nat) (w : world) (d : dev) : Prop :=
  exists d' new es, r = Ok (post c w d d' new es) /\ fine b c w d d' new es.

Lemma does_inv b P r c w d : inv P w -> nth_error (w_devs w) c = Some d -> does b r c w d ->
  exists w', r = Ok w' /\ inv (fun x => (P x /\ x <> c) \/ (b = true /\ x = c)) w'
   /\ map d_kind (w_devs w') = map d_kind (w_devs w) /\ w_now w' = w_now w.
Proof.
  intros I HC (d' & new & es & E & F). eexists. split; [exact E|]. split; [eapply inv_post; eauto|].
  split; [|reflexivity]. cbn. eapply map_set; eauto. apply (f_kind F).
Qed.

Ltac effects l := lazymatch l with
  | (_, ?e) :: ?l' => let es := effects l' in constr:(e :: es)
  | _ => constr:(@nil effect)
  end.
Ltac fresh_timers ts := lazymatch ts with
  | ?t :: ?ts' => let n := fresh_timers ts' in constr:(t :: n)
  | _ => constr:(@nil timer)
  end.

Ltac norm_c := unfold noticed; cbn [since last_notice scheduled child stamp map app about fst snd];
  rewrite ?Nat.eqb_refl; cbn [since last_notice scheduled child delay_of].

Ltac fields := repeat match goal with
  | |- context [with_fd ?x (mkDev ?a ?b ?c ?d ?e ?f ?g ?h)] => change (with_fd x (mkDev a b c d e f g h)) with (mkDev a x c d e f g h)
  | |- context [with_st ?x (mkDev ?a ?b ?c ?d ?e ?f ?g ?h)] => change (with_st x (mkDev a b c d e f g h)) with (mkDev a b x d e f g h)
  | |- context [with_timer ?x (mkDev ?a ?b ?c ?d ?e ?f ?g ?h)] => change (with_timer x (mkDev a b c d e f g h)) with (mkDev a b c x e f g h)
  | |- context [with_delay ?x (mkDev ?a ?b ?c ?d ?e ?f ?g ?h)] => change (with_delay x (mkDev a b c d e f g h)) with (mkDev a b c d x f g h)
  | |- context [with_via ?x (mkDev ?a ?b ?c ?d ?e ?f ?g ?h)] => change (with_via x (mkDev a b c d e f g h)) with (mkDev a b c d e x g h)
  | |- context [with_pid ?x (mkDev ?a ?b ?c ?d ?e ?f ?g ?h)] => change (with_pid x (mkDev a b c d e f g h)) with (mkDev a b c d e f x h)
  | |- context [with_ctx ?x (mkDev ?a ?b ?c ?d ?e ?f ?g ?h)] => change (with_ctx x (mkDev a b c d e f g h)) with (mkDev a b c d e f g x)
  end.

Ltac sx HC := repeat first
  [ progress fields
  | rewrite (dev_of_at _ _ HC) | rewrite (upd_at _ _ HC) | rewrite (arm_at _ _ HC) | rewrite say_at
  | rewrite (cancel_at _ _ HC) by (cbn [d_timer]; first [lia | assumption])
  | progress cbn [bind assert_ Z.leb Z.ltb Z.compare Z.eqb is_up negb orb andb
                  d_kind d_fd d_st d_timer d_delay d_via d_pid d_ctx] ].
