(** Proofs about the main loop. *)
From Verif Require Import Base BaseProof MuxModel MuxSpec.
From Coq Require Import ZifyNat.
Open Scope Z_scope.

Lemma upd_n_eq {A} (f : nat -> A) x v y : upd_n f x v y = if (y =? x)%nat then v else f y.
Proof. reflexivity. Qed.
Lemma upd_z_eq {A} (f : Z -> A) x v y : upd_z f x v y = if y =? x then v else f y.
Proof. reflexivity. Qed.

Lemma ldiff_lor a b m : Z.ldiff a m = 0 -> Z.ldiff b m = 0 -> Z.ldiff (Z.lor a b) m = 0.
Proof.
  intros A B. apply Z.bits_inj'. intros n N. rewrite Z.bits_0, Z.ldiff_spec, Z.lor_spec.
  pose proof (f_equal (fun z => Z.testbit z n) A) as H. cbv beta in H. rewrite Z.ldiff_spec, Z.bits_0 in H.
  pose proof (f_equal (fun z => Z.testbit z n) B) as H2. cbv beta in H2. rewrite Z.ldiff_spec, Z.bits_0 in H2.
  destruct (Z.testbit a n), (Z.testbit m n), (Z.testbit b n); auto; discriminate.
Qed.
Lemma ldiff_ldiff a b m : Z.ldiff a m = 0 -> Z.ldiff (Z.ldiff a b) m = 0.
Proof.
  intros A. apply Z.bits_inj'. intros n N. rewrite Z.bits_0, !Z.ldiff_spec.
  pose proof (f_equal (fun z => Z.testbit z n) A) as H. cbv beta in H. rewrite Z.ldiff_spec, Z.bits_0 in H.
  destruct (Z.testbit a n), (Z.testbit m n), (Z.testbit b n); auto; discriminate.
Qed.

Lemma coh_tp_set s f ev : coherent s -> own s f <> Closed -> Z.ldiff ev (Z.lor POLLIN POLLOUT) = 0 -> coherent (tp_set s f ev).
Proof.
  intros H O E. unfold tp_set. destruct (f <? 0); [exact H|]. destruct H as [co_nodup0 co_range0 co_own0 co_fd0 co_pos0 co_reg0 co_bits0 co_rev0]. constructor; cbn [objs fd own reg rev]; auto.
  - intros g. rewrite upd_z_eq. destruct (Z.eqb_spec g f); [subst; auto|auto].
  - intros g. rewrite upd_z_eq. destruct (Z.eqb_spec g f); [subst; apply ldiff_lor; auto|auto].
  - intros g R. rewrite upd_z_eq. specialize (co_rev0 g R). destruct (Z.eqb_spec g f); [|auto]. subst. intros Z0. apply Z.lor_eq_0_iff in Z0. tauto.
Qed.

Lemma coh_tp_clear s f ev : coherent s -> coherent (tp_clear s f ev).
Proof.
  intros H. unfold tp_clear. destruct (f <? 0); [exact H|]. cbv zeta. destruct H as [co_nodup0 co_range0 co_own0 co_fd0 co_pos0 co_reg0 co_bits0 co_rev0]. constructor; cbn [objs fd own reg rev]; auto.
  - intros g. rewrite upd_z_eq. destruct (Z.eqb_spec g f); [subst|auto]. intros N. apply co_reg0. intros E. apply N. rewrite E. reflexivity.
  - intros g. rewrite upd_z_eq. destruct (Z.eqb_spec g f); [subst; apply ldiff_ldiff; auto|auto].
  - intros g. rewrite upd_z_eq. destruct (Z.eqb_spec (Z.ldiff (reg s f) ev) 0) as [E|E].
    + rewrite upd_z_eq. destruct (Z.eqb_spec g f); [congruence|auto].
    + intros R. destruct (Z.eqb_spec g f); [subst; auto|auto].
Qed.

Lemma tp_clear_same s f ev : objs (tp_clear s f ev) = objs s /\ fd (tp_clear s f ev) = fd s /\ own (tp_clear s f ev) = own s.
Proof. unfold tp_clear. destruct (f <? 0); auto. Qed.
Lemma tp_clear_rev s f ev g : rev (tp_clear s f ev) g = rev s g \/ rev (tp_clear s f ev) g = 0.
Proof.
  unfold tp_clear. destruct (f <? 0); auto. cbv zeta. cbn [rev]. destruct (_ =? 0); auto. rewrite upd_z_eq. destruct (g =? f); auto.
Qed.
Lemma tp_clear_other s f ev g : g <> f -> rev (tp_clear s f ev) g = rev s g /\ reg (tp_clear s f ev) g = reg s g.
Proof.
  intros N. unfold tp_clear. destruct (f <? 0); auto. cbv zeta. cbn [rev reg]. rewrite upd_z_eq. destruct (Z.eqb_spec g f); [congruence|].
  split; auto. destruct (_ =? 0); auto. rewrite upd_z_eq. destruct (Z.eqb_spec g f); [congruence|auto].
Qed.
Lemma tp_clear_both s f : coherent s -> 0 <= f -> reg (tp_clear s f (Z.lor POLLIN POLLOUT)) f = 0 /\ rev (tp_clear s f (Z.lor POLLIN POLLOUT)) f = 0.
Proof.
  intros H F. unfold tp_clear. destruct (Z.ltb_spec f 0); [lia|]. cbv zeta. cbn [rev reg]. rewrite upd_z_eq, Z.eqb_refl, (co_bits _ H). cbn [Z.eqb].
  rewrite upd_z_eq, Z.eqb_refl. auto.
Qed.

Lemma existsb_in o l : existsb (Nat.eqb o) l = true <-> In o l.
Proof. rewrite existsb_exists. split; [intros (x & I & E); apply Nat.eqb_eq in E; subst; auto|intros I; exists o; rewrite Nat.eqb_refl; auto]. Qed.
Lemma nodup_snoc (l : list nat) o : NoDup l -> ~ In o l -> NoDup (l ++ [o]).
Proof.
  intros N I. apply NoDup_rev in N. rewrite <- (rev_involutive (l ++ [o])). apply NoDup_rev. rewrite rev_app_distr. cbn. constructor; auto.
  rewrite <- in_rev. auto.
Qed.

Lemma coh_close s o : coherent s -> coherent (do_act s (AClose o)).
Proof.
  intros H. cbn [do_act]. destruct (Z.ltb_spec (fd s o) 0) as [L|L]; [exact H|]. cbv zeta.
  pose proof (tp_clear_both s (fd s o) H L) as [RG RV]. pose proof (coh_tp_clear s (fd s o) (Z.lor POLLIN POLLOUT) H) as C.
  pose proof (tp_clear_same s (fd s o) (Z.lor POLLIN POLLOUT)) as (EO & EF & EW).
  set (s1 := tp_clear _ _ _) in *. clearbody s1. pose proof (co_own _ H o L) as OW. destruct C as [co_nodup0 co_range0 co_own0 co_fd0 co_pos0 co_reg0 co_bits0 co_rev0]. rewrite EF, EW in *.
  constructor; cbn [objs fd own reg rev]; auto.
  - intros x. rewrite upd_n_eq. destruct (x =? o)%nat; [lia|auto].
  - intros x. rewrite upd_n_eq, upd_z_eq. destruct (Nat.eqb_spec x o); [lia|]. intros P. destruct (Z.eqb_spec (fd s x) (fd s o)) as [E|E]; [|auto].
    specialize (co_own0 x P). rewrite E in co_own0. congruence.
  - intros f x. rewrite upd_n_eq, upd_z_eq. destruct (Z.eqb_spec f (fd s o)); [discriminate|]. intros O. destruct (Nat.eqb_spec x o); [|auto].
    subst. apply co_fd0 in O. congruence.
  - intros f. rewrite upd_z_eq. destruct (Z.eqb_spec f (fd s o)); [congruence|auto].
  - intros f. rewrite upd_z_eq. destruct (Z.eqb_spec f (fd s o)); [congruence|auto].
Qed.

Definition take (s : st) (o : nat) (f : Z) : st := mkSt (objs s) (upd_n (fd s) o f) (upd_z (own s) f (Of o)) (reg s) (rev s).

Lemma coh_take s o f : coherent s -> 0 <= f -> (own s f = Closed \/ own s f = Loose) -> fd s o = -1 -> coherent (take s o f).
Proof.
  intros H F O E. destruct H as [co_nodup0 co_range0 co_own0 co_fd0 co_pos0 co_reg0 co_bits0 co_rev0]. constructor; cbn [take objs fd own reg rev]; auto.
  - intros x. rewrite upd_n_eq. destruct (x =? o)%nat; [lia|auto].
  - intros x. rewrite upd_n_eq, upd_z_eq. destruct (Nat.eqb_spec x o); [rewrite Z.eqb_refl; congruence|].
    intros L. destruct (Z.eqb_spec (fd s x) f) as [X|X]; [|auto]. specialize (co_own0 x L). rewrite X in co_own0. destruct O; congruence.
  - intros g x. rewrite upd_n_eq, upd_z_eq. destruct (Z.eqb_spec g f).
    + intros X. injection X; intros <-. rewrite Nat.eqb_refl. auto.
    + intros W. destruct (Nat.eqb_spec x o); [|auto]. subst.
      assert (own s g <> Closed) as NC by congruence. apply co_pos0 in NC. apply co_fd0 in W. lia.
  - intros g. rewrite upd_z_eq. destruct (Z.eqb_spec g f); [subst; intros; lia|auto].
  - intros g. rewrite upd_z_eq. destruct (Z.eqb_spec g f); [subst; intros; discriminate|auto].
Qed.

Lemma coh_own s f w : coherent s -> 0 <= f -> (own s f = Closed \/ own s f = Loose) -> w = Loose \/ (w = Closed /\ reg s f = 0) ->
  coherent (mkSt (objs s) (fd s) (upd_z (own s) f w) (reg s) (rev s)).
Proof.
  intros H F O W. destruct H as [co_nodup0 co_range0 co_own0 co_fd0 co_pos0 co_reg0 co_bits0 co_rev0]. constructor; cbn [objs fd own reg rev]; auto.
  - intros x L. rewrite upd_z_eq. destruct (Z.eqb_spec (fd s x) f) as [X|X]; [|auto]. specialize (co_own0 x L). rewrite X in co_own0. destruct O; congruence.
  - intros g x. rewrite upd_z_eq. destruct (Z.eqb_spec g f); [|auto]. destruct W as [->|[-> _]]; discriminate.
  - intros g. rewrite upd_z_eq. destruct (Z.eqb_spec g f); [subst; intros; lia|auto].
  - intros g. rewrite upd_z_eq. destruct (Z.eqb_spec g f); [|auto]. subst. destruct W as [->|[-> R]]; [discriminate|congruence].
Qed.

Lemma closed_b w : is_closed w = true -> w = Closed.
Proof. destruct w; auto; discriminate. Qed.
Lemma loose_b w : is_loose w = true -> w = Loose.
Proof. destruct w; auto; discriminate. Qed.

Ltac andb := repeat match goal with H : _ && _ = true |- _ => apply andb_true_iff in H; destruct H
  | H : is_closed _ = true |- _ => apply closed_b in H | H : is_loose _ = true |- _ => apply loose_b in H end.

Lemma coh_act s a : coherent s -> plain a -> coherent (do_act s a).
Proof.
  intros H P. destruct a as [o f|f|f|f ev|o f|o ev|o ev|o|o]; [| | | | | | |apply coh_close; auto|]; cbn [do_act plain] in *.
  - destruct (_ && _) eqn:Q; [|exact H]. andb. apply coh_take; auto; lia.
  - destruct (_ && _) eqn:Q; [|exact H]. andb. apply coh_own; auto; lia.
  - destruct (_ && _) eqn:Q; [|exact H]. andb. apply coh_own; auto.
    + apply (co_pos _ H). congruence.
    + right. split; auto. lia.
  - destruct (is_loose _) eqn:Q; [|exact H]. andb. apply coh_tp_set; auto. congruence.
  - destruct (_ && _) eqn:Q; [|exact H]. andb. apply coh_take; auto; lia.
  - destruct (Z.leb_spec 0 (fd s o)) as [L|L].
    + apply coh_tp_set; auto. rewrite (co_own _ H o L). discriminate.
    + unfold tp_set. destruct (Z.ltb_spec (fd s o) 0); [exact H|lia].
  - apply coh_tp_clear; auto.
  - destruct (existsb _ _) eqn:Q; [exact H|]. destruct H as [co_nodup0 co_range0 co_own0 co_fd0 co_pos0 co_reg0 co_bits0 co_rev0]. constructor; cbn [objs fd own reg rev]; auto.
    apply nodup_snoc; auto. rewrite <- existsb_in. congruence.
Qed.

Lemma coh_acts l : forall s, coherent s -> Forall plain l -> coherent (do_acts s l).
Proof.
  induction l as [|a l IH]; intros s H P; [exact H|]. cbn [do_acts fold_left]. inversion P; subst. apply IH; auto. apply coh_act; auto.
Qed.

(** ** What actions change *)

Lemma act_objs s a : exists x, objs (do_act s a) = objs s ++ x /\ (forall o, In o x -> ~ In o (objs s)).
Proof.
  assert (N : forall t, objs t = objs s -> exists x, objs t = objs s ++ x /\ (forall o, In o x -> ~ In o (objs s))).
  { intros t E. exists []. rewrite app_nil_r. split; [exact E|intros o []]. }
  destruct a as [o f|f|f|f ev|o f|o ev|o ev|o|o]; cbn [do_act].
  - destruct (_ && _); apply N; auto.
  - destruct (_ && _); apply N; auto.
  - destruct (_ && _); apply N; auto.
  - destruct (is_loose _); apply N; auto. unfold tp_set. destruct (_ <? _); auto.
  - destruct (_ && _); apply N; auto.
  - apply N. unfold tp_set. destruct (_ <? _); auto.
  - apply N. apply tp_clear_same.
  - destruct (_ <? _); apply N; auto. cbn [objs]. apply tp_clear_same.
  - destruct (existsb _ _) eqn:Q; [apply N; auto|]. exists [o]. split; auto. intros x [<-|[]]. rewrite <- existsb_in. congruence.
Qed.

Lemma acts_objs l : forall s, exists x, objs (do_acts s l) = objs s ++ x.
Proof.
  induction l as [|a l IH]; intros s; cbn [do_acts fold_left].
  - exists []. rewrite app_nil_r. auto.
  - destruct (act_objs s a) as (x & E & _). destruct (IH (do_act s a)) as (y & E2). unfold do_acts in E2. exists (x ++ y). rewrite E2, E, app_assoc. auto.
Qed.

Lemma act_daemon s a f : coherent s -> own s f = Daemon -> own (do_act s a) f = Daemon.
Proof.
  intros H D. destruct a as [o g|g|g|g ev|o g|o ev|o ev|o|o]; cbn [do_act].
  - destruct (_ && _) eqn:Q; auto. andb. cbn [own]. rewrite upd_z_eq. destruct (Z.eqb_spec f g); [congruence|auto].
  - destruct (_ && _) eqn:Q; auto. andb. cbn [own]. rewrite upd_z_eq. destruct (Z.eqb_spec f g); [congruence|auto].
  - destruct (_ && _) eqn:Q; auto. andb. cbn [own]. rewrite upd_z_eq. destruct (Z.eqb_spec f g); [congruence|auto].
  - destruct (is_loose _); auto. unfold tp_set. destruct (_ <? _); auto.
  - destruct (_ && _) eqn:Q; auto. andb. cbn [own]. rewrite upd_z_eq. destruct (Z.eqb_spec f g); [congruence|auto].
  - unfold tp_set. destruct (_ <? _); auto.
  - destruct (tp_clear_same s (fd s o) ev) as (_ & _ & ->). auto.
  - destruct (Z.ltb_spec (fd s o) 0); auto. cbv zeta. cbn [own]. destruct (tp_clear_same s (fd s o) (Z.lor POLLIN POLLOUT)) as (_ & _ & ->).
    rewrite upd_z_eq. destruct (Z.eqb_spec f (fd s o)) as [->|]; auto. rewrite (co_own _ H o) in D by lia. discriminate.
  - destruct (existsb _ _); auto.
Qed.

(** An action changes what is reported for a descriptor only by withdrawing it; and then,
    and whenever it changes the owner of a descriptor, nothing is reported for it. *)
Lemma act_rev s a f : rev (do_act s a) f = rev s f \/ rev (do_act s a) f = 0.
Proof.
  destruct a as [o g|g|g|g ev|o g|o ev|o ev|o|o]; cbn [do_act].
  - destruct (_ && _); auto.
  - destruct (_ && _); auto.
  - destruct (_ && _); auto.
  - destruct (is_loose _); auto. unfold tp_set. destruct (_ <? _); auto.
  - destruct (_ && _); auto.
  - unfold tp_set. destruct (_ <? _); auto.
  - apply tp_clear_rev.
  - destruct (_ <? _); auto. cbn [rev]. apply tp_clear_rev.
  - destruct (existsb _ _); auto.
Qed.

Lemma act_held s a o : coherent s -> 0 <= fd s o -> rev (do_act s a) (fd s o) <> 0 -> fd (do_act s a) o = fd s o.
Proof.
  intros H L. destruct a as [x g|g|g|g ev|x g|x ev|x ev|x|x]; cbn [do_act].
  - destruct (_ && _) eqn:Q; auto. andb. cbn [fd rev]. rewrite upd_n_eq. destruct (Nat.eqb_spec o x); [subst; lia|auto].
  - destruct (_ && _); auto.
  - destruct (_ && _); auto.
  - destruct (is_loose _); auto. unfold tp_set. destruct (_ <? _); auto.
  - destruct (_ && _) eqn:Q; auto. andb. cbn [fd rev]. rewrite upd_n_eq. destruct (Nat.eqb_spec o x); [subst; lia|auto].
  - unfold tp_set. destruct (_ <? _); auto.
  - intros _. destruct (tp_clear_same s (fd s x) ev) as (_ & -> & _). auto.
  - destruct (Z.ltb_spec (fd s x) 0); auto. cbv zeta. cbn [fd rev]. destruct (tp_clear_same s (fd s x) (Z.lor POLLIN POLLOUT)) as (_ & -> & _).
    rewrite upd_n_eq. destruct (Nat.eqb_spec o x); auto. subst. intros R. exfalso. apply R. apply tp_clear_both; auto.
  - destruct (existsb _ _); auto.
Qed.

Lemma act_spares s a o : coherent s -> 0 <= fd s o -> spares o a -> fd (do_act s a) o = fd s o /\ rev (do_act s a) (fd s o) = rev s (fd s o).
Proof.
  intros H L. destruct a as [x g|g|g|g ev|x g|x ev|x ev|x|x]; cbn [do_act spares]; intros S.
  - destruct (_ && _) eqn:Q; auto. cbn [fd rev]. rewrite upd_n_eq. destruct (Nat.eqb_spec o x); [congruence|auto].
  - destruct (_ && _); auto.
  - destruct (_ && _); auto.
  - destruct (is_loose _); auto. unfold tp_set. destruct (_ <? _); auto.
  - destruct (_ && _) eqn:Q; auto. cbn [fd rev]. rewrite upd_n_eq. destruct (Nat.eqb_spec o x); [congruence|auto].
  - unfold tp_set. destruct (_ <? _); auto.
  - destruct (tp_clear_same s (fd s x) ev) as (_ & -> & _). split; auto. apply tp_clear_other. intros E.
    pose proof (co_own _ H o L) as A. pose proof (co_own _ H x) as B. rewrite E in A. rewrite <- E in B. specialize (B L). rewrite E in B. congruence.
  - destruct (Z.ltb_spec (fd s x) 0); auto. cbv zeta. cbn [fd rev]. destruct (tp_clear_same s (fd s x) (Z.lor POLLIN POLLOUT)) as (_ & -> & _).
    rewrite upd_n_eq. destruct (Nat.eqb_spec o x); [congruence|]. split; auto. apply tp_clear_other. intros E.
    pose proof (co_own _ H o L) as A. pose proof (co_own _ H x) as B. rewrite E in A. specialize (B ltac:(lia)). congruence.
  - destruct (existsb _ _); auto.
Qed.

(** ** The count *)

(** [l] covers what is reported and not yet dealt with: the descriptors [ex] and those of
    the first [pos] objects have been counted. *)
Definition covers (s : st) (pos : nat) (ex l : list Z) : Prop :=
  forall f, rev s f <> 0 -> In f l \/ In f ex \/ exists o, In o (firstn pos (objs s)) /\ fd s o = f.

Lemma firstn_grow {A} pos (l x : list A) a : In a (firstn pos l) -> In a (firstn pos (l ++ x)).
Proof. intros I. rewrite firstn_app. apply in_or_app. auto. Qed.

Lemma covers_act s a pos ex l : coherent s -> covers s pos ex l -> covers (do_act s a) pos ex l.
Proof.
  intros H C f R. assert (R0 : rev s f <> 0) by (destruct (act_rev s a f) as [E|E]; congruence).
  destruct (C f R0) as [I|[I|(o & I & E)]]; auto. right. right. exists o.
  destruct (act_objs s a) as (x & -> & _). split; [apply firstn_grow; auto|]. subst f. apply act_held; auto.
  pose proof (co_rev _ H _ R0) as G. apply (co_reg _ H) in G. apply (co_pos _ H) in G. exact G.
Qed.
Lemma covers_acts acts : forall s pos ex l, coherent s -> Forall plain acts -> covers s pos ex l -> covers (do_acts s acts) pos ex l.
Proof.
  induction acts as [|a acts IH]; intros s pos ex l H P C; [exact C|]. cbn [do_acts fold_left]. inversion P; subst.
  apply IH; auto using coh_act, covers_act.
Qed.

Lemma is_set_rev s f ev : is_set s f ev = true -> rev s f <> 0 /\ 0 <= f.
Proof.
  unfold is_set. destruct (Z.ltb_spec f 0); [discriminate|]. intros Hs. split; [|lia]. intros E. rewrite E in Hs. discriminate.
Qed.

Lemma remove_len f l : In f l -> (length (remove Z.eq_dec f l) < length l)%nat.
Proof. apply remove_length_lt. Qed.
Lemma in_remove f g l : In g l -> g <> f -> In g (remove Z.eq_dec f l).
Proof. intros. apply in_in_remove; auto. Qed.

Lemma nth_error_first {A} (l : list A) : forall pos k, (k < pos)%nat -> nth_error (firstn pos l) k = nth_error l k.
Proof.
  induction l as [|x l IH]; intros [|pos] [|k] K; cbn; auto; try lia. apply IH. lia.
Qed.
Lemma nth_in_firstn {A} (l : list A) pos o : nth_error l pos = Some o -> firstn (S pos) l = firstn pos l ++ [o].
Proof.
  revert pos; induction l as [|x l IH]; intros [|pos] E; cbn in *; try discriminate; [congruence|]. rewrite (IH _ E). reflexivity.
Qed.

(** Looking at the object at [pos] uses up one of the count if something is reported. *)
Lemma covers_visit s pos ex l o n : nth_error (objs s) pos = Some o -> covers s pos ex l -> Z.of_nat (length l) <= n ->
  coherent s -> (forall f, In f ex -> own s f = Daemon) ->
  exists l', covers s (S pos) ex l' /\ Z.of_nat (length l') <= (if is_set s (fd s o) (Z.lor POLLIN (Z.lor POLLHUP POLLERR)) || is_set s (fd s o) POLLOUT then n - 1 else n).
Proof.
  intros E C L H D. assert (G : covers s (S pos) ex l).
  { intros f R. destruct (C f R) as [I|[I|(x & I & F)]]; auto. right. right. exists x. split; auto. rewrite (nth_in_firstn _ _ _ E). apply in_or_app. auto. }
  destruct (_ || _) eqn:Q; [|exists l; auto].
  assert (R : rev s (fd s o) <> 0 /\ 0 <= fd s o).
  { apply orb_true_iff in Q. destruct Q as [Q|Q]; apply is_set_rev in Q; auto. }
  destruct R as [R F]. destruct (C _ R) as [I|[I|(x & I & E2)]].
  - exists (remove Z.eq_dec (fd s o) l). split; [|pose proof (remove_len _ _ I); lia].
    intros f R2. destruct (Z.eq_dec f (fd s o)) as [->|N].
    + right. right. exists o. split; auto. rewrite (nth_in_firstn _ _ _ E). apply in_or_app. right. left. auto.
    + destruct (G f R2) as [J|J]; auto. left. apply in_remove; auto.
  - exfalso. apply D in I. rewrite (co_own _ H o F) in I. discriminate.
  - exfalso. assert (x = o) as ->. { pose proof (co_own _ H o F) as A. pose proof (co_own _ H x) as B. rewrite E2 in B. specialize (B F). congruence. }
    apply In_nth_error in I. destruct I as (k & K). assert (K2 : (k < pos)%nat).
    { assert (k < length (firstn pos (objs s)))%nat by (apply nth_error_Some; congruence). rewrite firstn_length in *. lia. }
    rewrite nth_error_first in K by lia.
    pose proof (proj1 (NoDup_nth_error (objs s)) (co_nodup _ H) k pos) as N. assert (k = pos); [|lia]. apply N; [apply nth_error_Some; congruence|congruence].
Qed.

(** ** Deleting an object *)

Lemma filter_notin (l : list nat) o : ~ In o l -> filter (fun x => negb (x =? o)%nat) l = l.
Proof.
  induction l as [|x l IH]; intros N; cbn [filter]; auto. cbn [In] in N. destruct (Nat.eqb_spec x o); [tauto|]. cbn [negb]. rewrite IH; tauto.
Qed.
Lemma filter_nodup (f : nat -> bool) l : NoDup l -> NoDup (filter f l).
Proof.
  induction 1 as [|x l N D IH]; cbn [filter]; [constructor|]. destruct (f x); auto. constructor; auto. intros I. apply filter_In in I. tauto.
Qed.
Lemma filter_split l pos o : NoDup l -> nth_error l pos = Some o ->
  filter (fun x => negb (x =? o)%nat) l = firstn pos l ++ skipn (S pos) l.
Proof.
  revert pos. induction l as [|x l IH]; intros [|pos] N E; cbn [nth_error] in E; try discriminate.
  - injection E; intros ->. cbn [filter firstn skipn app]. rewrite Nat.eqb_refl. cbn [negb]. apply filter_notin. inversion N; auto.
  - cbn [filter firstn skipn app]. inversion N; subst. destruct (Nat.eqb_spec x o) as [->|].
    + exfalso. apply H1. eapply nth_error_In; eauto.
    + cbn [negb]. f_equal. apply IH; auto.
Qed.

Lemma del_objs s o : objs (del_at s o) = filter (fun x => negb (x =? o)%nat) (objs s).
Proof.
  unfold del_at. cbn [do_act fd]. destruct (_ <? _); [reflexivity|]. cbv zeta. cbn [objs].
  match goal with |- objs (tp_clear ?x ?f ?e) = _ => destruct (tp_clear_same x f e) as (-> & _ & _) end. reflexivity.
Qed.

Lemma del_coh s o : coherent s -> coherent (del_at s o).
Proof.
  intros H. apply coh_close. destruct H as [A B C D E F G I]. constructor; cbn [objs fd own reg rev]; auto. apply filter_nodup; auto.
Qed.
Definition shrunk (s : st) (o : nat) : st := mkSt (filter (fun x => negb (x =? o)%nat) (objs s)) (fd s) (own s) (reg s) (rev s).
Lemma shrunk_coh s o : coherent s -> coherent (shrunk s o).
Proof. intros [A B C D E F G I]. constructor; cbn [shrunk objs fd own reg rev]; auto. apply filter_nodup; auto. Qed.
Lemma del_eq s o : del_at s o = do_act (shrunk s o) (AClose o).
Proof. reflexivity. Qed.

Lemma close_rev0 s o : coherent s -> 0 <= fd s o -> rev (do_act s (AClose o)) (fd s o) = 0.
Proof.
  intros H L. cbn [do_act]. destruct (Z.ltb_spec (fd s o) 0); [lia|]. cbv zeta. cbn [rev]. apply tp_clear_both; auto.
Qed.

Lemma del_covers s pos ex l o : coherent s -> nth_error (objs s) pos = Some o -> covers s (S pos) ex l -> covers (del_at s o) pos ex l.
Proof.
  intros H E C f R.
  assert (R0 : rev s f <> 0) by (rewrite del_eq in R; destruct (act_rev (shrunk s o) (AClose o) f) as [X|X]; rewrite X in R; [exact R|congruence]).
  assert (F0 : 0 <= f) by (pose proof (co_rev _ H _ R0) as G; apply (co_reg _ H) in G; apply (co_pos _ H) in G; exact G).
  destruct (C f R0) as [I|[I|(x & I & F)]]; auto. rewrite (nth_in_firstn _ _ _ E) in I. apply in_app_or in I. destruct I as [I|[<-|[]]].
  - right. right. exists x. split.
    + rewrite del_objs, (filter_split _ _ _ (co_nodup _ H) E). rewrite firstn_app. apply in_or_app. left.
      rewrite firstn_firstn, Nat.min_id. exact I.
    + rewrite del_eq in *. rewrite <- F in *. apply (act_held (shrunk s o)); auto using shrunk_coh.
  - exfalso. rewrite del_eq in R. apply R. rewrite <- F. apply (close_rev0 (shrunk s o)); [apply shrunk_coh; auto|]. cbn [shrunk fd]. lia.
Qed.

Lemma del_daemon s o f : coherent s -> own s f = Daemon -> own (del_at s o) f = Daemon.
Proof. intros H D. rewrite del_eq. apply act_daemon; auto using shrunk_coh. Qed.
Lemma acts_daemon l : forall s f, coherent s -> Forall plain l -> own s f = Daemon -> own (do_acts s l) f = Daemon.
Proof.
  induction l as [|a l IH]; intros s f H P D; [exact D|]. cbn [do_acts fold_left]. inversion P; subst. apply IH; auto using coh_act, act_daemon.
Qed.
Lemma acts_nth l s pos o : nth_error (objs s) pos = Some o -> nth_error (objs (do_acts s l)) pos = Some o.
Proof.
  intros E. destruct (acts_objs l s) as (x & ->). rewrite nth_error_app1; auto. apply nth_error_Some. congruence.
Qed.

(** ** One turn *)

Definition good (s : st) (pos : nat) (n : Z) (ex : list Z) : Prop :=
  coherent s /\ (forall f, In f ex -> own s f = Daemon) /\ exists l, covers s pos ex l /\ Z.of_nat (length l) <= n.

Lemma good_acts s pos n ex l : good s pos n ex -> Forall plain l -> good (do_acts s l) pos n ex.
Proof.
  intros (H & D & k & C & L) P. split; [apply coh_acts; auto|]. split; [intros; apply acts_daemon; auto|]. exists k. split; auto. apply covers_acts; auto.
Qed.
Lemma good_del s pos n ex o : good s (S pos) n ex -> nth_error (objs s) pos = Some o -> good (del_at s o) pos n ex.
Proof.
  intros (H & D & k & C & L) E. split; [apply del_coh; auto|]. split; [intros; apply del_daemon; auto|]. exists k. split; auto. apply del_covers; auto.
Qed.

Lemma one_good n pos s t ex s' tr n' pos' : good s pos n ex -> plain_turn t -> one n pos s t = (s', tr, Some (n', pos')) -> good s' pos' n' ex.
Proof.
  intros G (P1 & P2 & P3). unfold one. cbv zeta. pose proof (good_acts _ _ _ _ _ G P1) as G1. clear G. set (s1 := do_acts s (t_pre t)) in *. clearbody s1.
  destruct (n <=? 0); [discriminate|]. destruct (nth_error (objs s1) pos) as [o|] eqn:E; [|discriminate].
  destruct G1 as (H & D & k & C & L). destruct (covers_visit _ _ _ _ _ _ E C L H D) as (k' & C' & L').
  set (n1 := if _ || _ then n - 1 else n) in *. clearbody n1.
  assert (G2 : good s1 (S pos) n1 ex) by (split; [exact H|split; [exact D|exists k'; auto]]). clear k C L k' C' L'.
  assert (A : forall s2, good s2 (S pos) n1 ex -> nth_error (objs s2) pos = Some o ->
    forall tr2, (let '(s3, dead, tr3) := if is_set s1 (fd s1 o) POLLOUT then (do_acts s2 (fst (t_write t)), snd (t_write t), tr2 ++ Wrote o :: map Did (fst (t_write t))) else (s2, false, tr2) in
      if dead then (del_at s3 o, tr3 ++ [Deleted o], Some (n1, pos)) else (s3, tr3, Some (n1, S pos))) = (s', tr, Some (n', pos')) -> good s' pos' n' ex).
  { intros s2 G E2 tr2. destruct (is_set s1 (fd s1 o) POLLOUT).
    - pose proof (good_acts _ _ _ _ _ G P3) as G3. pose proof (acts_nth (fst (t_write t)) s2 pos o E2) as E3. destruct (snd (t_write t)).
      + intros X. injection X; intros <- <- _ <-. apply good_del; auto.
      + intros X. injection X; intros <- <- _ <-. auto.
    - intros X. injection X; intros <- <- _ <-. auto. }
  destruct (is_set s1 (fd s1 o) (Z.lor POLLIN (Z.lor POLLHUP POLLERR))).
  - pose proof (good_acts _ _ _ _ _ G2 P2) as G3. pose proof (acts_nth (fst (t_read t)) s1 pos o E) as E3. destruct (snd (t_read t)).
    + intros X. injection X; intros <- <- _ <-. apply good_del; auto.
    + apply A; auto.
  - apply A; auto.
Qed.

(** Nothing reported is left when the loop ends. *)
Lemma one_end n pos s t ex s' tr : good s pos n ex -> plain_turn t -> one n pos s t = (s', tr, None) ->
  coherent s' /\ forall o, In o (skipn pos (objs s')) -> 0 <= fd s' o -> rev s' (fd s' o) = 0.
Proof.
  intros G (P1 & P2 & P3). unfold one. cbv zeta. pose proof (good_acts _ _ _ _ _ G P1) as G1. clear G. set (s1 := do_acts s (t_pre t)) in *. clearbody s1.
  assert (T : (s1, map Did (t_pre t), None) = (s', tr, None) :> st * list ev * option (Z * nat) -> s1 = s') by congruence.
  destruct G1 as (H & D & k & C & L).
  destruct (Z.leb_spec n 0) as [N|N].
  - intros X. apply T in X. subst s'. split; auto. intros o I F. destruct (Z.eq_dec (rev s1 (fd s1 o)) 0) as [|R]; auto. exfalso.
    assert (k = []) as -> by (destruct k; [auto|cbn in L; lia]). destruct (C _ R) as [[]|[J|(x & J & E)]].
    + apply D in J. rewrite (co_own _ H o F) in J. discriminate.
    + assert (x = o) as ->. { pose proof (co_own _ H o F) as A. pose proof (co_own _ H x) as B. rewrite E in B. specialize (B F). congruence. }
      pose proof (co_nodup _ H) as ND. rewrite <- (firstn_skipn pos (objs s1)) in ND. clear - J I ND.
      induction (firstn pos (objs s1)) as [|y l IH]; [destruct J|]. cbn [app] in ND. inversion ND; subst. destruct J as [->|J]; [apply H1; apply in_or_app; auto|auto].
  - destruct (nth_error (objs s1) pos) as [o|] eqn:E.
    + destruct (is_set s1 (fd s1 o) (Z.lor POLLIN (Z.lor POLLHUP POLLERR))); destruct (is_set s1 (fd s1 o) POLLOUT);
        destruct (snd (t_read t)); destruct (snd (t_write t)); discriminate.
    + intros X. apply T in X. subst s'. split; auto. intros o I. apply nth_error_None in E. rewrite skipn_all2 in I by lia. destruct I.
Qed.

Lemma serve_end ts : forall n pos s ex s' p l, good s pos n ex -> Forall plain_turn ts -> serve n pos s ts = Ok (s', p, l) ->
  coherent s' /\ forall o, In o (skipn p (objs s')) -> 0 <= fd s' o -> rev s' (fd s' o) = 0.
Proof.
  induction ts as [|t ts IH]; intros n pos s ex s' p l G P; cbn [serve]; [discriminate|]. inversion P; subst.
  destruct (one n pos s t) as [[s1 tr] [[n1 pos1]|]] eqn:O.
  - destruct (serve n1 pos1 s1 ts) as [[[s2 p2] l2]|] eqn:S; cbn [bind]; [|discriminate]. intros X. injection X; intros _ <- <-.
    eapply IH; [|auto|exact S]. eapply one_good; eauto.
  - intros X. injection X; intros _ <- <-. eapply one_end; eauto.
Qed.

(** ** An object that is not interfered with *)

(** [b]: the events looked for *)
Definition tracked (s : st) (pos : nat) (o : nat) (b : Z) : Prop := In o (skipn pos (objs s)) /\ is_set s (fd s o) b = true.

Definition undisturbed_acts (o : nat) (l : list act) : Prop := Forall (spares o) l.

Lemma spares_dec o a : spares o a \/ ~ spares o a.
Proof. destruct a; cbn [spares]; auto; destruct (Nat.eq_dec o0 o); tauto. Qed.
Lemma acts_dec o l : Forall (spares o) l \/ exists l1 a l2, l = l1 ++ a :: l2 /\ ~ spares o a.
Proof.
  induction l as [|a l IH]; [left; constructor|]. destruct (spares_dec o a) as [S|S]; [|right; exists [], a, l; auto].
  destruct IH as [F|(l1 & b & l2 & -> & N)]; [left; constructor; auto|right; exists (a :: l1), b, l2; auto].
Qed.

Lemma skipn_grow {A} pos (l x : list A) a : In a (skipn pos l) -> In a (skipn pos (l ++ x)).
Proof. intros I. rewrite skipn_app. apply in_or_app. auto. Qed.

Lemma tracked_acts l : forall s pos o b, coherent s -> Forall plain l -> Forall (spares o) l -> tracked s pos o b -> tracked (do_acts s l) pos o b.
Proof.
  induction l as [|a l IH]; intros s pos o b H P F T; [exact T|]. cbn [do_acts fold_left]. inversion P; subst. inversion F; subst.
  apply IH; auto using coh_act. destruct T as [I S]. pose proof (is_set_rev _ _ _ S) as [_ L].
  destruct (act_spares s a o H L H4) as [E1 E2]. split.
  - destruct (act_objs s a) as (x & -> & _). apply skipn_grow; auto.
  - rewrite E1. unfold is_set in *. rewrite E2. exact S.
Qed.

Lemma did_in o l a : ~ In (Visited o) (map Did l) /\ ~ In (Visited o) (map Did l ++ [Did a]).
Proof.
  assert (G : ~ In (Visited o) (map Did l)). { intros I. apply in_map_iff in I. destruct I as (x & E & _). discriminate. }
  split; auto. intros I. apply in_app_or in I. destruct I as [I|[I|[]]]; [auto|discriminate].
Qed.

Lemma disturbed_map o l r : (exists l1 a l2, l = l1 ++ a :: l2 /\ ~ spares o a) -> disturbed o (map Did l ++ r).
Proof.
  intros (l1 & a & l2 & -> & N). exists (map Did l1), a, (map Did l2 ++ r). split; [|split; auto; apply (did_in o l1 a)].
  rewrite map_app. cbn [map]. rewrite <- app_assoc. reflexivity.
Qed.
Lemma disturbed_app o l r : ~ In (Visited o) l -> disturbed o r -> disturbed o (l ++ r).
Proof.
  intros N (l1 & a & l2 & -> & S & V). exists (l ++ l1), a, l2. rewrite app_assoc. split; auto. split; auto. intros I. apply in_app_or in I. tauto.
Qed.
Lemma disturbed_right o l r : disturbed o l -> disturbed o (l ++ r).
Proof. intros (l1 & a & l2 & -> & S & V). exists l1, a, (l2 ++ r). rewrite <- app_assoc. auto. Qed.

Definition INS : Z := Z.lor POLLIN (Z.lor POLLHUP POLLERR).
Definition answered (o : nat) (b : Z) (tr : list ev) : Prop :=
  (b = INS /\ In (Read o) tr) \/ (b = POLLOUT /\ (In (Wrote o) tr \/ In (Deleted o) tr)).

Lemma skipn_nth {A} (l : list A) pos x : nth_error l pos = Some x -> skipn pos l = x :: skipn (S pos) l.
Proof.
  revert pos. induction l as [|y l IH]; intros [|pos] E; cbn [nth_error] in E; try discriminate; [injection E; intros ->; reflexivity|].
  cbn [skipn]. rewrite (IH _ E). reflexivity.
Qed.

Lemma tracked_next s pos o b x : tracked s pos o b -> nth_error (objs s) pos = Some x -> x <> o -> tracked s (S pos) o b.
Proof.
  intros [I S] E N. split; auto. rewrite (skipn_nth _ _ _ E) in I. destruct I as [I|I]; [congruence|exact I].
Qed.
Lemma tracked_del s pos o b x : coherent s -> tracked s pos o b -> nth_error (objs s) pos = Some x -> x <> o -> tracked (del_at s x) pos o b.
Proof.
  intros H T E N. destruct (tracked_next _ _ _ _ _ T E N) as [I S]. pose proof (is_set_rev _ _ _ S) as [_ L]. split.
  - rewrite del_objs, (filter_split _ _ _ (co_nodup _ H) E). rewrite skipn_app. apply in_or_app. right.
    assert (pos < length (objs s))%nat by (apply nth_error_Some; congruence). rewrite firstn_length. replace (pos - Nat.min pos (length (objs s)))%nat with 0%nat by lia. exact I.
  - rewrite del_eq. destruct (act_spares (shrunk s x) (AClose x) o) as [E1 E2]; [apply shrunk_coh; auto|exact L|cbn; auto|].
    unfold is_set in *. rewrite E1. cbn [shrunk fd] in *. rewrite E2. exact S.
Qed.

Lemma not_visited_mid o x l y : x <> o -> ~ In (Visited o) (map Did l ++ [Visited x] ++ y) <-> ~ In (Visited o) y.
Proof.
  intros N. split; intros H I; apply H.
  - apply in_or_app. right. right. exact I.
  - apply in_app_or in I. destruct I as [I|[I|I]]; [exfalso; apply (proj1 (did_in o l (AClose 0)) I)|congruence|exact I].
Qed.

Lemma one_tracked n pos s t ex o b s' tr r : good s pos n ex -> plain_turn t -> b = INS \/ b = POLLOUT ->
  tracked s pos o b -> one n pos s t = (s', tr, r) ->
  disturbed o tr \/ (exists n' pos', r = Some (n', pos') /\ (answered o b tr \/ (tracked s' pos' o b /\ ~ In (Visited o) tr))).
Proof.
  intros G (P1 & P2 & P3) B T. unfold one. cbv zeta.
  destruct (acts_dec o (t_pre t)) as [F1|F1].
  2:{ intros E. left. assert (X : exists y, tr = map Did (t_pre t) ++ y).
      { destruct (n <=? 0); [injection E; intros _ <- _; exists []; rewrite app_nil_r; auto|].
        destruct (nth_error _ _) as [x|]; [|injection E; intros _ <- _; exists []; rewrite app_nil_r; auto].
        destruct (is_set _ _ (Z.lor POLLIN _)); destruct (is_set _ _ POLLOUT); destruct (snd (t_read t)); destruct (snd (t_write t));
          injection E; intros _ <- _; rewrite <- ?app_assoc; eexists; reflexivity. }
      destruct X as (y & ->). apply disturbed_map; auto. }
  destruct G as (H0 & D0 & k & C0 & L0).
  pose proof (good_acts _ _ _ _ (t_pre t) (conj H0 (conj D0 (ex_intro _ k (conj C0 L0)))) P1) as G1.
  pose proof (tracked_acts _ _ _ _ _ H0 P1 F1 T) as T1. clear T H0 D0 k C0 L0.
  set (s1 := do_acts s (t_pre t)) in *. clearbody s1. destruct G1 as (H & D & k & C & L).
  pose proof T1 as [I1 S1]. pose proof (is_set_rev _ _ _ S1) as [R1 FD].
  destruct (Z.leb_spec n 0) as [N|N].
  { exfalso. assert (k = []) as -> by (destruct k; [auto|cbn in L; lia]). destruct (C _ R1) as [[]|[J|(x & J & E)]].
    + apply D in J. rewrite (co_own _ H o FD) in J. discriminate.
    + assert (x = o) as ->. { pose proof (co_own _ H o FD) as A. pose proof (co_own _ H x) as B2. rewrite E in B2. specialize (B2 FD). congruence. }
      pose proof (co_nodup _ H) as ND. rewrite <- (firstn_skipn pos (objs s1)) in ND. clear - J I1 ND.
      induction (firstn pos (objs s1)) as [|y l IH]; [destruct J|]. cbn [app] in ND. inversion ND; subst. destruct J as [->|J]; [apply H1; apply in_or_app; auto|auto]. }
  destruct (nth_error (objs s1) pos) as [x|] eqn:E.
  2:{ exfalso. apply nth_error_None in E. rewrite skipn_all2 in I1 by lia. destruct I1. }
  set (n1 := if _ || _ then n - 1 else n). clearbody n1.
  destruct (Nat.eq_dec x o) as [->|NE].
  - (* the object itself *)
    destruct B as [-> | ->].
    + change (Z.lor POLLIN (Z.lor POLLHUP POLLERR)) with INS. rewrite S1. destruct (snd (t_read t)).
      * intros X. injection X; intros <- <- _. right. do 2 eexists. split; [reflexivity|]. left. left. split; auto.
        apply in_or_app. left. apply in_or_app. right. left. reflexivity.
      * destruct (is_set s1 (fd s1 o) POLLOUT); [destruct (snd (t_write t))|]; intros X; injection X; intros <- <- _; right; do 2 eexists; (split; [reflexivity|]); left; left; split; auto;
          rewrite <- ?app_assoc; apply in_or_app; right; apply in_or_app; right; left; reflexivity.
    + rewrite S1. destruct (is_set s1 (fd s1 o) (Z.lor POLLIN (Z.lor POLLHUP POLLERR))).
      * destruct (snd (t_read t)).
        { intros X. injection X; intros <- <- _. right. do 2 eexists. split; [reflexivity|]. left. right. split; auto. right. apply in_or_app. right. left. auto. }
        destruct (snd (t_write t)); intros X; injection X; intros <- <- _; right; do 2 eexists; (split; [reflexivity|]); left; right; split; auto; left;
          rewrite <- ?app_assoc; apply in_or_app; right; apply in_or_app; right; apply in_or_app; right; left; reflexivity.
      * destruct (snd (t_write t)); intros X; injection X; intros <- <- _; right; do 2 eexists; (split; [reflexivity|]); left; right; split; auto; left;
          rewrite <- ?app_assoc; apply in_or_app; right; apply in_or_app; right; left; reflexivity.
  - (* another object *)
    assert (W : forall s2 y, coherent s2 -> tracked s2 pos o b -> nth_error (objs s2) pos = Some x -> ~ In (Visited o) y ->
      (let '(s3, dead, tr3) := if is_set s1 (fd s1 x) POLLOUT then (do_acts s2 (fst (t_write t)), snd (t_write t), ((map Did (t_pre t) ++ [Visited x]) ++ y) ++ Wrote x :: map Did (fst (t_write t))) else (s2, false, (map Did (t_pre t) ++ [Visited x]) ++ y) in
        if dead then (del_at s3 x, tr3 ++ [Deleted x], Some (n1, pos)) else (s3, tr3, Some (n1, S pos))) = (s', tr, r) ->
      disturbed o tr \/ (exists n' pos', r = Some (n', pos') /\ (answered o b tr \/ (tracked s' pos' o b /\ ~ In (Visited o) tr)))).
    { intros s2 y H2 T2 E2 Y. destruct (is_set s1 (fd s1 x) POLLOUT).
      - destruct (acts_dec o (fst (t_write t))) as [F3|F3].
        + pose proof (tracked_acts _ _ _ _ _ H2 P3 F3 T2) as T3. pose proof (acts_nth (fst (t_write t)) s2 pos x E2) as E3.
          pose proof (coh_acts _ _ H2 P3) as H3. destruct (snd (t_write t)); intros X; injection X; intros <- <- <-; right; do 2 eexists; (split; [reflexivity|]); right.
          * split; [apply tracked_del; auto|]. rewrite <- !app_assoc. apply not_visited_mid; auto. intros J. apply in_app_or in J. destruct J as [J|J]; [auto|].
            destruct J as [J|J]; [discriminate|]. apply in_app_or in J. destruct J as [J|[J|[]]]; [|discriminate]. apply (proj1 (did_in o (fst (t_write t)) (AClose 0)) J).
          * split; [eapply tracked_next; eauto|]. rewrite <- !app_assoc. apply not_visited_mid; auto. intros J. apply in_app_or in J. destruct J as [J|J]; [auto|].
            destruct J as [J|J]; [discriminate|]. apply (proj1 (did_in o (fst (t_write t)) (AClose 0)) J).
        + assert (Q : forall z, disturbed o (((map Did (t_pre t) ++ [Visited x]) ++ y) ++ Wrote x :: map Did (fst (t_write t)) ++ z)).
          { intros z. apply disturbed_app.
            - rewrite <- app_assoc. apply not_visited_mid; auto.
            - change (Wrote x :: map Did (fst (t_write t)) ++ z) with ([Wrote x] ++ map Did (fst (t_write t)) ++ z). apply disturbed_app; [intros [J|[]]; discriminate|]. apply disturbed_map; auto. }
          destruct (snd (t_write t)); intros X; injection X; intros <- <- <-; left.
          * rewrite <- app_assoc. cbn [app]. apply Q.
          * specialize (Q []). rewrite app_nil_r in Q. exact Q.
      - intros X. injection X; intros <- <- <-. right. do 2 eexists. split; [reflexivity|]. right. split; [eapply tracked_next; eauto|].
        rewrite <- app_assoc. apply not_visited_mid; auto. }
    destruct (is_set s1 (fd s1 x) (Z.lor POLLIN (Z.lor POLLHUP POLLERR))).
    + destruct (acts_dec o (fst (t_read t))) as [F2|F2].
      * pose proof (tracked_acts _ _ _ _ _ H P2 F2 T1) as T3. pose proof (acts_nth (fst (t_read t)) s1 pos x E) as E3. pose proof (coh_acts _ _ H P2) as H3.
        assert (Y : ~ In (Visited o) (Read x :: map Did (fst (t_read t)))) by (intros [J|J]; [discriminate|apply (proj1 (did_in o (fst (t_read t)) (AClose 0)) J)]).
        destruct (snd (t_read t)).
        { intros X. injection X; intros <- <- <-. right. do 2 eexists. split; [reflexivity|]. right. split; [apply tracked_del; auto|].
          rewrite <- !app_assoc. apply not_visited_mid; auto. intros J. apply in_app_or in J. destruct J as [J|[J|[]]]; [auto|discriminate]. }
        apply W; auto.
      * assert (Q : forall z, disturbed o ((map Did (t_pre t) ++ [Visited x]) ++ Read x :: map Did (fst (t_read t)) ++ z)).
        { intros z. rewrite <- app_assoc. apply disturbed_app; [apply (did_in o _ (AClose 0))|]. apply disturbed_app; [intros [J|[]]; congruence|].
          change (Read x :: map Did (fst (t_read t)) ++ z) with ([Read x] ++ map Did (fst (t_read t)) ++ z). apply disturbed_app; [intros [J|[]]; discriminate|]. apply disturbed_map; auto. }
        assert (Q0 : disturbed o ((map Did (t_pre t) ++ [Visited x]) ++ Read x :: map Did (fst (t_read t)))) by (specialize (Q []); rewrite app_nil_r in Q; exact Q).
        destruct (snd (t_read t)); [intros X; injection X; intros <- <- <-; left; apply disturbed_right, Q0|].
        destruct (is_set s1 (fd s1 x) POLLOUT); [destruct (snd (t_write t))|]; intros X; injection X; intros <- <- <-; left; first [exact Q0|apply disturbed_right; exact Q0|do 2 apply disturbed_right; exact Q0].
    + intros X. apply (W s1 [] H T1 E); [intros []|]. rewrite !app_nil_r. exact X.
Qed.

Lemma answered_left o b l r : answered o b l -> answered o b (l ++ r).
Proof. intros [[E I]|[E [I|I]]]; [left|right|right]; (split; [exact E|]); [|left|right]; apply in_or_app; auto. Qed.
Lemma answered_right o b l r : answered o b r -> answered o b (l ++ r).
Proof. intros [[E I]|[E [I|I]]]; [left|right|right]; (split; [exact E|]); [|left|right]; apply in_or_app; auto. Qed.

Lemma serve_tracked ts : forall n pos s ex o b s' p l, good s pos n ex -> Forall plain_turn ts -> b = INS \/ b = POLLOUT ->
  tracked s pos o b -> serve n pos s ts = Ok (s', p, l) -> disturbed o l \/ answered o b l.
Proof.
  induction ts as [|t ts IH]; intros n pos s ex o b s' p l G P B T; cbn [serve]; [discriminate|]. inversion P; subst.
  destruct (one n pos s t) as [[s1 tr] r] eqn:O. destruct (one_tracked _ _ _ _ _ _ _ _ _ _ G H1 B T O) as [Q|(n1 & pos1 & -> & Q)].
  - destruct r as [[n1 pos1]|].
    + destruct (serve n1 pos1 s1 ts) as [[[s2 p2] l2]|]; cbn [bind]; [|discriminate]. intros X. injection X; intros <- _ _. left. apply disturbed_right; auto.
    + intros X. injection X; intros <- _ _. auto.
  - destruct (serve n1 pos1 s1 ts) as [[[s2 p2] l2]|] eqn:S; cbn [bind]; [|discriminate]. intros X. injection X; intros <- _ _.
    destruct Q as [Q|[T2 V]]; [right; apply answered_left; auto|].
    destruct (IH _ _ _ ex o b _ _ _ (one_good _ _ _ _ _ _ _ _ _ G H1 O) H2 B T2 S) as [Q|Q]; [left; apply disturbed_app; auto|right; apply answered_right; auto].
Qed.

(** ** The whole pass *)

Lemma start_good s n : coherent s -> counts s n -> good s 0 n [].
Proof. intros H (l & _ & I & ->). split; auto. split; [intros f []|]. exists l. split; [intros f R; left; apply I; auto|lia]. Qed.

Lemma use_up s pos n ex f acts : good s pos n ex -> own s f = Daemon -> ~ In f ex -> is_set s f POLLIN = true -> Forall plain acts ->
  good (do_acts s acts) pos (n - 1) (f :: ex).
Proof.
  intros (H & D & k & C & L) O NI S P. apply good_acts; auto. split; auto. split; [intros g [<-|I]; auto|].
  apply is_set_rev in S. destruct S as [R F]. destruct (C f R) as [I|[I|(o & I & E)]]; [|contradiction|].
  - exists (remove Z.eq_dec f k). split; [|pose proof (remove_len _ _ I); lia]. intros g Rg. destruct (Z.eq_dec g f) as [->|N]; [right; left; left; auto|].
    destruct (C g Rg) as [J|[J|J]]; [left; apply in_remove; auto|right; left; right; auto|right; right; auto].
  - exfalso. rewrite <- E in O. rewrite (co_own _ H o) in O by lia. discriminate.
Qed.

Lemma pass_split ld ine n acc inx s ts r : coherent s -> counts s n -> own_fds s ld ine -> Forall plain acc -> Forall plain inx ->
  mux_pass ld ine n acc inx s ts = r ->
  exists n' a1 a2 ex, (a1 = [] \/ a1 = acc) /\ (a2 = [] \/ a2 = inx) /\ good (do_acts s (a1 ++ a2)) 0 n' ex /\
    r = (do r <- serve n' 0 (do_acts s (a1 ++ a2)) ts; let '(s, p, l) := r in Ok (s, p, map Did (a1 ++ a2) ++ l)).
Proof.
  intros H N (O1 & O2 & NE) P1 P2. unfold mux_pass. pose proof (start_good s n H N) as G0.
  assert (K : forall a b, do_acts (do_acts s a) b = do_acts s (a ++ b)) by (intros; unfold do_acts; rewrite fold_left_app; reflexivity).
  assert (A : forall n1 s1 a1 ex, s1 = do_acts s a1 -> good s1 0 n1 ex -> (a1 = [] \/ a1 = acc) -> (forall f, In f ex -> f = ld) ->
    (let '(n, s, t2) := if (0 <=? ine) && (0 <? n1) && is_set s1 ine POLLIN then (n1 - 1, do_acts s1 inx, map Did inx) else (n1, s1, []) in
      do r <- serve n 0 s ts; let '(s, p, l) := r in Ok (s, p, map Did a1 ++ t2 ++ l)) = r ->
    exists n' b1 a2 ex, (b1 = [] \/ b1 = acc) /\ (a2 = [] \/ a2 = inx) /\ good (do_acts s (b1 ++ a2)) 0 n' ex /\
    r = (do r <- serve n' 0 (do_acts s (b1 ++ a2)) ts; let '(s, p, l) := r in Ok (s, p, map Did (b1 ++ a2) ++ l))).
  { intros n1 s1 a1 ex -> G1 B1 X. destruct (_ && _) eqn:Q; intros <-.
    - apply andb_true_iff in Q. destruct Q as [Q S]. apply andb_true_iff in Q. destruct Q as [Q1 Q2].
      exists (n1 - 1), a1, inx, (ine :: ex). split; auto. split; auto. rewrite <- K. split.
      + apply use_up; auto.
        * destruct O2 as [->|O2]; [discriminate|]. destruct B1 as [-> | ->]; [exact O2|apply acts_daemon; auto].
        * intros I. apply X in I. congruence.
      + destruct (serve _ _ _ _) as [[[s2 p2] l2]|]; cbn [bind]; auto. rewrite map_app, <- app_assoc. reflexivity.
    - exists n1, a1, [], ex. rewrite app_nil_r. split; [auto|]. split; [auto|]. split; [auto|reflexivity]. }
  destruct ((0 <? n) && is_set s ld POLLIN) eqn:Q.
  - apply andb_true_iff in Q. destruct Q as [Q S]. apply (A (n - 1) (do_acts s acc) acc [ld]); auto; [apply use_up; auto|intros f [<-|[]]; auto].
  - apply (A n s [] []); auto. intros f [].
Qed.

Lemma pass_acts s a1 a2 acc inx o : (a1 = [] \/ a1 = acc) -> (a2 = [] \/ a2 = inx) -> Forall plain acc -> Forall plain inx -> coherent s ->
  coherent (do_acts s (a1 ++ a2)) /\ Forall plain (a1 ++ a2) /\ (Forall (spares o) (a1 ++ a2) \/ exists l1 a l2, a1 ++ a2 = l1 ++ a :: l2 /\ ~ spares o a).
Proof.
  intros A1 A2 P1 P2 H. assert (P : Forall plain (a1 ++ a2)) by (apply Forall_app; split; [destruct A1; subst; auto|destruct A2; subst; auto]).
  split; [apply coh_acts; auto|]. split; auto. apply acts_dec.
Qed.

Lemma pass_served ld ine n acc inx s ts s' p l o b : coherent s -> counts s n -> own_fds s ld ine ->
  Forall plain acc -> Forall plain inx -> Forall plain_turn ts -> b = INS \/ b = POLLOUT -> In o (objs s) -> is_set s (fd s o) b = true ->
  mux_pass ld ine n acc inx s ts = Ok (s', p, l) -> disturbed o l \/ answered o b l.
Proof.
  intros H N O P1 P2 P3 B I S M. destruct (pass_split _ _ _ _ _ _ _ _ H N O P1 P2 M) as (n' & a1 & a2 & ex & A1 & A2 & G & E).
  destruct (serve n' 0 (do_acts s (a1 ++ a2)) ts) as [[[s2 p2] l2]|] eqn:SV; cbn [bind] in E; [|discriminate]. injection E; intros -> _ _.
  destruct (pass_acts s a1 a2 acc inx o A1 A2 P1 P2 H) as (C & P & [F|F]); [|left; apply disturbed_map; auto].
  assert (T : tracked (do_acts s (a1 ++ a2)) 0 o b) by (apply tracked_acts; auto; split; auto).
  destruct (serve_tracked _ _ _ _ _ _ _ _ _ _ G P3 B T SV) as [Q|Q]; [left; apply disturbed_app; auto; apply (did_in o _ (AClose 0))|right; apply answered_right; auto].
Qed.

Lemma pass_end ld ine n acc inx s ts s' p l : coherent s -> counts s n -> own_fds s ld ine ->
  Forall plain acc -> Forall plain inx -> Forall plain_turn ts ->
  mux_pass ld ine n acc inx s ts = Ok (s', p, l) ->
  coherent s' /\ forall o, In o (skipn p (objs s')) -> 0 <= fd s' o -> rev s' (fd s' o) = 0.
Proof.
  intros H N O P1 P2 P3 M. destruct (pass_split _ _ _ _ _ _ _ _ H N O P1 P2 M) as (n' & a1 & a2 & ex & A1 & A2 & G & E).
  destruct (serve n' 0 (do_acts s (a1 ++ a2)) ts) as [[[s2 p2] l2]|] eqn:SV; cbn [bind] in E; [|discriminate]. injection E; intros _ -> ->.
  eapply serve_end; eauto.
Qed.

Lemma del_done s o : coherent s -> ~ In o (objs (del_at s o)) /\ fd (del_at s o) o = -1 /\ forall f, own (del_at s o) f <> Of o.
Proof.
  intros H. pose proof (del_coh s o H) as H'.
  assert (F : fd (del_at s o) o = -1).
  { unfold del_at. cbn [do_act fd]. destruct (Z.ltb_spec (fd s o) 0) as [L|L]; [pose proof (co_range _ H o); cbn [fd]; lia|].
    cbv zeta. cbn [fd]. unfold upd_n. rewrite Nat.eqb_refl. reflexivity. }
  split; [|split; [exact F|]].
  - rewrite del_objs. intros I. apply filter_In in I. rewrite Nat.eqb_refl in I. destruct I as [_ I]. discriminate.
  - intros f E. pose proof (co_fd _ H' _ _ E) as X. pose proof (co_pos _ H' f) as Y. rewrite E in Y. specialize (Y ltac:(discriminate)). lia.
Qed.

Lemma del_keeps s o x : x <> o -> In x (objs s) -> In x (objs (del_at s o)).
Proof. intros N I. rewrite del_objs. apply filter_In. split; auto. apply negb_true_iff, Nat.eqb_neq. auto. Qed.
Lemma acts_keep l s x : In x (objs s) -> In x (objs (do_acts s l)).
Proof. intros I. destruct (acts_objs l s) as (y & ->). apply in_or_app. auto. Qed.

Lemma one_removed n pos s t s' tr r o : coherent s -> plain_turn t -> one n pos s t = (s', tr, r) ->
  In o (objs s) -> ~ In o (objs s') ->
  In (Deleted o) tr /\ (In (Read o) tr /\ snd (t_read t) = true \/ In (Wrote o) tr /\ snd (t_write t) = true) /\
  fd s' o = -1 /\ (forall f, own s' f <> Of o).
Proof.
  intros H (P1 & P2 & P3) E I N. unfold one in E. cbv zeta in E.
  pose proof (acts_keep (t_pre t) s o I) as I1. pose proof (coh_acts _ _ H P1) as H1. set (s1 := do_acts s (t_pre t)) in *. clearbody s1.
  pose proof (acts_keep (fst (t_read t)) s1 o I1) as I2. pose proof (coh_acts _ _ H1 P2) as H2.
  pose proof (acts_keep (fst (t_write t)) _ o I2) as I3. pose proof (coh_acts _ _ H2 P3) as H3.
  pose proof (acts_keep (fst (t_write t)) _ o I1) as I4. pose proof (coh_acts _ _ H1 P3) as H4.
  destruct (n <=? 0); [injection E; intros _ _ <-; contradiction|].
  destruct (nth_error _ _) as [x|]; [|injection E; intros _ _ <-; contradiction].
  assert (W : forall q tr0, coherent q -> In o (objs q) -> s' = del_at q x -> tr = tr0 ++ [Deleted x] ->
    x = o /\ In (Deleted o) tr /\ fd s' o = -1 /\ (forall f, own s' f <> Of o)).
  { intros q tr0 Hq Iq -> ->. destruct (Nat.eq_dec o x) as [->|D]; [|exfalso; apply N, del_keeps; auto].
    destruct (del_done q x Hq) as (_ & A & B). split; auto. split; auto. apply in_or_app. right. left. auto. }
  assert (RD : forall a b c, In (Read o) (((a ++ [Visited o]) ++ Read o :: b) ++ c)) by (intros; apply in_or_app; left; apply in_or_app; right; left; auto).
  assert (WR : forall a b c, In (Wrote o) ((a ++ Wrote o :: b) ++ c)) by (intros; apply in_or_app; left; apply in_or_app; right; left; auto).
  destruct (is_set s1 (fd s1 x) (Z.lor POLLIN _)); [destruct (snd (t_read t)) eqn:R|].
  - injection E; intros _ <- <-. destruct (W _ _ H2 I2 eq_refl eq_refl) as (-> & A & B & C). split; [exact A|]. split; [left; split; auto; apply RD|]. auto.
  - destruct (is_set s1 (fd s1 x) POLLOUT); [destruct (snd (t_write t)) eqn:Wt|]; injection E; intros _ <- <-; try contradiction.
    destruct (W _ _ H3 I3 eq_refl eq_refl) as (-> & A & B & C). split; [exact A|]. split; [right; split; auto; apply WR|]. auto.
  - destruct (is_set s1 (fd s1 x) POLLOUT); [destruct (snd (t_write t)) eqn:Wt|]; injection E; intros _ <- <-; try contradiction.
    destruct (W _ _ H4 I4 eq_refl eq_refl) as (-> & A & B & C). split; [exact A|]. split; [right; split; auto; apply WR|]. auto.
Qed.

Lemma attempt_last l r : Forall interrupted l -> Forall errno_kept (l ++ [r]) -> ~ interrupted r ->
  attempt (l ++ [r]) = Some (match fst r with Done n => GoOn n | Fail e => if e =? EAGAIN then Later else GiveUp e end).
Proof.
  assert (K : forall e sg, sg <> NoChildren -> errno_after e sg = e) by (intros e [] X; cbn; congruence).
  induction l as [|[x sx] l IH]; intros F G N.
  - destruct r as [[n|e] sg]; cbn [app attempt fst]; [reflexivity|]. inversion G as [|? ? G1 _]; subst. cbv zeta. rewrite K by exact G1.
    destruct (Z.eqb_spec e EINTR) as [->|]; [exfalso; apply N; reflexivity|]. destruct (e =? EAGAIN); reflexivity.
  - inversion F as [|? ? F1 F2]; subst. inversion G as [|? ? G1 G2]; subst. unfold interrupted in F1. cbn [fst] in F1. subst x.
    cbn [app attempt]. cbv zeta. rewrite K by exact G1. rewrite Z.eqb_refl. apply IH; auto.
Qed.

Lemma wait_last l n sg b : Forall (fun x => interrupted (fst x) /\ errno_kept (fst x) /\ snd x = false) l ->
  wait (l ++ [(Done n, sg, b)]) = Some (GoOn n).
Proof.
  induction l as [|[[x sx] q] l IH]; intros F; [reflexivity|]. inversion F as [|? ? (F1 & F2 & F3) F4]; subst.
  unfold interrupted, errno_kept in *. cbn [fst snd] in *. subst. cbn [app wait]. cbv zeta.
  replace (errno_after EINTR sx) with EINTR by (destruct sx; cbn; congruence). rewrite Z.eqb_refl. auto.
Qed.
