From Verif Require Import Base InstModel InstSpec.
Local Open Scope Z_scope.

(** ** Tables *)
Lemma look_set {A} p (a : A) l q : look q (set_proc p a l) = if q =? p then Some a else look q l.
Proof.
  unfold look, set_proc. cbn [List.find fst]. rewrite (Z.eqb_sym p q). destruct (Z.eqb_spec q p) as [->|N]; [reflexivity|].
  unfold drop. induction l as [|[r b] l IH]; [reflexivity|]. cbn [filter fst List.find]. destruct (Z.eqb_spec r p) as [->|NR]; cbn [negb].
  - destruct (Z.eqb_spec p q); [congruence|]. exact IH.
  - cbn [List.find fst]. destruct (r =? q); [reflexivity|exact IH].
Qed.
Lemma look_drop {A} p (l : list (Z * A)) q : look q (drop p l) = if q =? p then None else look q l.
Proof.
  unfold look, drop. induction l as [|[r b] l IH]; [destruct (q =? p); reflexivity|]. cbn [filter fst List.find]. destruct (Z.eqb_spec r p) as [->|NR]; cbn [negb].
  - rewrite IH, (Z.eqb_sym p q). destruct (q =? p); reflexivity.
  - cbn [List.find fst]. destruct (Z.eqb_spec r q) as [EQ|NQ]; [|exact IH]. destruct (Z.eqb_spec q p); [congruence|reflexivity].
Qed.
Lemma owner_eqb_ok a b : owner_eqb a b = true <-> a = b.
Proof.
  destruct a as [p|i x], b as [q|j y]; cbn [owner_eqb]; try (split; [discriminate|congruence]).
  - rewrite Z.eqb_eq. split; congruence.
  - rewrite andb_true_iff, Nat.eqb_eq, Z.eqb_eq. split; [intros [-> ->]; reflexivity|intros X; injection X; auto].
Qed.
(** ** Locks *)
Lemma in_conflicts o f w ls l : In l (conflicts o f w ls) <-> In l ls /\ l_file l = f /\ l_own l <> o /\ (w = true \/ l_write l = true).
Proof.
  unfold conflicts. rewrite filter_In, !andb_true_iff, Nat.eqb_eq, negb_true_iff, orb_true_iff. split; intros (A & B).
  - destruct B as [[B C] D]. repeat split; auto. intros E. apply owner_eqb_ok in E. congruence.
  - destruct B as (B & C & D). repeat split; auto. destruct (owner_eqb (l_own l) o) eqn:E; [apply owner_eqb_ok in E; congruence|reflexivity].
Qed.
Lemma in_unlocked o f ls l : In l (unlocked o f ls) <-> In l ls /\ ~ (l_file l = f /\ l_own l = o).
Proof.
  unfold unlocked. rewrite filter_In, negb_true_iff. split; intros [A B]; (split; [exact A|]).
  - intros [C D]. apply Nat.eqb_eq in C. apply owner_eqb_ok in D. rewrite C, D in B. discriminate B.
  - destruct (Nat.eqb_spec (l_file l) f); [|reflexivity]. destruct (owner_eqb (l_own l) o) eqn:E; [apply owner_eqb_ok in E; tauto|reflexivity].
Qed.
Lemma in_ended p ls l : In l (ended p ls) <-> In l ls /\ l_own l <> Proc p.
Proof.
  unfold ended. rewrite filter_In, negb_true_iff. split; intros [A B]; (split; [exact A|]).
  - intros C. apply owner_eqb_ok in C. congruence.
  - destruct (owner_eqb (l_own l) (Proc p)) eqn:E; [apply owner_eqb_ok in E; congruence|reflexivity].
Qed.
Lemma get_lock_ok o f w ls ls' : get_lock o f w ls = Some ls' -> (forall l, In l ls' <-> l = mkLock o f w \/ In l (unlocked o f ls)) /\ (forall l, In l ls -> l_file l = f -> l_own l <> o -> w = false /\ l_write l = false).
Proof.
  unfold get_lock. destruct (conflicts o f w ls) as [|c cs] eqn:E; [|discriminate]. intros X. injection X as <-. split.
  - intros l. cbn [In]. split; intros [H | H]; auto.
  - intros l I F O. assert (N : ~ In l (conflicts o f w ls)) by (rewrite E; auto). rewrite in_conflicts in N.
    destruct w, (l_write l) eqn:W; auto; exfalso; apply N; auto.
Qed.
Lemma test_lock_told o f ls pick : test_lock o f ls pick = 0 /\ conflicts o f true ls = [] \/ exists l, In l (conflicts o f true ls) /\ test_lock o f ls pick = told l.
Proof.
  unfold test_lock. destruct (conflicts o f true ls) as [|c cs] eqn:E; [auto|]. right. exists (nth pick (c :: cs) c). split; [|reflexivity].
  destruct (Nat.lt_ge_cases pick (length (c :: cs))) as [H|H]; [apply nth_In; exact H|rewrite nth_overflow by exact H; left; reflexivity].
Qed.

(** ** Daemons *)
Definition locked_stage (s : stage) : Prop := s <> Opened.
Definition inv (w : world) : Prop :=
  (forall p f s, look p (procs w) = Some (f, s) -> 0 < p /\ (locked_stage s -> In (mkLock (Proc p) f false) (locks w))) /\
  (forall l p, In l (locks w) -> l_own l = Proc p -> exists s, look p (procs w) = Some (l_file l, s)).
(** exclusion needs visible locks *)
Definition seen (w : world) : Prop := Forall (fun l => 0 < told l) (locks w).
Definition one (w : world) : Prop := forall p q f, running w p f -> running w q f -> p = q.
Lemma inv_idle f pf : inv (idle f pf) /\ one (idle f pf) /\ seen (idle f pf).
Proof. split; [split; [intros p g s X; discriminate X|intros l p []]|]. split; [intros p q g (s & X & _); discriminate X|constructor]. Qed.

Lemma inv_gone p w : inv w -> inv (gone p w).
Proof.
  intros [A B]. split; cbn [gone procs locks].
  - intros q f s H. rewrite look_drop in H. destruct (Z.eqb_spec q p) as [->|N]; [discriminate H|]. destruct (A q f s H) as [A1 A2]. split; [exact A1|]. intros LS. apply in_ended. split; [auto|]. cbn [l_own]. congruence.
  - intros l q I O. apply in_ended in I. destruct I as [I NP]. rewrite look_drop. destruct (Z.eqb_spec q p) as [->|N]; [congruence|]. exact (B l q I O).
Qed.
Lemma running_gone p w q f : running (gone p w) q f -> running w q f /\ q <> p.
Proof. intros (s & E & S). cbn [gone procs] in E. rewrite look_drop in E. destruct (Z.eqb_spec q p) as [->|N]; [discriminate E|]. split; [exists s; auto|exact N]. Qed.
Lemma seen_ended p w : seen w -> Forall (fun l => 0 < told l) (ended p (locks w)).
Proof. unfold seen. rewrite !Forall_forall. intros H l I. apply in_ended in I. apply H. apply I. Qed.

Lemma step_inv w o : inv w -> inv (step w o).
Proof.
  intros IV. pose proof IV as [A B]. destruct o as [p|p|p pick|p|p|p|p|p|f|i x f wr|i x f]; cbn [step].
  - destruct (look p (procs w)) as [[f s]|] eqn:E; [exact IV|]. destruct (Z.ltb_spec 0 p) as [P|P]; [|exact IV]. split; cbn [at_stage procs locks].
    + intros q g s H. rewrite look_set in H. destruct (Z.eqb_spec q p) as [->|N]; [injection H as <- <-; split; [exact P|intros X; destruct (X eq_refl)]|exact (A q g s H)].
    + intros l q I O. rewrite look_set. destruct (Z.eqb_spec q p) as [->|N]; [|exact (B l q I O)]. destruct (B l p I O) as (s & X). congruence.
  - destruct (look p (procs w)) as [[f []]|] eqn:E; try exact IV. destruct (get_lock (Proc p) f false (locks w)) as [ls|] eqn:G; [|apply inv_gone; exact IV].
    destruct (get_lock_ok _ _ _ _ _ G) as [G1 G2]. split; cbn [at_stage procs locks].
    + intros q g s H. rewrite look_set in H. destruct (Z.eqb_spec q p) as [->|N].
      * injection H as <- <-. split; [apply (A p f Opened E)|]. intros _. apply G1. auto.
      * destruct (A q g s H) as [A1 A2]. split; [exact A1|]. intros LS. apply G1. right. apply in_unlocked. split; [auto|]. cbn [l_own]. intros [_ X]. congruence.
    + intros l q I O. rewrite look_set. apply G1 in I. destruct I as [-> | I].
      * cbn [l_own l_file] in *. injection O as <-. rewrite Z.eqb_refl. eauto.
      * apply in_unlocked in I. destruct I as [I NX]. destruct (Z.eqb_spec q p) as [->|N]; [|exact (B l q I O)]. destruct (B l p I O) as (s & X). rewrite E in X. injection X as X1 X2. destruct NX. auto.
  - destruct (look p (procs w)) as [[f []]|] eqn:E; try exact IV. split; cbn [at_stage procs locks].
    + intros q g s H. rewrite look_set in H. destruct (Z.eqb_spec q p) as [->|N]; [injection H as <- <-; destruct (A p f Locked E) as [A1 A2]; split; [exact A1|]; intros _; apply A2; discriminate|exact (A q g s H)].
    + intros l q I O. rewrite look_set. destruct (Z.eqb_spec q p) as [->|N]; [|exact (B l q I O)]. destruct (B l p I O) as (s & X). rewrite E in X. injection X as <- <-. eauto.
  - destruct (look p (procs w)) as [[f []]|] eqn:E; try exact IV. apply inv_gone; exact IV.
  - destruct (look p (procs w)) as [[f []]|] eqn:E; try exact IV. split; cbn [procs locks].
    + intros q g s H. rewrite look_set in H. destruct (Z.eqb_spec q p) as [->|N]; [injection H as <- <-; destruct (A p f Passed E) as [A1 A2]; split; [exact A1|]; intros _; apply A2; discriminate|exact (A q g s H)].
    + intros l q I O. rewrite look_set. destruct (Z.eqb_spec q p) as [->|N]; [|exact (B l q I O)]. destruct (B l p I O) as (s & X). rewrite E in X. injection X as <- <-. eauto.
  - destruct (look p (procs w)) as [[f []]|] eqn:E; try exact IV. split; cbn [procs locks].
    + intros q g s H. rewrite look_set in H. destruct (Z.eqb_spec q p) as [->|N]; [injection H as <- <-; destruct (A p f Up E) as [A1 A2]; split; [exact A1|]; intros _; apply A2; discriminate|exact (A q g s H)].
    + intros l q I O. rewrite look_set. destruct (Z.eqb_spec q p) as [->|N]; [|exact (B l q I O)]. destruct (B l p I O) as (s & X). rewrite E in X. injection X as <- <-. eauto.
  - destruct (look p (procs w)) as [[f []]|] eqn:E; try exact IV.
    assert (EE : forall l, In l (ended p (closed p f (locks w))) <-> In l (ended p (locks w))).
    { intros l. unfold closed. rewrite !in_ended, in_unlocked. tauto. }
    destruct (inv_gone p w IV) as [C D]. split; cbn [gone procs locks] in *.
    + intros q g s H. destruct (C q g s H) as [C1 C2]. split; [exact C1|]. intros LS. apply EE. auto.
    + intros l q I. apply EE in I. exact (D l q I).
  - destruct (look p (procs w)); [apply inv_gone; exact IV|exact IV].
  - exact IV.
  - destruct (get_lock (Other i x) f wr (locks w)) as [ls|] eqn:G; [|exact IV]. destruct (get_lock_ok _ _ _ _ _ G) as [G1 G2]. split; cbn [procs locks].
    + intros q g s H. destruct (A q g s H) as [A1 A2]. split; [exact A1|]. intros LS. apply G1. right. apply in_unlocked. split; [auto|]. cbn [l_own]. intros [_ X]. congruence.
    + intros l q I O. apply G1 in I. destruct I as [-> | I]; [discriminate O|]. apply in_unlocked in I. apply (B l q); [apply I|exact O].
  - split; cbn [procs locks].
    + intros q g s H. destruct (A q g s H) as [A1 A2]. split; [exact A1|]. intros LS. apply in_unlocked. split; [auto|]. cbn [l_own]. intros [_ X]. congruence.
    + intros l q I O. apply in_unlocked in I. apply (B l q); [apply I|exact O].
Qed.
Lemma step_seen w o : inv w -> seen w -> visible o -> seen (step w o).
Proof.
  intros [A B] S V. unfold seen in *. rewrite Forall_forall in *.
  assert (G0 : forall p l, In l (ended p (locks w)) -> 0 < told l) by (intros p l I; apply in_ended in I; apply S; apply I).
  destruct o as [p|p|p pick|p|p|p|p|p|f|i x f wr|i x f]; cbn [step].
  - destruct (look p (procs w)); [exact S|]. destruct (0 <? p); exact S.
  - destruct (look p (procs w)) as [[f []]|] eqn:E; try exact S. destruct (get_lock (Proc p) f false (locks w)) as [ls|] eqn:G; [|intros l; apply G0].
    destruct (get_lock_ok _ _ _ _ _ G) as [G1 _]. cbn [at_stage locks]. intros l I. apply G1 in I. destruct I as [-> | I]; [cbn [told l_own]; apply (A p f Opened E)|]. apply in_unlocked in I. apply S. apply I.
  - destruct (look p (procs w)) as [[f []]|] eqn:E; exact S.
  - destruct (look p (procs w)) as [[f []]|] eqn:E; try exact S. intros l; apply G0.
  - destruct (look p (procs w)) as [[f []]|] eqn:E; exact S.
  - destruct (look p (procs w)) as [[f []]|] eqn:E; exact S.
  - destruct (look p (procs w)) as [[f []]|] eqn:E; try exact S. cbn [gone locks]. intros l I. apply in_ended in I. destruct I as [I _]. apply in_unlocked in I. apply S. apply I.
  - destruct (look p (procs w)); [intros l; apply G0|exact S].
  - exact S.
  - destruct (get_lock (Other i x) f wr (locks w)) as [ls|] eqn:G; [|exact S]. destruct (get_lock_ok _ _ _ _ _ G) as [G1 _]. cbn [locks]. intros l I. apply G1 in I. destruct I as [-> | I]; [exact V|]. apply in_unlocked in I. apply S. apply I.
  - cbn [locks]. intros l I. apply in_unlocked in I. apply S. apply I.
Qed.
(** a start passes only where there is no other lock *)
Lemma test_none w p f pick : seen w -> (0 <? test_lock (Proc p) f (locks w) pick) = false -> forall l, In l (locks w) -> l_file l = f -> l_own l = Proc p.
Proof.
  intros S T l I F. destruct (test_lock_told (Proc p) f (locks w) pick) as [[_ E] | (c & IC & E)].
  - destruct (owner_eqb (l_own l) (Proc p)) eqn:O; [apply owner_eqb_ok; exact O|]. exfalso. assert (X : In l (conflicts (Proc p) f true (locks w))) by (apply in_conflicts; repeat split; auto; intros Y; apply owner_eqb_ok in Y; congruence). rewrite E in X. exact X.
  - rewrite E in T. apply Z.ltb_ge in T. apply in_conflicts in IC. unfold seen in S. rewrite Forall_forall in S. specialize (S c (proj1 IC)). lia.
Qed.
Lemma step_one w o : inv w -> seen w -> one w -> one (step w o).
Proof.
  intros [A B] S O.
  assert (SAME : forall w', (forall q f, running w' q f -> running w q f) -> one w') by (intros w' H q r f R1 R2; apply (O q r f); auto).
  assert (MOVE : forall p f s s', look p (procs w) = Some (f, s) -> (s = Passed \/ s = Up \/ s = Leaving) -> forall ls c pf, one (mkWorld c ls (set_proc p (f, s') (procs w)) pf)).
  { intros p f s s' E SS ls c pf. apply SAME. intros q g (s2 & E2 & S2). cbn [procs] in E2. rewrite look_set in E2. destruct (Z.eqb_spec q p) as [->|N]; [injection E2 as <- <-; exists s; auto|exists s2; auto]. }
  destruct o as [p|p|p pick|p|p|p|p|p|f|i x f wr|i x f]; cbn [step].
  - destruct (look p (procs w)) eqn:E; [exact O|]. destruct (0 <? p); [|exact O]. apply SAME. intros q g (s & E2 & S2). cbn [at_stage procs] in E2. rewrite look_set in E2. destruct (Z.eqb_spec q p) as [->|N]; [injection E2 as <- <-; destruct S2 as [? | [? | ?]]; discriminate|exists s; auto].
  - destruct (look p (procs w)) as [[f []]|] eqn:E; try exact O. destruct (get_lock (Proc p) f false (locks w)) as [ls|] eqn:G; [|apply SAME; intros q g R; apply running_gone in R; apply R].
    apply SAME. intros q g (s & E2 & S2). cbn [at_stage procs] in E2. rewrite look_set in E2. destruct (Z.eqb_spec q p) as [->|N]; [injection E2 as <- <-; destruct S2 as [? | [? | ?]]; discriminate|exists s; auto].
  - destruct (look p (procs w)) as [[f []]|] eqn:E; try exact O. destruct (0 <? test_lock _ _ _ _) eqn:T; [apply SAME; intros q g (s & E2 & S2); cbn [at_stage procs] in E2; rewrite look_set in E2; destruct (Z.eqb_spec q p) as [->|N]; [injection E2 as <- <-; destruct S2 as [? | [? | ?]]; discriminate|exists s; auto]|].
    pose proof (test_none w p f pick S T) as TN.
    assert (K : forall q g s, look q (set_proc p (f, Passed) (procs w)) = Some (g, s) -> (s = Passed \/ s = Up \/ s = Leaving) -> q = p \/ (running w q g /\ g <> f)).
    { intros q g s H SS. rewrite look_set in H. destruct (Z.eqb_spec q p) as [->|N]; [auto|]. right. split; [exists s; auto|]. intros ->. destruct (A q f s H) as [_ A2].
      assert (I : In (mkLock (Proc q) f false) (locks w)) by (apply A2; intros ->; destruct SS as [? | [? | ?]]; discriminate). pose proof (TN _ I eq_refl) as X. cbn [l_own] in X. congruence. }
    intros q r g (s1 & E1 & S1) (s2 & E2 & S2). cbn [at_stage procs] in E1, E2.
    destruct (K q g s1 E1 S1) as [-> | [R1 N1]], (K r g s2 E2 S2) as [-> | [R2 N2]]; auto.
    + rewrite look_set, Z.eqb_refl in E1. injection E1 as <- _. congruence.
    + rewrite look_set, Z.eqb_refl in E2. injection E2 as <- _. congruence.
    + exact (O q r g R1 R2).
  - destruct (look p (procs w)) as [[f []]|] eqn:E; try exact O. apply SAME. intros q g R. apply running_gone in R. apply R.
  - destruct (look p (procs w)) as [[f []]|] eqn:E; try exact O. apply (MOVE p f Passed Up E). auto.
  - destruct (look p (procs w)) as [[f []]|] eqn:E; try exact O. apply (MOVE p f Up Leaving E). auto.
  - destruct (look p (procs w)) as [[f []]|] eqn:E; try exact O. apply SAME. intros q g R. apply running_gone in R. destruct R as [(s & X) _]. exists s. exact X.
  - destruct (look p (procs w)); [|exact O]. apply SAME. intros q g R. apply running_gone in R. apply R.
  - apply SAME. auto.
  - destruct (get_lock (Other i x) f wr (locks w)); [|exact O]. apply SAME. auto.
  - apply SAME. auto.
Qed.
Lemma history_inv f pf : forall l, inv (history (idle f pf) l).
Proof.
  intros l. unfold history. assert (G : forall l w, inv w -> inv (fold_left step l w)) by (clear; induction l as [|o l IH]; intros w I; [exact I|]; cbn [fold_left]; apply IH, step_inv, I). apply G. apply inv_idle.
Qed.
Lemma history_all f pf l : Forall visible l -> let w := history (idle f pf) l in inv w /\ seen w /\ one w.
Proof.
  unfold history. assert (G : forall l w, Forall visible l -> inv w -> seen w -> one w -> inv (fold_left step l w) /\ seen (fold_left step l w) /\ one (fold_left step l w)).
  { clear. induction l as [|o l IH]; intros w F I S O; [auto|]. inversion F as [|? ? F1 F2]; subst. cbn [fold_left]. apply IH; [exact F2|apply step_inv; exact I|apply step_seen; assumption|apply step_one; assumption]. }
  intros F. apply G; [exact F|apply inv_idle|apply inv_idle|apply inv_idle].
Qed.

(** ** PID files *)
Definition same (f0 : nat) (w : world) : Prop := conf_file w = f0 /\ forall p f s, look p (procs w) = Some (f, s) -> f = f0.
Lemma step_same f0 w o : kept o -> same f0 w -> same f0 (step w o).
Proof.
  intros K [A B].
  assert (G : forall p, same f0 (gone p w)) by (intros p; split; [exact A|]; intros q g s H; cbn [gone procs] in H; rewrite look_drop in H; destruct (q =? p); [discriminate H|exact (B q g s H)]).
  assert (M : forall p f s, f = f0 -> forall ls pf, same f0 (mkWorld (conf_file w) ls (set_proc p (f, s) (procs w)) pf)).
  { intros p f s -> ls pf. split; [exact A|]. intros q g t H. cbn [procs] in H. rewrite look_set in H. destruct (q =? p); [injection H; auto|exact (B q g t H)]. }
  destruct o as [p|p|p pick|p|p|p|p|p|f|i x f wr|i x f]; cbn [step]; try contradiction K.
  - destruct (look p (procs w)) eqn:E; [split; assumption|]. destruct (0 <? p); [apply M; exact A|split; assumption].
  - destruct (look p (procs w)) as [[f []]|] eqn:E; try (split; assumption). destruct (get_lock _ _ _ _); [apply M; exact (B _ _ _ E)|apply G].
  - destruct (look p (procs w)) as [[f []]|] eqn:E; try (split; assumption). apply M; exact (B _ _ _ E).
  - destruct (look p (procs w)) as [[f []]|] eqn:E; try (split; assumption). apply G.
  - destruct (look p (procs w)) as [[f []]|] eqn:E; try (split; assumption). apply M; exact (B _ _ _ E).
  - destruct (look p (procs w)) as [[f []]|] eqn:E; try (split; assumption). apply M; exact (B _ _ _ E).
  - destruct (look p (procs w)) as [[f []]|] eqn:E; try (split; assumption). exact (G p).
  - destruct (look p (procs w)); [apply G|split; assumption].
  - destruct (get_lock _ _ _ _); split; assumption.
  - split; assumption.
Qed.
Definition pid_inv (w : world) : Prop :=
  (forall p f, look p (procs w) = Some (f, Up) -> pidfile w = Some p) /\ (forall p f, look p (procs w) = Some (f, Leaving) -> pidfile w = None).
Lemma step_pid f0 w o : same f0 w -> one w -> pid_inv w -> pid_inv (step w o).
Proof.
  intros [_ SF] O [A B].
  assert (G : forall p, pid_inv (gone p w)).
  { intros p. split; intros q g H; cbn [gone procs pidfile] in *; rewrite look_drop in H; destruct (q =? p); try discriminate H; [exact (A q g H)|exact (B q g H)]. }
  assert (M : forall p f s, s <> Up -> s <> Leaving -> forall ls c, pid_inv (mkWorld c ls (set_proc p (f, s) (procs w)) (pidfile w))).
  { intros p f s N1 N2 ls c. split; intros q g H; cbn [procs pidfile] in *; rewrite look_set in H; destruct (q =? p); try (injection H; congruence); [exact (A q g H)|exact (B q g H)]. }
  assert (X : forall p f s q g t, look p (procs w) = Some (f, s) -> (s = Passed \/ s = Up \/ s = Leaving) -> look q (procs w) = Some (g, t) -> (t = Passed \/ t = Up \/ t = Leaving) -> p = q).
  { intros p f s q g t E1 S1 E2 S2. apply (O p q f0); [exists s; rewrite E1, (SF _ _ _ E1); auto|exists t; rewrite E2, (SF _ _ _ E2); auto]. }
  destruct o as [p|p|p pick|p|p|p|p|p|f|i x f wr|i x f]; cbn [step]; try (split; assumption).
  - destruct (look p (procs w)) eqn:E; [split; assumption|]. destruct (0 <? p); [apply M; discriminate|split; assumption].
  - destruct (look p (procs w)) as [[f []]|] eqn:E; try (split; assumption). destruct (get_lock _ _ _ _); [apply M; discriminate|apply G].
  - destruct (look p (procs w)) as [[f []]|] eqn:E; try (split; assumption). destruct (0 <? _); apply M; discriminate.
  - destruct (look p (procs w)) as [[f []]|] eqn:E; try (split; assumption). apply G.
  - destruct (look p (procs w)) as [[f []]|] eqn:E; try (split; assumption). split; intros q g H; cbn [procs pidfile] in *; rewrite look_set in H; destruct (Z.eqb_spec q p) as [EQ|N]; try congruence; destruct N; symmetry; eapply X; eauto.
  - destruct (look p (procs w)) as [[f []]|] eqn:E; try (split; assumption). split; intros q g H; cbn [procs pidfile] in *; rewrite look_set in H; destruct (Z.eqb_spec q p) as [EQ|N]; try congruence; destruct N; symmetry; eapply X; eauto.
  - destruct (look p (procs w)) as [[f []]|] eqn:E; try (split; assumption). exact (G p).
  - destruct (look p (procs w)); [apply G|split; assumption].
  - destruct (get_lock _ _ _ _); split; assumption.
Qed.
Lemma history_pid f pf l : Forall visible l -> Forall kept l -> let w := history (idle f pf) l in pid_inv w /\ same f w /\ one w.
Proof.
  unfold history. assert (G : forall l w, Forall visible l -> Forall kept l -> inv w -> seen w -> one w -> same f w -> pid_inv w -> pid_inv (fold_left step l w) /\ same f (fold_left step l w) /\ one (fold_left step l w)).
  { clear. induction l as [|o l IH]; intros w F K I S O SM P; [auto|]. inversion F as [|? ? F1 F2]; subst. inversion K as [|? ? K1 K2]; subst. cbn [fold_left]. apply IH; auto using step_inv, step_seen, step_one, step_same. eapply step_pid; eassumption. }
  intros F K. apply G; try assumption; try apply inv_idle; [split; [reflexivity|intros p g s X; discriminate X]|split; intros p g X; discriminate X].
Qed.
Lemma step_clean w o : orderly o -> (forall p, pidfile w = Some p -> up w p) -> forall p, pidfile (step w o) = Some p -> up (step w o) p.
Proof.
  intros K C. unfold up in *.
  assert (G : forall p f s, look p (procs w) = Some (f, s) -> s <> Up -> forall q, pidfile w = Some q -> exists f, look q (drop p (procs w)) = Some (f, Up)).
  { intros p f s E N q H. destruct (C q H) as (g & X). exists g. rewrite look_drop. destruct (Z.eqb_spec q p); [congruence|exact X]. }
  assert (M : forall p f s, look p (procs w) = None \/ (exists g t, look p (procs w) = Some (g, t) /\ t <> Up) -> forall q, pidfile w = Some q -> exists g, look q (set_proc p (f, s) (procs w)) = Some (g, Up)).
  { intros p f s E q H. destruct (C q H) as (g & X). exists g. rewrite look_set. destruct (Z.eqb_spec q p); [|exact X]. subst q. destruct E as [E | (g2 & t & E & N)]; congruence. }
  destruct o as [p|p|p pick|p|p|p|p|p|f|i x f wr|i x f]; cbn [step]; try contradiction K; try exact C.
  - destruct (look p (procs w)) eqn:E; [exact C|]. destruct (0 <? p); [cbn [at_stage procs pidfile]; apply M; auto|exact C].
  - destruct (look p (procs w)) as [[f []]|] eqn:E; try exact C. destruct (get_lock _ _ _ _); cbn [at_stage gone procs pidfile]; [apply M; right; eexists _, _; split; [exact E|discriminate]|eapply G; [exact E|discriminate]].
  - destruct (look p (procs w)) as [[f []]|] eqn:E; try exact C. cbn [at_stage procs pidfile]. apply M; right; eexists _, _; split; [exact E|discriminate].
  - destruct (look p (procs w)) as [[f []]|] eqn:E; try exact C. cbn [gone procs pidfile]. eapply G; [exact E|discriminate].
  - destruct (look p (procs w)) as [[f []]|] eqn:E; try exact C. cbn [procs pidfile]. intros q H. injection H as <-. exists f. rewrite look_set, Z.eqb_refl. reflexivity.
  - destruct (look p (procs w)) as [[f []]|] eqn:E; try exact C. cbn [procs pidfile]. discriminate.
  - destruct (look p (procs w)) as [[f []]|] eqn:E; try exact C. cbn [gone procs pidfile]. eapply G; [exact E|discriminate].
  - destruct (get_lock _ _ _ _); exact C.
Qed.
(** without foreign locks every lock is a live daemon's *)
Lemma history_own f pf l : Forall alone l -> Forall (fun l => exists p, l_own l = Proc p) (locks (history (idle f pf) l)).
Proof.
  unfold history. assert (G : forall l w, Forall alone l -> Forall (fun l => exists p, l_own l = Proc p) (locks w) -> Forall (fun l => exists p, l_own l = Proc p) (locks (fold_left step l w))).
  { clear. induction l as [|o l IH]; intros w F S; [exact S|]. inversion F as [|? ? F1 F2]; subst. cbn [fold_left]. apply IH; [exact F2|]. rewrite Forall_forall in *.
    assert (G0 : forall p l, In l (ended p (locks w)) -> exists p, l_own l = Proc p) by (intros p x I; apply in_ended in I; apply S; apply I).
    destruct o as [p|p|p pick|p|p|p|p|p|f|i x f wr|i x f]; cbn [step]; try contradiction F1; try exact S.
    - destruct (look p (procs w)); [exact S|]. destruct (0 <? p); exact S.
    - destruct (look p (procs w)) as [[f []]|]; try exact S. destruct (get_lock (Proc p) f false (locks w)) as [ls|] eqn:GL; [|intros x; apply G0].
      destruct (get_lock_ok _ _ _ _ _ GL) as [G1 _]. cbn [at_stage locks]. intros x I. apply G1 in I. destruct I as [-> | I]; [eexists; reflexivity|]. apply in_unlocked in I. apply S. apply I.
    - destruct (look p (procs w)) as [[f []]|]; exact S.
    - destruct (look p (procs w)) as [[f []]|]; try exact S. intros x; apply G0.
    - destruct (look p (procs w)) as [[f []]|]; exact S.
    - destruct (look p (procs w)) as [[f []]|]; exact S.
    - destruct (look p (procs w)) as [[f []]|]; try exact S. cbn [gone locks]. intros x I. apply in_ended in I. destruct I as [I _]. apply in_unlocked in I. apply S. apply I.
    - destruct (look p (procs w)); [intros x; apply G0|exact S].
    - cbn [locks]. intros y I. apply in_unlocked in I. apply S. apply I. }
  intros F. apply G; [exact F|constructor].
Qed.

(** ** Logs *)
Definition consistent (ls : list lock) : Prop := forall a b, In a ls -> In b ls -> l_file a = l_file b -> l_own a <> l_own b -> l_write a = false /\ l_write b = false.
Lemma get_consistent o f w ls ls' : consistent ls -> get_lock o f w ls = Some ls' -> consistent ls'.
Proof.
  intros C G. destruct (get_lock_ok _ _ _ _ _ G) as [G1 G2]. intros a b IA IB F O. apply G1 in IA. apply G1 in IB.
  destruct IA as [-> | IA], IB as [-> | IB]; try rewrite in_unlocked in *; cbn [l_own l_file l_write] in *.
  - congruence.
  - apply (G2 b); [apply IB|auto|auto].
  - destruct (G2 a); [apply IA|auto|auto|auto].
  - apply C; [apply IA|apply IB|exact F|exact O].
Qed.
Lemma sub_consistent ls ls' : (forall l, In l ls' -> In l ls) -> consistent ls -> consistent ls'.
Proof. intros S C a b IA IB. apply C; auto. Qed.
Definition keys_ok (l : list (Z * nat * nat)) : Prop := forall p o f g, In (p, o, f) l -> In (p, o, g) l -> f = g.
Definition files_ok (l : list (Z * nat * nat)) : Prop := forall p o o' f, In (p, o, f) l -> In (p, o', f) l -> o = o'.
Definition log_inv (s : logs) : Prop :=
  consistent (g_locks s) /\ keys_ok (g_fds s) /\ files_ok (g_fds s) /\ forall p o f, In (p, o, f) (g_fds s) -> In (mkLock (Proc p) f true) (g_locks s).
Lemma fd_of_in p o l f : fd_of p o l = Some f -> In (p, o, f) l.
Proof.
  unfold fd_of. destruct (List.find _ l) as [[[q i] g]|] eqn:E; [|discriminate]. intros X. injection X as <-. apply find_some in E. destruct E as [I E]. apply andb_prop in E. destruct E as [E1 E2]. cbn [fst snd] in *. apply Z.eqb_eq in E1. apply Nat.eqb_eq in E2. subst. exact I.
Qed.
Lemma fd_of_none p o l : fd_of p o l = None -> forall f, ~ In (p, o, f) l.
Proof.
  unfold fd_of. destruct (List.find _ l) as [x|] eqn:E; [discriminate|]. intros _ f I. pose proof (find_none _ _ E _ I) as X. cbn [fst snd] in X. rewrite Z.eqb_refl, Nat.eqb_refl in X. discriminate X.
Qed.
Lemma in_no_fd p o l q i f : In (q, i, f) (no_fd p o l) <-> In (q, i, f) l /\ ~ (q = p /\ i = o).
Proof.
  unfold no_fd. rewrite filter_In, negb_true_iff. cbn [fst snd]. split; intros [A B]; (split; [exact A|]).
  - intros [-> ->]. rewrite Z.eqb_refl, Nat.eqb_refl in B. discriminate B.
  - destruct (Z.eqb_spec q p), (Nat.eqb_spec i o); cbn [andb]; try reflexivity. tauto.
Qed.
Lemma close_inv s p o : log_inv s -> log_inv (close_log p o s) /\ (forall q i f, In (q, i, f) (g_fds (close_log p o s)) <-> In (q, i, f) (g_fds s) /\ ~ (q = p /\ i = o)) /\ g_text (close_log p o s) = g_text s.
Proof.
  intros (C & K & FO & L). unfold close_log. destruct (fd_of p o (g_fds s)) as [f|] eqn:E.
  - pose proof (fd_of_in _ _ _ _ E) as IF. split; [|split; [intros q i g; apply in_no_fd|reflexivity]]. split; [|split; [|split]]; cbn [g_locks g_fds].
    + apply (sub_consistent (g_locks s)); [|exact C]. intros l I. apply in_unlocked in I. apply I.
    + intros q i g h I1 I2. apply in_no_fd in I1. apply in_no_fd in I2. apply (K q i g h); tauto.
    + intros q i j g I1 I2. apply in_no_fd in I1. apply in_no_fd in I2. apply (FO q i j g); tauto.
    + intros q i g I. apply in_no_fd in I. destruct I as [I N]. apply in_unlocked. split; [exact (L q i g I)|]. cbn [l_file l_own]. intros [-> X]. injection X as ->. apply N. split; [reflexivity|]. exact (FO p i o f I IF).
  - pose proof (fd_of_none _ _ _ E) as NF. split; [split; auto|]. split; [|reflexivity]. intros q i f. split; [|tauto]. intros I. split; [exact I|]. intros [-> ->]. exact (NF f I).
Qed.
Lemma add_inv s p o f ls t : log_inv s -> get_lock (Proc p) f true (g_locks s) = Some ls -> (forall g, ~ In (p, o, g) (g_fds s)) -> (forall j, ~ In (p, j, f) (g_fds s)) -> log_inv (mkLogs ls ((p, o, f) :: g_fds s) t).
Proof.
  intros (C & K & FO & L) G N1 N2. destruct (get_lock_ok _ _ _ _ _ G) as [G1 G2]. split; [|split; [|split]]; cbn [g_locks g_fds].
  - eapply get_consistent; eassumption.
  - intros q i g h [I1 | I1] [I2 | I2].
    + congruence.
    + injection I1 as <- <- <-. destruct (N1 h I2).
    + injection I2 as <- <- <-. destruct (N1 g I1).
    + exact (K q i g h I1 I2).
  - intros q i j g [I1 | I1] [I2 | I2].
    + congruence.
    + injection I1 as <- <- <-. destruct (N2 j I2).
    + injection I2 as <- <- <-. destruct (N2 i I1).
    + exact (FO q i j g I1 I2).
  - intros q i g [I | I]; apply G1; [injection I as <- <- <-; auto|]. right. apply in_unlocked. split; [exact (L q i g I)|]. cbn [l_file l_own]. intros [-> X]. injection X as ->. exact (N2 i I).
Qed.
Lemma drop_lock_inv s p f t : log_inv s -> (forall j, ~ In (p, j, f) (g_fds s)) -> log_inv (mkLogs (closed p f (g_locks s)) (g_fds s) t).
Proof.
  intros (C & K & FO & L) N. split; [|split; [exact K|split; [exact FO|]]]; cbn [g_locks g_fds].
  - apply (sub_consistent (g_locks s)); [|exact C]. intros l I. apply in_unlocked in I. apply I.
  - intros q i g I. apply in_unlocked. split; [exact (L q i g I)|]. cbn [l_file l_own]. intros [-> X]. injection X as ->. exact (N i I).
Qed.
Lemma text_inv s t : log_inv s -> log_inv (mkLogs (g_locks s) (g_fds s) t).
Proof. intros H. exact H. Qed.
Lemma log_step_inv s o : log_inv s -> apart s o -> log_inv (log_step s o).
Proof.
  intros I A. destruct o as [p i f z lk|p f z|p i d|p]; cbn [log_step].
  - unfold open_logfile_obj. destruct (close_inv s p (S i) I) as (I1 & F1 & _). set (s1 := close_log p (S i) s) in *. destruct f as [f|]; [|exact I1]. destruct A as [-> A].
    assert (N2 : forall j, ~ In (p, j, f) (g_fds s1)) by (intros j H; apply F1 in H; destruct H as [H N]; apply N; split; [reflexivity|exact (A j H)]).
    cbv zeta. destruct (get_lock (Proc p) f true (g_locks s1)) as [ls|] eqn:G; [|apply drop_lock_inv; assumption]. apply add_inv; [exact I1|exact G| |exact N2]. intros g H. apply F1 in H. tauto.
  - unfold open_daemon_logfile. destruct f as [f|]; [|apply close_inv; exact I]. cbv zeta. set (t := if z then _ else _). destruct (get_lock (Proc p) f true (g_locks s)) as [ls|] eqn:G.
    + unfold close_log. cbn [g_fds g_locks g_text]. destruct (fd_of p 0 (g_fds s)) as [g|] eqn:E; cbn [g_locks g_fds g_text].
      * pose proof (fd_of_in _ _ _ _ E) as IG. assert (NG : g <> f) by (intros ->; exact (A 0%nat IG)).
        assert (X : get_lock (Proc p) f true (closed p g (g_locks s)) = Some (closed p g ls)).
        { unfold get_lock in *. destruct (conflicts (Proc p) f true (g_locks s)) eqn:EC; [|discriminate G]. injection G as <-.
          assert (EC2 : conflicts (Proc p) f true (closed p g (g_locks s)) = []).
          { destruct (conflicts (Proc p) f true (closed p g (g_locks s))) as [|c cs] eqn:E2; [reflexivity|]. exfalso. assert (Y : In c (conflicts (Proc p) f true (closed p g (g_locks s)))) by (rewrite E2; left; reflexivity). apply in_conflicts in Y. destruct Y as [Y Y2]. apply in_unlocked in Y. assert (Y3 : In c (conflicts (Proc p) f true (g_locks s))) by (apply in_conflicts; tauto). rewrite EC in Y3. exact Y3. }
          rewrite EC2. unfold closed, unlocked. cbn [filter l_file l_own]. destruct (Nat.eqb_spec f g); [congruence|]. cbn [andb negb]. do 2 f_equal.
          clear. induction (g_locks s) as [|l ls IH]; [reflexivity|]. cbn [filter]. destruct (negb ((l_file l =? g)%nat && owner_eqb (l_own l) (Proc p))) eqn:E1, (negb ((l_file l =? f)%nat && owner_eqb (l_own l) (Proc p))) eqn:E2; cbn [filter]; rewrite ?E1, ?E2, IH; reflexivity. }
        assert (CI : log_inv (mkLogs (closed p g (g_locks s)) (no_fd p 0 (g_fds s)) (g_text s))) by (pose proof (close_inv s p 0 I) as (CI & _); unfold close_log in CI; rewrite E in CI; exact CI).
        apply (add_inv _ p 0 f (closed p g ls) t CI X); cbn [g_fds]; intros h H; apply in_no_fd in H; [tauto|]. destruct H as [H _]. exact (A h H).
      * apply add_inv; [exact I|exact G|apply fd_of_none; exact E|exact A].
    + apply close_inv. apply drop_lock_inv; [exact I|exact A].
  - unfold write_log. destruct (fd_of p i (g_fds s)); [apply text_inv; exact I|exact I].
  - destruct I as (C & K & FO & L). assert (FI : forall q i f, In (q, i, f) (filter (fun x : Z * nat * nat => negb (fst (fst x) =? p)) (g_fds s)) <-> In (q, i, f) (g_fds s) /\ q <> p) by (intros q i f; rewrite filter_In, negb_true_iff; cbn [fst]; rewrite Z.eqb_neq; reflexivity).
    split; [|split; [|split]]; cbn [g_locks g_fds].
    + apply (sub_consistent (g_locks s)); [|exact C]. intros l H. apply in_ended in H. apply H.
    + intros q i g h I1 I2. apply FI in I1. apply FI in I2. apply (K q i g h); tauto.
    + intros q i j g I1 I2. apply FI in I1. apply FI in I2. apply (FO q i j g); tauto.
    + intros q i g H. apply FI in H. destruct H as [H N]. apply in_ended. split; [exact (L q i g H)|]. cbn [l_own]. congruence.
Qed.
Lemma log_inv_one s p q o o' f : log_inv s -> has_log s p o f -> has_log s q o' f -> p = q /\ o = o'.
Proof.
  intros (C & K & FO & L) H1 H2. assert (PQ : p = q).
  { destruct (Z.eq_dec p q) as [E|N]; [exact E|]. destruct (C _ _ (L p o f H1) (L q o' f H2) eq_refl) as [X _]; [cbn [l_own]; congruence|discriminate X]. }
  split; [exact PQ|]. subst q. exact (FO p o o' f H1 H2).
Qed.
Lemma log_history_inv l : forall s, log_inv s -> all_apart s l -> log_inv (log_history s l).
Proof. unfold log_history. induction l as [|o l IH]; intros s I A; [exact I|]. cbn [fold_left all_apart] in *. apply IH; [apply log_step_inv; [exact I|apply A]|apply A]. Qed.
Lemma no_logs_inv t : log_inv (no_logs t).
Proof. split; [intros a b []|split; [intros p o f g []|split; [intros p o o' f []|intros p o f []]]]. Qed.

(** What other processes do that empty nothing leaves the file alone. *)
Lemma harmless_step s o p i f : log_inv s -> apart s o -> has_log s p i f -> harmless p o -> g_text (log_step s o) f = g_text s f /\ has_log (log_step s o) p i f.
Proof.
  intros I A H N. pose proof I as (C & K & FO & L). assert (X : forall q j z, q <> p -> (if z : bool then emptied j (g_text s) else g_text s) f = g_text s f \/ z = true) by (intros q j [] _; auto).
  unfold has_log in *. destruct o as [q j g z lk|q g z|q j d|q]; cbn [log_step harmless] in *.
  - destruct N as [N ->]. unfold open_logfile_obj. destruct (close_inv s q (S j) I) as (_ & F1 & T1). destruct g as [g|].
    + destruct A as [-> _]. destruct (get_lock _ _ _ _); cbn [g_text g_fds In]; rewrite T1; (split; [reflexivity|]); [right|]; apply F1; (split; [exact H|]); intros [Q _]; congruence.
    + rewrite T1. split; [reflexivity|]. apply F1. split; [exact H|]. intros [Q _]; congruence.
  - destruct N as [N ->]. unfold open_daemon_logfile. destruct g as [g|].
    + destruct (get_lock (Proc q) g true (g_locks s)) as [ls|]; cbv zeta; unfold close_log; cbn [g_fds g_locks g_text]; destruct (fd_of q 0 (g_fds s)); cbn [g_fds g_locks g_text In]; (split; [reflexivity|]); try right; try apply in_no_fd; try (split; [exact H|intros [Q _]; congruence]); exact H.
    + destruct (close_inv s q 0 I) as (_ & F1 & T1). rewrite T1. split; [reflexivity|]. apply F1. split; [exact H|]. intros [Q _]; congruence.
  - unfold write_log. destruct (fd_of q j (g_fds s)) as [g|] eqn:E; [|auto]. cbn [g_text g_fds]. split; [|exact H]. destruct (Nat.eqb_spec f g) as [E2|E2]; [|reflexivity]. subst g. apply fd_of_in in E. destruct (log_inv_one s p q i j f I H E). congruence.
  - cbn [g_text g_fds]. split; [reflexivity|]. rewrite filter_In. split; [exact H|]. cbn [fst]. rewrite negb_true_iff, Z.eqb_neq. congruence.
Qed.
Lemma harmless_history l : forall s p i f, log_inv s -> all_apart s l -> has_log s p i f -> Forall (harmless p) l -> g_text (log_history s l) f = g_text s f /\ has_log (log_history s l) p i f.
Proof.
  unfold log_history. induction l as [|o l IH]; intros s p i f I A H N; [auto|]. inversion N as [|? ? N1 N2]; subst. cbn [fold_left all_apart] in *. destruct A as [A1 A2]. destruct (harmless_step s o p i f I A1 H N1) as [T H1].
  destruct (IH (log_step s o) p i f (log_step_inv _ _ I A1) A2 H1 N2) as [T2 H2]. rewrite T2, T. auto.
Qed.
