(** Proofs about ResetModel. *)
From Verif Require Import Base ResetModel ResetSpec.
Set Implicit Arguments.
Open Scope Z_scope.

Lemma nth_set_same A (l : list A) c x y : nth_error l c = Some y -> nth_error (set_at l c x) c = Some x.
Proof. revert c; induction l; destruct c; cbn; intros; try discriminate; auto. Qed.
Lemma nth_set_other A (l : list A) c c' x : c <> c' -> nth_error (set_at l c x) c' = nth_error l c'.
Proof. revert c c'; induction l; destruct c, c'; cbn; intros; auto; congruence. Qed.
Lemma set_length A (l : list A) c (x : A) : length (set_at l c x) = length l.
Proof. revert c; induction l; destruct c; cbn; auto. Qed.

Lemma alive_in ps pid : alive ps pid = true <-> exists p, In p ps /\ p_pid p = pid.
Proof.
  unfold alive. rewrite existsb_exists. split; intros (p & A & B); exists p; split; auto.
  - apply Z.eqb_eq; auto. - apply Z.eqb_eq; auto.
Qed.


Record inv (y : sys) : Prop := mkInv {
  v_nodup : NoDup (map p_pid (y_procs y));
  v_pos : forall p, In p (y_procs y) -> 1 < p_pid p;
  v_from : forall p no, In p (y_procs y) -> p_from p = Some no -> (no < y_count y)%nat;
  v_sh : forall p, In p (y_procs y) -> p_shell p = true -> p_grp p = p_pid p;
  (* a running shell belongs to its console's current reset *)
  v_cur : forall p, In p (y_procs y) -> p_shell p = true ->
     exists c x no, nth_error (y_cons y) c = Some x /\ p_from p = Some no /\ r_no x = Some no /\ r_pid x = p_pid p;
  v_grp : forall p q, In p (y_procs y) -> p_shell p = true -> In q (y_procs y) -> p_grp q = p_pid p -> p_from q = p_from p;
  v_con : forall c x, nth_error (y_cons y) c = Some x ->
     (r_pid x <= 0 -> r_timer x = None) /\ (0 < r_pid x -> exists no, r_no x = Some no);
  v_began : forall t c no pid, In (Began t c no pid) (y_notes y) -> (no < y_count y)%nat;
  v_uniq : forall t c no pid t' c' pid', In (Began t c no pid) (y_notes y) -> In (Began t' c' no pid') (y_notes y) ->
     t = t' /\ c = c' /\ pid = pid';
  v_sep : forall t c no pid t' no' pid', In (Began t c no pid) (y_notes y) -> In (Began t' c no' pid') (y_notes y) ->
     (no < no')%nat -> t + 60000 <= t';
  v_none : forall c x t no pid, nth_error (y_cons y) c = Some x -> In (Began t c no pid) (y_notes y) -> r_no x <> None;
  v_last : forall c x no, nth_error (y_cons y) c = Some x -> r_no x = Some no ->
     exists t pid, In (Began t c no pid) (y_notes y)
       /\ (forall t' no' pid', In (Began t' c no' pid') (y_notes y) -> (no' <= no)%nat)
       /\ (0 < r_pid x -> r_pid x = pid /\ r_timer x = Some (t + 60000))
       /\ (r_pid x <= 0 -> t + 60000 <= y_now y) }.

Lemma same_proc ps p q : NoDup (map p_pid ps) -> In p ps -> In q ps -> p_pid p = p_pid q -> p = q.
Proof.
  induction ps as [|a ps IH]; cbn; intros ND P Q E; [tauto|]. inversion ND as [|? ? NI ND']; subst.
  destruct P as [->|P], Q as [->|Q]; auto; exfalso; apply NI; apply in_map_iff; eexists; split; try eassumption; congruence.
Qed.

Lemma nodup_filter A B (f : A -> B) p l : NoDup (map f l) -> NoDup (map f (filter p l)).
Proof.
  induction l as [|a l IH]; cbn; auto. intros N. inversion N as [|? ? I N']; subst.
  destruct (p a); cbn; auto. constructor; auto. intros X. apply I. apply in_map_iff in X.
  destruct X as (y & E & Y). apply filter_In in Y. apply in_map_iff. exists y. tauto.
Qed.

Lemma start_inv now n : inv (start now n).
Proof.
  constructor; cbn; try tauto; try constructor.
  - apply nth_error_In, repeat_spec in H. subst x. reflexivity.
  - apply nth_error_In, repeat_spec in H. subst x. cbn. lia.
  - intros c x no H E. apply nth_error_In, repeat_spec in H. subst x. discriminate.
Qed.

Lemma procs_inv y ps : inv y -> NoDup (map p_pid ps) ->
  (forall p, In p ps -> 1 < p_pid p) ->
  (forall p no, In p ps -> p_from p = Some no -> (no < y_count y)%nat) ->
  (forall p, In p ps -> p_shell p = true -> In p (y_procs y)) ->
  (forall p q, In p ps -> p_shell p = true -> In q ps -> p_grp q = p_pid p -> p_from q = p_from p) ->
  inv (mkSys (y_now y) ps (y_cons y) (y_count y) (y_notes y)).
Proof.
  intros [i1 i2 i3 i4 i5 i6 i7 i8 i9 i10 i11 i12] A B C D E. constructor; cbn; auto.
Qed.

Lemma sub_inv y ps : inv y -> NoDup (map p_pid ps) -> (forall p, In p ps -> In p (y_procs y)) ->
  inv (mkSys (y_now y) ps (y_cons y) (y_count y) (y_notes y)).
Proof. intros I N S. pose proof I as [i1 i2 i3 i4 i5 i6 i7 i8 i9 i10 i11 i12]. apply procs_inv; auto. intros; eauto. Qed.

Lemma reset_inv c fits pid y y' : inv y -> pid = -1 \/ unused pid (y_procs y) ->
  reset_console c fits pid y = Ok y' -> inv y'.
Proof.
  intros I U R. unfold reset_console in R. destruct (nth_error (y_cons y) c) as [x|] eqn:HC; [|discriminate].
  pose proof I as [i1 i2 i3 i4 i5 i6 i7 i8 i9 i10 i11 i12].
  destruct (Z.ltb_spec 0 (r_pid x)) as [|RP].
  { injection R as <-. constructor; cbn; auto.
    - intros t c0 no p [X|X]; [discriminate|eauto].
    - intros t c0 no p t' c' p' [X|X] [Y|Y]; try discriminate. eauto.
    - intros t c0 no p t' no' p' [X|X] [Y|Y]; try discriminate. eauto.
    - intros c0 x0 t no p HX [X|X]; [discriminate|eauto].
    - intros c0 x0 no HX E. destruct (i12 _ _ _ HX E) as (t & p & A & B & C). exists t, p. split; auto. split; auto.
      intros t' no' p' [X|X]; [discriminate|eauto]. }
  destruct fits; [|injection R as <-; exact I].
  destruct (Z.ltb_spec pid 0) as [NP|PP].
  { injection R as <-. constructor; cbn; auto.
    - intros p P S. destruct (i5 p P S) as (c0 & x0 & no & H & E1 & E2 & E3).
      destruct (Nat.eq_dec c c0) as [<-|NE].
      + exfalso. assert (x0 = x) as -> by congruence. specialize (i2 _ P). lia.
      + exists c0, x0, no. rewrite nth_set_other; auto.
    - intros c0 x0 H. destruct (Nat.eq_dec c c0) as [<-|NE].
      + rewrite (nth_set_same _ _ _ HC) in H. injection H as <-. cbn. split; [|lia]. intros _. apply (i7 _ _ HC). lia.
      + rewrite nth_set_other in H by auto. eauto.
    - intros c0 x0 t no p H B. destruct (Nat.eq_dec c c0) as [<-|NE].
      + rewrite (nth_set_same _ _ _ HC) in H. injection H as <-. cbn. eapply i11; eauto.
      + rewrite nth_set_other in H by auto. eauto.
    - intros c0 x0 no H E. destruct (Nat.eq_dec c c0) as [<-|NE].
      + rewrite (nth_set_same _ _ _ HC) in H. injection H as <-. cbn in *. destruct (i12 _ _ _ HC E) as (t & p & A & B & C & D).
        exists t, p. split; auto. split; auto. split; [lia|]. intros _. apply D; lia.
      + rewrite nth_set_other in H by auto. eauto. }
  destruct U as [->|[U1 U2]]; [lia|]. rewrite Forall_forall in U2. injection R as <-.
  constructor; cbn.
  - constructor; auto. intros X. apply in_map_iff in X. destruct X as (p & E & P). destruct (U2 p P). congruence.
  - intros p [<-|P]; cbn; auto.
  - intros p no [<-|P] E; cbn in *; [injection E as <-; lia|]. specialize (i3 _ _ P E). lia.
  - intros p [<-|P] S; cbn; auto.
  - intros p [<-|P] S; cbn in *.
    + exists c. eexists. exists (y_count y). rewrite (nth_set_same _ _ _ HC). cbn. auto.
    + destruct (i5 p P S) as (c0 & x0 & no & H & E1 & E2 & E3). destruct (Nat.eq_dec c c0) as [<-|NE].
      * exfalso. assert (x0 = x) as -> by congruence. specialize (i2 _ P). lia.
      * exists c0, x0, no. rewrite nth_set_other; auto.
  - intros p q [<-|P] S [<-|Q] E; cbn in *.
    + reflexivity.
    + destruct (U2 q Q). congruence.
    + destruct (U2 p P). congruence.
    + eauto.
  - intros c0 x0 H. destruct (Nat.eq_dec c c0) as [<-|NE].
    + rewrite (nth_set_same _ _ _ HC) in H. injection H as <-. cbn. split; [lia|]. eauto.
    + rewrite nth_set_other in H by auto. eauto.
  - intros t c0 no p [X|X]; [injection X as <- <- <- <-; lia|]. apply i8 in X. lia.
  - intros t c0 no p t' c' p' [X|X] [Y|Y].
    + injection X as <- <- <- <-. injection Y as <- <- <-. auto.
    + injection X as <- <- <- <-. apply i8 in Y. lia.
    + injection Y as <- <- <- <-. apply i8 in X. lia.
    + eauto.
  - intros t c0 no p t' no' p' [X|X] [Y|Y] L.
    + injection X as <- <- <- <-. injection Y as <- <- <-. lia.
    + injection X as <- <- <- <-. apply i8 in Y. lia.
    + injection Y as <- <- <- <-.
      destruct (r_no x) as [no1|] eqn:RN; [|exfalso; eapply i11; eauto].
      destruct (i12 _ _ _ HC RN) as (t1 & p1 & A & B & C & D). specialize (D RP).
      pose proof (B _ _ _ X) as LE. destruct (Nat.eq_dec no no1) as [->|NE].
      * destruct (i9 _ _ _ _ _ _ _ A X) as (-> & _ & _). lia.
      * pose proof (i10 _ _ _ _ _ _ _ X A ltac:(lia)). lia.
    + eauto.
  - intros c0 x0 t no p H B. destruct (Nat.eq_dec c c0) as [<-|NE].
    + rewrite (nth_set_same _ _ _ HC) in H. injection H as <-. discriminate.
    + rewrite nth_set_other in H by auto. destruct B as [B|B]; [congruence|]. eauto.
  - intros c0 x0 no H E. destruct (Nat.eq_dec c c0) as [<-|NE].
    + rewrite (nth_set_same _ _ _ HC) in H. injection H as <-. cbn in *. injection E as <-.
      exists (y_now y), pid. split; auto. split.
      * intros t' no' p' [X|X]; [injection X; intros; subst; lia|]. apply i8 in X. lia.
      * split; [|lia]. intros _. auto.
    + rewrite nth_set_other in H by auto. destruct (i12 _ _ _ H E) as (t & p & A & B & C). exists t, p. split; auto. split; auto.
      intros t' no' p' [X|X]; [congruence|eauto].
Qed.

Lemma perform_inv cs : forall y y', inv y -> resets_ok cs y -> perform_reset cs y = Ok y' -> inv y'.
Proof.
  induction cs as [|[[c fits] pid] cs IH]; cbn; intros y y' I RO R; [congruence|].
  destruct RO as (L & U & N). destruct (reset_console c fits pid y) as [y1|] eqn:E; [|discriminate]. cbn [bind] in R.
  eapply IH; [eapply reset_inv; eauto| |exact R]. auto.
Qed.

Lemma kill_inv c y y' x due : inv y -> nth_error (y_cons y) c = Some x -> r_timer x = Some due -> due <= y_now y ->
  kill_reset_cmd c y = Ok y' -> inv y'.
Proof.
  intros I HC TM DUE R. unfold kill_reset_cmd in R. rewrite HC in R.
  pose proof I as [i1 i2 i3 i4 i5 i6 i7 i8 i9 i10 i11 i12].
  assert (0 < r_pid x) as RP.
  { destruct (Z.leb_spec (r_pid x) 0) as [L|]; auto. destruct (i7 _ _ HC) as [X _]. specialize (X L). congruence. }
  destruct (Z.leb_spec (r_pid x) 0); [lia|].
  assert (forall ps nts, NoDup (map p_pid ps) -> (forall p, In p ps -> In p (y_procs y)) ->
     (forall p, In p ps -> p_shell p = true -> p_pid p <> r_pid x) ->
     (forall t c no pid, In (Began t c no pid) nts <-> In (Began t c no pid) (y_notes y)) ->
     inv (mkSys (y_now y) ps (set_at (y_cons y) c (mkCon 0 None (r_no x))) (y_count y) nts)) as GO.
  { intros ps nts ND SUB NS NT. constructor; cbn; auto.
    - eauto.
    - intros p P S. destruct (i5 p (SUB _ P) S) as (c0 & x0 & no & H0 & E1 & E2 & E3).
      destruct (Nat.eq_dec c c0) as [<-|NE].
      + exfalso. assert (x0 = x) as -> by congruence. apply (NS p P S). congruence.
      + exists c0, x0, no. rewrite nth_set_other; auto.
    - intros c0 x0 H0. destruct (Nat.eq_dec c c0) as [<-|NE].
      + rewrite (nth_set_same _ _ _ HC) in H0. injection H0 as <-. cbn. split; auto. lia.
      + rewrite nth_set_other in H0 by auto. eauto.
    - intros t c0 no p X. apply NT in X. eauto.
    - intros t c0 no p t' c' p' X Y. apply NT in X. apply NT in Y. eauto.
    - intros t c0 no p t' no' p' X Y. apply NT in X. apply NT in Y. eauto.
    - intros c0 x0 t no p H0 B. apply NT in B. destruct (Nat.eq_dec c c0) as [<-|NE].
      + rewrite (nth_set_same _ _ _ HC) in H0. injection H0 as <-. cbn. eapply i11; eauto.
      + rewrite nth_set_other in H0 by auto. eauto.
    - intros c0 x0 no H0 E. destruct (Nat.eq_dec c c0) as [<-|NE].
      + rewrite (nth_set_same _ _ _ HC) in H0. injection H0 as <-. cbn in *. destruct (i12 _ _ _ HC E) as (t & p & A & B & C & D).
        exists t, p. split; [apply NT; auto|]. split; [intros; eapply B; apply NT; eauto|]. split; [lia|]. intros _.
        destruct (C RP) as [_ C2]. rewrite TM in C2. injection C2 as ->. lia.
      + rewrite nth_set_other in H0 by auto. destruct (i12 _ _ _ H0 E) as (t & p & A & B & C).
        exists t, p. split; [apply NT; auto|]. split; [intros; eapply B; apply NT; eauto|]. auto. }
  destruct (alive (y_procs y) (r_pid x)) eqn:AL; injection R as <-; apply GO; auto.
  - apply nodup_filter; auto.
  - intros p P. apply filter_In in P. tauto.
  - intros p P S E. apply filter_In in P. destruct P as [P NG]. rewrite (i4 p P S), E, Z.eqb_refl in NG. discriminate.
  - intros t c0 no pid. cbn. split; auto. intros [X|X]; [discriminate|auto].
  - intros p P S E. assert (alive (y_procs y) (r_pid x) = true); [|congruence]. apply alive_in. eauto.
  - tauto.
Qed.

Lemma step_inv e y y' : inv y -> event_ok y e -> step e y = Ok y' -> inv y'.
Proof.
  intros I EO R. pose proof I as [i1 i2 i3 i4 i5 i6 i7 i8 i9 i10 i11 i12].
  destruct e as [ms|cs|c|pid [par|]|pid|pid]; cbn [step event_ok] in *.
  - injection R as <-. destruct (Z.ltb_spec 0 ms); auto. constructor; cbn; auto.
    intros c x no H0 E. destruct (i12 _ _ _ H0 E) as (t & p & A & B & C & D). exists t, p. split; auto. split; auto. split; auto.
    intros X. specialize (D X). lia.
  - eapply perform_inv; eauto.
  - destruct (nth_error (y_cons y) c) as [x|] eqn:HC; [|discriminate].
    destruct (r_timer x) as [due|] eqn:TM; [|congruence]. destruct (Z.ltb_spec (y_now y) due); [congruence|].
    eapply kill_inv; eauto.
  - destruct EO as [U1 U2]. rewrite Forall_forall in U2.
    destruct (find (is_pid par) (y_procs y)) as [q|] eqn:F; [|congruence]. injection R as <-.
    apply find_some in F. destruct F as [Q _]. apply procs_inv; auto; cbn.
    + constructor; auto. intros X. apply in_map_iff in X. destruct X as (p & E & P). destruct (U2 p P). congruence.
    + intros p [<-|P]; cbn; auto.
    + intros p no [<-|P] E; cbn in *; eauto.
    + intros p [<-|P] S; cbn in *; [discriminate|auto].
    + intros p q0 [<-|P] S [<-|Q0] E; cbn in *; try discriminate; eauto.
  - destruct EO as [U1 U2]. rewrite Forall_forall in U2. injection R as <-. apply procs_inv; auto; cbn.
    + constructor; auto. intros X. apply in_map_iff in X. destruct X as (p & E & P). destruct (U2 p P). congruence.
    + intros p [<-|P]; cbn; auto.
    + intros p no [<-|P] E; cbn in *; [discriminate|eauto].
    + intros p [<-|P] S; cbn in *; [discriminate|auto].
    + intros p q0 [<-|P] S [<-|Q0] E; cbn in *; try discriminate; eauto.
      destruct (U2 p P). congruence.
  - injection R as <-. set (f := fun p => if is_pid pid p then mkProc pid pid (p_from p) (p_shell p) else p).
    assert (forall p, p_pid (f p) = p_pid p /\ p_from (f p) = p_from p /\ p_shell (f p) = p_shell p) as FP.
    { intros p. unfold f, is_pid. destruct (Z.eqb_spec (p_pid p) pid); cbn; auto. }
    assert (forall p, In p (y_procs y) -> p_shell p = true -> f p = p) as FS.
    { intros p P S. unfold f, is_pid. destruct (Z.eqb_spec (p_pid p) pid); auto. pose proof (i4 p P S). destruct p; cbn in *; congruence. }
    apply procs_inv; auto.
    + rewrite map_map. erewrite map_ext; [exact i1|]. intros p. apply FP.
    + intros p P. apply in_map_iff in P. destruct P as (p0 & <- & P). destruct (FP p0) as (-> & _). auto.
    + intros p no P. apply in_map_iff in P. destruct P as (p0 & <- & P). destruct (FP p0) as (_ & -> & _). eauto.
    + intros p P S. apply in_map_iff in P. destruct P as (p0 & <- & P). destruct (FP p0) as (_ & _ & E). rewrite E in S.
      rewrite (FS p0 P S). auto.
    + intros p q P S Q E. apply in_map_iff in P. destruct P as (p0 & <- & P). apply in_map_iff in Q. destruct Q as (q0 & <- & Q).
      destruct (FP p0) as (E1 & E2 & E3). rewrite E3 in S. destruct (FP q0) as (F1 & F2 & F3). rewrite E2, F2. rewrite E1 in E.
      unfold f in E. unfold is_pid in E. destruct (Z.eqb_spec (p_pid q0) pid) as [EQ|NE]; cbn in E.
      * assert (q0 = p0) as -> by (eapply same_proc; eauto; congruence). reflexivity.
      * eauto.
  - injection R as <-. apply sub_inv; auto.
    + apply nodup_filter; auto.
    + intros p P. apply filter_In in P. tauto.
Qed.

Lemma reached_inv n y : reached n y -> inv y.
Proof. induction 1; [apply start_inv|eapply step_inv; eauto]. Qed.

Lemma reset_cons c fits pid y y' : reset_console c fits pid y = Ok y' -> length (y_cons y') = length (y_cons y).
Proof.
  unfold reset_console. destruct (nth_error (y_cons y) c); [|discriminate].
  destruct (0 <? r_pid c0), fits, (pid <? 0); intros E; injection E as <-; cbn; rewrite ?set_length; auto.
Qed.
Lemma perform_ok cs : forall y, resets_ok cs y -> exists y', perform_reset cs y = Ok y'.
Proof.
  induction cs as [|[[c fits] pid] cs IH]; cbn; intros y RO; eauto.
  destruct RO as (L & U & N). destruct (reset_console c fits pid y) as [y1|k] eqn:E; cbn [bind]; [eauto|].
  exfalso. unfold reset_console in E. destruct (nth_error (y_cons y) c) eqn:HC.
  - destruct (0 <? r_pid c0), fits, (pid <? 0); discriminate.
  - apply nth_error_None in HC. lia.
Qed.
Lemma step_ok e y : event_ok y e -> exists y', step e y = Ok y'.
Proof.
  intros EO. destruct e as [ms|cs|c|pid [par|]|pid|pid]; cbn [step event_ok] in *; eauto.
  - apply perform_ok; auto.
  - unfold kill_reset_cmd. destruct (nth_error (y_cons y) c) eqn:HC; [|apply nth_error_None in HC; lia].
    destruct (r_timer c0); eauto. destruct (y_now y <? z); eauto. destruct (r_pid c0 <=? 0); eauto.
    destruct (alive _ _); eauto.
  - destruct (find _ _); eauto.
Qed.

(** checking concrete runs by computation *)
Definition unusedb (pid : Z) (ps : list proc) : bool :=
  (1 <? pid) && forallb (fun p => negb (p_pid p =? pid) && negb (p_grp p =? pid)) ps.
Fixpoint resets_okb (cs : list (nat * bool * Z)) (y : sys) : bool :=
  match cs with
  | [] => true
  | (c, fits, pid) :: cs =>
      (c <? length (y_cons y))%nat && ((pid =? -1) || unusedb pid (y_procs y))
      && match reset_console c fits pid y with Ok y' => resets_okb cs y' | _ => true end
  end.
Definition event_okb (y : sys) (e : event) : bool :=
  match e with
  | Tick _ | Leads _ | Ends _ => true
  | Reset cs => resets_okb cs y
  | Expire c => (c <? length (y_cons y))%nat
  | Born pid _ => unusedb pid (y_procs y)
  end.
Fixpoint run_okb (es : list event) (y : sys) : bool :=
  match es with
  | [] => true
  | e :: es => event_okb y e && match step e y with Ok y' => run_okb es y' | _ => true end
  end.

Lemma unusedb_ok pid ps : unusedb pid ps = true -> unused pid ps.
Proof.
  intros H. apply andb_prop in H. destruct H as [A B]. apply Z.ltb_lt in A. split; auto.
  rewrite forallb_forall in B. apply Forall_forall. intros p P. specialize (B p P). apply andb_prop in B. destruct B as [B C].
  apply negb_true_iff, Z.eqb_neq in B. apply negb_true_iff, Z.eqb_neq in C. auto.
Qed.
Lemma resets_okb_ok cs : forall y, resets_okb cs y = true -> resets_ok cs y.
Proof.
  induction cs as [|[[c fits] pid] cs IH]; cbn; auto. intros y H. apply andb_prop in H. destruct H as [H C].
  apply andb_prop in H. destruct H as [A B]. apply Nat.ltb_lt in A. split; auto. split.
  - apply orb_prop in B. destruct B as [B|B]; [left; apply Z.eqb_eq; auto|right; apply unusedb_ok; auto].
  - intros y' E. rewrite E in C. auto.
Qed.
Lemma event_okb_ok y e : event_okb y e = true -> event_ok y e.
Proof. destruct e; cbn; auto. apply resets_okb_ok. apply Nat.ltb_lt. apply unusedb_ok. Qed.
Lemma reach_run n es : forall y, reached n y -> run_okb es y = true -> forall y', run es y = Ok y' -> reached n y'.
Proof.
  induction es as [|e es IH]; cbn; intros y R OK y' E; [congruence|].
  apply andb_prop in OK. destruct OK as [O1 O2]. destruct (step e y) as [y1|] eqn:S; [|discriminate]. cbn [bind] in E.
  eapply IH; [|eauto|exact E]. eapply R_step; eauto. apply event_okb_ok; auto.
Qed.
