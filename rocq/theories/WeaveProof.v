(** Proofs about interleaved linking. *)
From Verif Require Import Base WeaveModel WeaveSpec.
Set Implicit Arguments.

Lemma put_same {A} (f : nat -> A) i v : put f i v i = v.
Proof. unfold put. now rewrite Nat.eqb_refl. Qed.
Lemma put_other {A} (f : nat -> A) i j v : j <> i -> put f i v j = f j.
Proof. intros N. unfold put. destruct (Nat.eqb_spec j i); congruence. Qed.
Lemma times_app x a b : times x (a ++ b) = times x a + times x b.
Proof. apply count_occ_app. Qed.
Lemma times_one x y : times x [y] = if y =? x then 1 else 0.
Proof. unfold times. cbn. destruct (Nat.eq_dec y x), (Nat.eqb_spec y x); congruence. Qed.
Lemma times_drop x y l : times x (drop y l) = if x =? y then 0 else times x l.
Proof.
  unfold times, drop. induction l as [|a l IH]; cbn [remove count_occ].
  - now destruct (x =? y).
  - destruct (Nat.eq_dec y a) as [->|N]; [rewrite IH; destruct (Nat.eqb_spec x a), (Nat.eq_dec a x); congruence|].
    cbn [count_occ]. rewrite IH. destruct (Nat.eq_dec a x), (Nat.eqb_spec x y); congruence.
Qed.
Lemma times_in x l : times x l = 0 <-> ~ In x l.
Proof. unfold times. symmetry. apply count_occ_not_In. Qed.

Lemma nth_replace {A} : forall (l : list A) n v j, nth_error (replace l n v) j =
  if j =? n then (match nth_error l n with Some _ => Some v | None => None end) else nth_error l j.
Proof.
  induction l as [|a l IH]; intros n v j.
  - cbn [replace]. destruct (j =? n); destruct j, n; reflexivity.
  - destruct n as [|n]; destruct j as [|j]; cbn [replace nth_error Nat.eqb]; auto.
Qed.

Section Sep.
Variable isc : nat -> bool.
Notation cl := (client_of isc).

Definition q_ok (s d : nat) (q : cont) : Prop :=
  match q with Done => True | LoopW o _ => o = d /\ isc o = true | LoopR o _ => o = s /\ isc o = true end.
Definition wf (i : instr) : Prop :=
  match i with
  | AppR s d | AppW s d => xorb (isc s) (isc d) = true
  | DelR s d q | DelW s d q | E1 s d q | E3 s d q => xorb (isc s) (isc d) = true /\ q_ok s d q
  | E2 s d q => (xorb (isc s) (isc d) = true /\ q_ok s d q) /\ isc s = true
  | E4 s d q => (xorb (isc s) (isc d) = true /\ q_ok s d q) /\ isc d = true
  | PeekW o _ | PeekR o _ | Free o => isc o = true
  | Steal _ _ _ => False
  end.
Definition typed (l : links) : Prop := forall c, isc c = true -> forall k, In k (rd l c) \/ In k (wr l c) -> isc k = false.

(** In the second loop, or past it. *)
Definition late (i : instr) : bool :=
  match i with
  | DelR _ _ (LoopR _ _) | DelW _ _ (LoopR _ _) | E1 _ _ (LoopR _ _) | E2 _ _ (LoopR _ _) | E3 _ _ (LoopR _ _) | E4 _ _ (LoopR _ _) => true
  | PeekR _ _ | Free _ => true
  | _ => false
  end.
Definition settled (l : links) (i : instr) : links :=
  match i with AppW _ _ | DelW _ _ _ => fst (exec isc l i) | _ => l end.
Definition head_ok (l : links) (i : instr) : Prop :=
  wf i /\ symmetric (settled l i) (cl i) /\ (late i = true -> wr l (cl i) = []) /\
  match i with Free o => rd l o = [] | _ => True end.
(** The call leads to the destruction of its client. *)
Definition q_ends (q : cont) : bool := match q with Done => false | LoopW _ f | LoopR _ f => f end.
Definition ends (i : instr) : bool :=
  match i with
  | DelR _ _ q | DelW _ _ q | E1 _ _ q | E2 _ _ q | E3 _ _ q | E4 _ _ q => q_ends q
  | PeekW _ f | PeekR _ f => f
  | Free _ => true
  | _ => false
  end.

Lemma of_pair_cl s d : xorb (isc s) (isc d) = true -> (isc s = true /\ isc d = false /\ of_pair isc s d = s) \/ (isc s = false /\ isc d = true /\ of_pair isc s d = d).
Proof. unfold of_pair. destruct (isc s), (isc d); cbn; try discriminate; auto. Qed.

Lemma cl_client i : wf i -> isc (cl i) = true.
Proof.
  destruct i; cbn [wf client_of]; try tauto; intros H;
    match goal with |- context [of_pair isc ?s ?d] => destruct (@of_pair_cl s d) as [(A & B & ->)|(A & B & ->)]; tauto end.
Qed.

(** ** Others are not concerned *)
Lemma same_refl c l : same_for c l l. Proof. repeat split. Qed.
Lemma same_trans c a b d : same_for c a b -> same_for c b d -> same_for c a d.
Proof.
  intros (A1 & A2 & A3 & A4 & A5) (B1 & B2 & B3 & B4 & B5). repeat split; try congruence;
  destruct (A5 k), (B5 k); congruence.
Qed.
Lemma same_sym c a b : same_for c a b -> same_for c b a.
Proof. intros (A1 & A2 & A3 & A4 & A5). repeat split; try congruence; destruct (A5 k); congruence. Qed.

Ltac pair_cases H :=
  match type of H with xorb (isc ?s) (isc ?d) = true =>
    let A := fresh "Is" in let B := fresh "Id" in let C := fresh "Ip" in
    destruct (of_pair_cl _ _ H) as [(A & B & C)|(A & B & C)]; try rewrite C in * end.

Lemma exec_other l i c : wf i -> isc c = true -> c <> cl i -> same_for c l (fst (exec isc l i)).
Proof.
  intros W Ic N.
  assert (RD : forall s v, c <> s -> (forall n, times c v = n -> times c (rd l s) = n) -> same_for c l (set_rd l s v)).
  { intros s v Ns H. unfold same_for, set_rd. cbn. rewrite put_other by exact Ns. repeat split; auto.
    unfold put. destruct (Nat.eqb_spec k s) as [->|]; [apply H|]; reflexivity. }
  assert (WR : forall s v, c <> s -> (forall n, times c v = n -> times c (wr l s) = n) -> same_for c l (set_wr l s v)).
  { intros s v Ns H. unfold same_for, set_wr. cbn. rewrite put_other by exact Ns. repeat split; auto.
    unfold put. destruct (Nat.eqb_spec k s) as [->|]; [apply H|]; reflexivity. }
  assert (EO : forall s, c <> s -> same_for c l (set_eof l s)).
  { intros s Ns. unfold same_for, set_eof. cbn. rewrite put_other by exact Ns. repeat split; auto. }
  destruct i as [s d|s d|s d q|s d q|s d q|s d q|s d q|s d q|o f|o f|o|s d seen]; cbn [exec wf client_of] in *.
  - assert (c <> s /\ c <> d) as [N1 N2] by (pair_cases W; split; congruence). cbn [fst]. apply RD; auto. intros n. rewrite times_app, times_one.
    destruct (Nat.eqb_spec d c); [congruence|lia].
  - assert (c <> s /\ c <> d) as [N1 N2] by (pair_cases W; split; congruence). cbn [fst]. apply WR; auto. intros n. rewrite times_app, times_one.
    destruct (Nat.eqb_spec s c); [congruence|lia].
  - destruct W as [W _]. assert (c <> s /\ c <> d) as [N1 N2] by (pair_cases W; split; congruence). cbn [fst]. apply RD; auto. intros n. rewrite times_drop.
    destruct (Nat.eqb_spec c d); [congruence|lia].
  - destruct W as [W _]. assert (c <> s /\ c <> d) as [N1 N2] by (pair_cases W; split; congruence). cbn [fst]. apply WR; auto. intros n. rewrite times_drop.
    destruct (Nat.eqb_spec c s); [congruence|lia].
  - destruct (isc s && is_nil (rd l s)); apply same_refl.
  - destruct W as [[W _] _]. assert (c <> s) by (pair_cases W; congruence). destruct (is_nil (wr l s)); cbn [fst]; [now apply EO|apply same_refl].
  - destruct (isc d && is_nil (rd l d)); apply same_refl.
  - destruct W as [[W _] _]. assert (c <> d) by (pair_cases W; congruence). destruct (is_nil (wr l d)); cbn [fst]; [now apply EO|apply same_refl].
  - destruct (wr l o); apply same_refl.
  - destruct (rd l o); apply same_refl.
  - unfold same_for, set_gone. cbn. rewrite put_other by exact N. repeat split; auto.
  - contradiction.
Qed.

Lemma exec_typed l i : wf i -> typed l -> typed (fst (exec isc l i)).
Proof.
  intros W T. unfold typed in *.
  assert (DR : forall x y (v : list nat), In x (drop y v) -> In x v) by (intros x y v H; unfold drop in H; apply in_remove in H; tauto).
  destruct i as [s d|s d|s d q|s d q|s d q|s d q|s d q|s d q|o f|o f|o|s d seen]; cbn [exec wf] in *; try contradiction.
  - cbn [fst set_rd rd wr]. intros c Ic k. unfold put. destruct (Nat.eqb_spec c s) as [->|]; [|apply T; exact Ic].
    intros [H|H]; [|apply (T s Ic); auto]. apply in_app_or in H. destruct H as [H|[<-|[]]]; [apply (T s Ic); auto|]. pair_cases W; congruence.
  - cbn [fst set_wr rd wr]. intros c Ic k. unfold put. destruct (Nat.eqb_spec c d) as [->|]; [|apply T; exact Ic].
    intros [H|H]; [apply (T d Ic); auto|]. apply in_app_or in H. destruct H as [H|[<-|[]]]; [apply (T d Ic); auto|]. pair_cases W; congruence.
  - cbn [fst set_rd rd wr]. intros c Ic k. unfold put. destruct (Nat.eqb_spec c s) as [->|]; [|apply T; exact Ic].
    intros [H|H]; [|apply (T s Ic); auto]. apply DR in H. apply (T s Ic); auto.
  - cbn [fst set_wr rd wr]. intros c Ic k. unfold put. destruct (Nat.eqb_spec c d) as [->|]; [|apply T; exact Ic].
    intros [H|H]; [apply (T d Ic); auto|]. apply DR in H. apply (T d Ic); auto.
  - destruct (isc s && is_nil (rd l s)); exact T.
  - destruct (is_nil (wr l s)); exact T.
  - destruct (isc d && is_nil (rd l d)); exact T.
  - destruct (is_nil (wr l d)); exact T.
  - destruct (wr l o); exact T.
  - destruct (rd l o); exact T.
  - exact T.
Qed.

Lemma same_symmetric c a b : same_for c a b -> symmetric a c -> symmetric b c.
Proof.
  intros (A1 & A2 & _ & _ & A5) S k. destruct (S k) as [S1 S2], (A5 k) as [B1 B2]. rewrite <- A1, <- A2, <- B1, <- B2. auto.
Qed.
(** The operations of client [c] see of the links only what concerns [c]. *)
Lemma exec_same l l' i : wf i -> same_for (cl i) l l' ->
  same_for (cl i) (fst (exec isc l i)) (fst (exec isc l' i)) /\ snd (exec isc l i) = snd (exec isc l' i).
Proof.
  intros W S. pose proof S as (A1 & A2 & A3 & A4 & A5).
  destruct i as [s d|s d|s d q|s d q|s d q|s d q|s d q|s d q|o f|o f|o|s d seen]; cbn [exec wf client_of] in *; try contradiction.
  - split; [|reflexivity]. pair_cases W; unfold same_for, set_rd; cbn [fst rd wr eof gone].
    + rewrite !put_same, A1. repeat split; auto; destruct (A5 k); auto. unfold put. destruct (Nat.eqb_spec k s) as [->|]; [now rewrite ?A1|]. apply A5.
    + assert (d <> s) by congruence. rewrite !put_other by assumption. repeat split; auto; destruct (A5 k); auto. unfold put. destruct (Nat.eqb_spec k s) as [->|]; [|apply A5]. rewrite !times_app. destruct (A5 s) as [-> _]. reflexivity.
  - split; [|reflexivity]. pair_cases W; unfold same_for, set_wr; cbn [fst rd wr eof gone].
    + assert (s <> d) by congruence. rewrite !put_other by assumption. repeat split; auto; destruct (A5 k); auto. unfold put. destruct (Nat.eqb_spec k d) as [->|]; [|apply A5]. rewrite !times_app. destruct (A5 d) as [_ ->]. reflexivity.
    + rewrite !put_same, A2. repeat split; auto; destruct (A5 k); auto. unfold put. destruct (Nat.eqb_spec k d) as [->|]; [now rewrite ?A2|]. apply A5.
  - destruct W as [W _]. split; [|reflexivity]. pair_cases W; unfold same_for, set_rd; cbn [fst rd wr eof gone].
    + rewrite !put_same, A1. repeat split; auto; destruct (A5 k); auto. unfold put. destruct (Nat.eqb_spec k s) as [->|]; [now rewrite ?A1|]. apply A5.
    + assert (d <> s) by congruence. rewrite !put_other by assumption. repeat split; auto; destruct (A5 k); auto. unfold put. destruct (Nat.eqb_spec k s) as [->|]; [|apply A5]. rewrite !times_drop. destruct (A5 s) as [-> _]. reflexivity.
  - destruct W as [W _]. split; [|reflexivity]. pair_cases W; unfold same_for, set_wr; cbn [fst rd wr eof gone].
    + assert (s <> d) by congruence. rewrite !put_other by assumption. repeat split; auto; destruct (A5 k); auto. unfold put. destruct (Nat.eqb_spec k d) as [->|]; [|apply A5]. rewrite !times_drop. destruct (A5 d) as [_ ->]. reflexivity.
    + rewrite !put_same, A2. repeat split; auto; destruct (A5 k); auto. unfold put. destruct (Nat.eqb_spec k d) as [->|]; [now rewrite ?A2|]. apply A5.
  - destruct W as [W _]. pair_cases W; rewrite Is; cbn [andb]; [rewrite A1|]; [destruct (is_nil (rd l' s))|]; split; auto.
  - destruct W as [[W _] E]. pair_cases W; [|congruence]. rewrite A2. destruct (is_nil (wr l' s)); cbn [fst snd]; [|auto].
    split; [|reflexivity]. unfold same_for, set_eof. cbn. rewrite !put_same. auto.
  - destruct W as [W _]. pair_cases W; rewrite Id; cbn [andb]; [|rewrite A1; destruct (is_nil (rd l' d))]; split; auto.
  - destruct W as [[W _] E]. pair_cases W; [congruence|]. rewrite A2. destruct (is_nil (wr l' d)); cbn [fst snd]; [|auto].
    split; [|reflexivity]. unfold same_for, set_eof. cbn. rewrite !put_same. auto.
  - rewrite A2. destruct (wr l' o); auto.
  - rewrite A1. destruct (rd l' o); auto.
  - split; [|reflexivity]. unfold same_for, set_gone. cbn. rewrite !put_same. auto.
Qed.

(** ** What an operation does to its own client *)
Ltac eqs := repeat match goal with |- context [?a =? ?b] => destruct (Nat.eqb_spec a b); subst; try congruence end.
Lemma sym_link l s d : xorb (isc s) (isc d) = true -> symmetric l (of_pair isc s d) ->
  symmetric (set_wr (set_rd l s (rd l s ++ [d])) d (wr l d ++ [s])) (of_pair isc s d).
Proof.
  intros W S k. specialize (S k). unfold set_wr, set_rd. cbn [rd wr]. pair_cases W.
  - assert (Nds : s <> d) by congruence. unfold put; eqs; rewrite ?times_app, ?times_one; eqs; lia.
  - assert (Nds : s <> d) by congruence. unfold put; eqs; rewrite ?times_app, ?times_one; eqs; lia.
Qed.
Lemma sym_unlink l s d : xorb (isc s) (isc d) = true -> symmetric l (of_pair isc s d) ->
  symmetric (set_wr (set_rd l s (drop d (rd l s))) d (drop s (wr l d))) (of_pair isc s d).
Proof.
  intros W S k. specialize (S k). unfold set_wr, set_rd. cbn [rd wr]. pair_cases W.
  - assert (Nds : s <> d) by congruence. unfold put; eqs; rewrite ?times_drop; eqs; lia.
  - assert (Nds : s <> d) by congruence. unfold put; eqs; rewrite ?times_drop; eqs; lia.
Qed.
Lemma sym_eof l o c : symmetric l c -> symmetric (set_eof l o) c.
Proof. exact (fun H => H). Qed.

Definition after (l : links) (i : instr) (more : list instr) : Prop :=
  match more with
  | [] => symmetric l (cl i) /\ (ends i = true -> exists o, i = Free o)
  | [j] => head_ok l j /\ cl j = cl i /\ ends j = ends i
  | _ => False
  end.
Lemma next_after l s d q i : xorb (isc s) (isc d) = true -> q_ok s d q -> cl i = of_pair isc s d -> ends i = q_ends q ->
  symmetric l (of_pair isc s d) ->
  (match q with LoopR _ _ => wr l (of_pair isc s d) = [] | _ => True end) -> after l i (next q).
Proof.
  intros W Q E En S L. destruct q as [|o f|o f]; cbn [next after q_ok q_ends] in *.
  - rewrite E. split; [exact S|]. intros H. congruence.
  - destruct Q as [-> Io]. pair_cases W; [congruence|]. unfold head_ok. cbn. rewrite En, E. repeat split; auto; try discriminate; apply S.
  - destruct Q as [-> Io]. pair_cases W; [|congruence]. unfold head_ok. cbn. rewrite En, E. repeat split; auto; apply S.
Qed.
Lemma exec_own l i : typed l -> head_ok l i -> after (fst (exec isc l i)) i (snd (exec isc l i)).
Proof.
  intros T (W & S & L & F).
  destruct i as [s d|s d|s d q|s d q|s d q|s d q|s d q|s d q|o f|o f|o|s d seen]; cbn [wf settled client_of late] in *; try contradiction.
  - cbn [exec fst snd after]. unfold head_ok. cbn [wf settled client_of late ends exec fst]. repeat split; auto; try discriminate.
    + apply (@sym_link l s d W S).
    + apply (@sym_link l s d W S).
  - cbn [exec fst snd after client_of ends] in *. split; [exact S|discriminate].
  - destruct W as [W Q]. cbn [exec fst snd after]. unfold head_ok. cbn [wf settled client_of late ends exec fst]. repeat split; auto.
    + apply (@sym_unlink l s d W S).
    + apply (@sym_unlink l s d W S).
  - destruct W as [W Q]. cbn [exec fst snd after] in *. unfold head_ok. cbn [wf settled client_of late ends]. repeat split; auto; try apply S.
    destruct q as [| |o f]; try discriminate. intros _. specialize (L eq_refl). destruct Q as [-> Io]. pair_cases W; [|congruence].
    unfold set_wr. cbn [wr]. rewrite put_other by congruence. exact L.
  - destruct W as [W Q]. cbn [exec]. destruct (isc s && is_nil (rd l s)) eqn:E; cbn [fst snd after]; unfold head_ok; cbn [wf settled client_of late ends]; repeat split; auto; try apply S.
    apply andb_true_iff in E. tauto.
  - destruct W as [[W Q] Is']. cbn [exec]. destruct (is_nil (wr l s)) eqn:E; cbn [fst snd].
    + apply next_after with (s := s) (d := d); auto; try reflexivity. destruct q; auto.
    + cbn [after]. unfold head_ok. cbn [wf settled client_of late ends]. repeat split; auto; apply S.
  - destruct W as [W Q]. cbn [exec]. destruct (isc d && is_nil (rd l d)) eqn:E; cbn [fst snd].
    + cbn [after]. unfold head_ok. cbn [wf settled client_of late ends]. repeat split; auto; try apply S. apply andb_true_iff in E. tauto.
    + apply next_after with (s := s) (d := d); auto; try reflexivity. destruct q; auto.
  - destruct W as [[W Q] Id']. cbn [exec]. destruct (is_nil (wr l d)) eqn:E; cbn [fst snd].
    + apply next_after with (s := s) (d := d); auto; try reflexivity. destruct q; auto.
    + apply next_after with (s := s) (d := d); auto; try reflexivity. destruct q; auto.
  - cbn [exec]. destruct (wr l o) as [|x r] eqn:E; cbn [fst snd after]; unfold head_ok; cbn [wf settled client_of late ends q_ends q_ok].
    + repeat split; auto; apply S.
    + assert (Ix : isc x = false) by (apply (T o W); rewrite E; right; now left). unfold of_pair. rewrite Ix, W. repeat split; auto; try discriminate; apply S.
  - cbn [exec]. destruct (rd l o) as [|x r] eqn:E; cbn [fst snd].
    + destruct f; cbn [after]; unfold head_ok; cbn [wf settled client_of late ends]; repeat split; auto; try discriminate; apply S.
    + assert (Ix : isc x = false) by (apply (T o W); rewrite E; left; now left).
      cbn [after]; unfold head_ok; cbn [wf settled client_of late ends q_ends q_ok]. unfold of_pair. rewrite Ix, W. repeat split; auto; apply S.
  - cbn [exec fst snd after client_of]. split; [exact S|]. eauto.
Qed.
Lemma exec_gone l i c : gone (fst (exec isc l i)) c = gone l c \/ (i = Free c /\ gone (fst (exec isc l i)) c = true).
Proof.
  destruct i as [s d|s d|s d q|s d q|s d q|s d q|s d q|s d q|o f|o f|o|s d seen]; cbn [exec]; try (left; reflexivity).
  - left. destruct (isc s && is_nil (rd l s)); reflexivity.
  - left. destruct (is_nil (wr l s)); reflexivity.
  - left. destruct (isc d && is_nil (rd l d)); reflexivity.
  - left. destruct (is_nil (wr l d)); reflexivity.
  - left. destruct (wr l o); reflexivity.
  - left. destruct (rd l o); reflexivity.
  - unfold set_gone. cbn. unfold put. destruct (Nat.eqb_spec c o) as [->|]; auto.
  - left. destruct (find _ _); reflexivity.
Qed.
Lemma sym_unlinked l c : symmetric l c -> rd l c = [] -> wr l c = [] -> unlinked l c.
Proof.
  intros S R W. repeat split; auto; apply times_in; destruct (S k) as [A B].
  - rewrite B, W. reflexivity.
  - rewrite <- A, R. reflexivity.
Qed.

(** ** All threads *)
Definition thread_ok (l : links) (t : list instr) : Prop :=
  t = [] \/ exists i p, t = i :: map begin p /\ head_ok l i /\ Forall (gentle isc) p /\ tidy isc p /\
    (ends i = true -> ~ In (cl i) (map (call_client isc) p)).
Record inv (w : weave) : Prop := {
  i_typed : typed (w_l w);
  i_threads : forall t th, nth_error (w_t w) t = Some th -> thread_ok (w_l w) th;
  i_apart : forall t1 t2 th1 th2 i1 i2, nth_error (w_t w) t1 = Some th1 -> nth_error (w_t w) t2 = Some th2 ->
    In i1 th1 -> In i2 th2 -> cl i1 = cl i2 -> t1 = t2;
  i_rest : forall c, isc c = true -> (forall t i r, nth_error (w_t w) t = Some (i :: r) -> cl i <> c) -> symmetric (w_l w) c;
  i_gone : forall c, gone (w_l w) c = true -> isc c = true /\ unlinked (w_l w) c /\ ~ pending isc w c }.

Lemma begin_wf a : gentle isc a -> wf (begin a) /\ cl (begin a) = call_client isc a.
Proof. destruct a; cbn; intros H; try contradiction; auto. Qed.
Lemma begin_clients p : Forall (gentle isc) p -> map cl (map begin p) = map (call_client isc) p.
Proof.
  induction 1 as [|a p G _ IH]; [reflexivity|]. cbn [map]. rewrite IH. f_equal. now apply begin_wf.
Qed.
Lemma begin_in p i : Forall (gentle isc) p -> In i (map begin p) -> In (cl i) (map (call_client isc) p).
Proof. intros G H. rewrite <- begin_clients by exact G. now apply in_map. Qed.
Lemma begin_thread l p : Forall (gentle isc) p -> tidy isc p ->
  (forall a p', p = a :: p' -> symmetric l (call_client isc a)) -> thread_ok l (map begin p).
Proof.
  intros G T S. destruct p as [|a p]; [now left|]. right. exists (begin a), p. specialize (S a p eq_refl).
  inversion_clear G. destruct T as [T1 T2]. destruct (begin_wf a H) as [W E]. split; [reflexivity|]. split.
  - unfold head_ok. rewrite E. destruct a; cbn [begin settled late gentle] in *; try contradiction; repeat split; try discriminate; try apply W; try apply S.
  - split; [assumption|]. split; [exact T2|]. rewrite E. destruct a; cbn [begin ends q_ends call_client]; try discriminate. auto.
Qed.
Lemma head_same l l' i : same_for (cl i) l l' -> head_ok l i -> head_ok l' i.
Proof.
  intros S (W & Sy & L & F). split; [exact W|]. split; [|split].
  - apply same_symmetric with (2 := Sy). destruct i; cbn [settled]; try exact S; apply (exec_same _ W S).
  - destruct S as (_ & <- & _). exact L.
  - destruct i; auto. destruct S as (E & _). cbn [client_of] in E. rewrite <- E. exact F.
Qed.
Lemma same_unlinked c a b : same_for c a b -> unlinked a c -> unlinked b c.
Proof.
  intros (A1 & A2 & _ & _ & A5) (R & W & N). split; [congruence|]. split; [congruence|]. intros k. destruct (A5 k) as [B1 B2], (N k) as [N1 N2].
  split; apply times_in; [rewrite <- B1|rewrite <- B2]; now apply times_in.
Qed.

Lemma inv_step w e : inv w -> starts_apart isc w e -> inv (step isc w e).
Proof.
  intros I A. destruct e as [p|t]; cbn [step starts_apart] in *.
  - destruct A as (G & T & N). destruct I as [I1 I2 I3 I4 I5].
    assert (NE : forall t th, nth_error (w_t w ++ [map begin p]) t = Some th ->
      nth_error (w_t w) t = Some th \/ (t = length (w_t w) /\ th = map begin p)).
    { intros t th H. destruct (Nat.lt_ge_cases t (length (w_t w))) as [Lt|Ge].
      - rewrite nth_error_app1 in H by exact Lt. now left.
      - rewrite nth_error_app2 in H by exact Ge. destruct (t - length (w_t w)) as [|n] eqn:E; cbn in H.
        + injection H as <-. right. split; [lia|reflexivity].
        + destruct n; discriminate. }
    assert (Lt : forall t th, nth_error (w_t w) t = Some th -> t <> length (w_t w)).
    { intros t th H. assert (t < length (w_t w)) by (apply nth_error_Some; congruence). lia. }
    assert (NP : forall i, In i (map begin p) -> ~ pending isc w (cl i) /\ gone (w_l w) (cl i) = false) by (intros i H; apply N, begin_in; assumption).
    constructor; cbn [w_l w_t].
    + exact I1.
    + intros t th H. destruct (NE _ _ H) as [H'|[-> ->]]; [eapply I2; eassumption|].
      apply begin_thread; auto. intros a p' ->. inversion_clear G. apply I4.
      * destruct (begin_wf a H0) as [W E]. rewrite <- E. now apply cl_client.
      * intros t' i r H2 E. destruct (N (call_client isc a)) as [N1 _]; [now left|]. apply N1. exists (i :: r), i. split; [now apply nth_error_In in H2|]. split; [now left|exact E].
    + intros t1 t2 th1 th2 i1 i2 H1 H2 J1 J2 E. destruct (NE _ _ H1) as [H1'|[-> ->]], (NE _ _ H2) as [H2'|[-> ->]].
      * eapply I3; eassumption.
      * exfalso. destruct (NP _ J2) as [Q _]. apply Q. exists th1, i1. split; [now apply nth_error_In in H1'|]. auto.
      * exfalso. destruct (NP _ J1) as [Q _]. apply Q. exists th2, i2. split; [now apply nth_error_In in H2'|]. auto.
      * reflexivity.
    + intros c Ic H. apply I4; auto. intros t i r H'. apply (H t i r). rewrite nth_error_app1; [exact H'|]. apply nth_error_Some. congruence.
    + intros c H. destruct (I5 c H) as (X & Y & Z). split; [exact X|]. split; [exact Y|]. intros (th & i & J1 & J2 & J3). apply in_app_or in J1. destruct J1 as [J1|[<-|[]]].
      * apply Z. exists th, i. auto.
      * destruct (NP _ J2) as [_ Q]. rewrite J3 in Q. cbn in H. congruence.
  - destruct (nth_error (w_t w) t) as [[|i rest]|] eqn:Et; try exact I.
    pose proof I as [I1 I2 I3 I4 I5].
    destruct (I2 _ _ Et) as [D|(i' & p & E & HO & G & T & En)]; [discriminate|]. injection E as <- ->.
    pose proof (exec_own I1 HO) as AF. pose proof (exec_typed i (proj1 HO) I1) as T'.
    assert (OT : forall c, isc c = true -> c <> cl i -> same_for c (w_l w) (fst (exec isc (w_l w) i))) by (intros c; apply exec_other; apply HO).
    pose proof (exec_gone (w_l w) i) as GO.
    assert (FR : forall c, i = Free c -> exec isc (w_l w) i = (set_gone (w_l w) c, [])) by (intros c ->; reflexivity).
    destruct (exec isc (w_l w) i) as [l' more]. cbn [fst snd] in *.
    assert (NE : forall t' th, nth_error (replace (w_t w) t (more ++ map begin p)) t' = Some th ->
      (t' = t /\ th = more ++ map begin p) \/ (t' <> t /\ nth_error (w_t w) t' = Some th)).
    { intros t' th. rewrite nth_replace, Et. destruct (Nat.eqb_spec t' t) as [->|]; [intros [= <-]; auto|auto]. }
    assert (SUB : forall j, In j (more ++ map begin p) -> exists j', In j' (i :: map begin p) /\ cl j' = cl j).
    { intros j H. apply in_app_or in H. destruct H as [H|H]; [|exists j; split; [now right|reflexivity]].
      destruct more as [|j0 [|]]; [contradiction| |contradiction]. destruct H as [<-|[]]. exists i. split; [now left|]. symmetry. apply AF. }
    assert (IC : isc (cl i) = true) by (apply cl_client, HO).
    assert (HD : forall t' j r, t' <> t -> nth_error (w_t w) t' = Some (j :: r) -> forall j', In j' (i :: map begin p) -> cl j <> cl j').
    { intros t' j r Nt H j' J E. apply Nt. eapply (I3 t' t); [exact H|exact Et|now left|exact J|exact E]. }
    constructor; cbn [w_l w_t].
    + exact T'.
    + intros t' th H. destruct (NE _ _ H) as [[-> ->]|[Nt H']].
      * destruct more as [|j [|]]; [| |contradiction]; cbn [app].
        -- apply begin_thread; auto. intros a p' ->. inversion_clear G as [|? ? G1 G2]. destruct (begin_wf a G1) as [W E].
           destruct (Nat.eq_dec (call_client isc a) (cl i)) as [->|N]; [apply AF|].
           assert (Ia : isc (call_client isc a) = true) by (rewrite <- E; now apply cl_client).
           apply same_symmetric with (1 := OT _ Ia N). apply I4; auto. intros t' j r H2.
           destruct (Nat.eq_dec t' t) as [->|Nt]; [rewrite Et in H2; injection H2 as <- <-; auto|].
           rewrite <- E. apply (HD _ _ _ Nt H2). right. now left.
        -- destruct AF as (HO' & C' & E'). right. exists j, p. rewrite C', E'. auto.
      * destruct (I2 _ _ H') as [->|(j & p' & -> & HO' & X)]; [now left|]. right. exists j, p'. split; [reflexivity|]. split; [|exact X].
        apply head_same with (2 := HO'). apply OT; [apply cl_client, HO'|]. apply (HD _ _ _ Nt H'). now left.
    + intros t1 t2 th1 th2 i1 i2 H1 H2 J1 J2 E.
      destruct (NE _ _ H1) as [[-> ->]|[Nt1 H1']], (NE _ _ H2) as [[-> ->]|[Nt2 H2']].
      * reflexivity.
      * destruct (SUB _ J1) as (j & J & Ej). eapply (I3 t t2); [exact Et|exact H2'|exact J|exact J2|congruence].
      * destruct (SUB _ J2) as (j & J & Ej). eapply (I3 t1 t); [exact H1'|exact Et|exact J1|exact J|congruence].
      * eapply I3; eassumption.
    + intros c Ic H.
      assert (NT : nth_error (replace (w_t w) t (more ++ map begin p)) t = Some (more ++ map begin p)) by (now rewrite nth_replace, Et, Nat.eqb_refl).
      destruct (Nat.eq_dec c (cl i)) as [->|N].
      * destruct more as [|j [|]]; [apply AF| |contradiction]. exfalso. apply (H t j (map begin p)); [exact NT|apply AF].
      * apply same_symmetric with (1 := OT _ Ic N). apply I4; auto. intros t' j r H2.
        destruct (Nat.eq_dec t' t) as [->|Nt]; [rewrite Et in H2; injection H2 as <- <-; auto|].
        apply (H t' j r). rewrite nth_replace. destruct (Nat.eqb_spec t' t); [contradiction|exact H2].
    + intros c H.
      assert (PE : pending isc (mkW l' (replace (w_t w) t (more ++ map begin p))) c -> pending isc w c).
      { intros (th & j & J1 & J2 & J3). cbn [w_t] in J1. apply In_nth_error in J1. destruct J1 as [t' J1]. destruct (NE _ _ J1) as [[-> ->]|[Nt J1']].
        - destruct (SUB _ J2) as (j' & J' & E'). exists (i :: map begin p), j'. split; [now apply nth_error_In in Et|]. split; [exact J'|congruence].
        - exists th, j. split; [now apply nth_error_In in J1'|auto]. }
      destruct (GO c) as [K|[Ei K]].
      * rewrite K in H. destruct (I5 c H) as (X & Y & Z). split; [exact X|]. split; [|tauto].
        apply same_unlinked with (2 := Y). apply OT; [exact X|]. intros ->. apply Z. exists (i :: map begin p), i. split; [now apply nth_error_In in Et|]. split; [now left|reflexivity].
      * subst i. cbn [client_of] in *. split; [exact IC|]. destruct HO as (W & S & L & F). cbn [settled late client_of] in *.
        specialize (FR c eq_refl). injection FR as -> ->. split; [apply (@sym_unlinked (w_l w) c S F (L eq_refl))|].
        intros (th & j & J1 & J2 & J3). cbn [w_t] in J1. apply In_nth_error in J1. destruct J1 as [t' J1]. destruct (NE _ _ J1) as [[-> ->]|[Nt J1']].
        -- cbn [app] in J2. apply (En eq_refl). rewrite <- J3. now apply begin_in.
        -- apply Nt. eapply (I3 t' t); [exact J1'|exact Et|exact J2|now left|exact J3].
Qed.

Lemma inv_fresh w : fresh isc w -> inv w.
Proof.
  intros (T & G & U). constructor; rewrite ?T.
  - intros c Ic k. destruct (U c Ic) as (-> & -> & _). cbn. tauto.
  - intros [|t] th H; discriminate.
  - intros [|t1] t2 th1 th2 i1 i2 H; discriminate.
  - intros c Ic _ k. destruct (U c Ic) as (R & W & N). destruct (N k) as [N1 N2]. rewrite R, W. apply times_in in N1, N2. rewrite N1, N2. auto.
  - intros c H. rewrite G in H. discriminate.
Qed.
Lemma inv_run es : forall w, inv w -> apart isc w es -> inv (run isc w es).
Proof.
  induction es as [|e es IH]; intros w I A; [exact I|]. destruct A as [A1 A2]. unfold run. cbn [fold_left]. apply IH; [|exact A2]. now apply inv_step.
Qed.

Lemma inv_symmetric w c : inv w -> isc c = true -> ~ pending isc w c -> symmetric (w_l w) c.
Proof.
  intros I Ic N. apply (i_rest I); auto. intros t i r H E. apply N. exists (i :: r), i. split; [now apply nth_error_In in H|]. split; [now left|exact E].
Qed.

(** ** A thread is not disturbed *)
Definition about (c : nat) (th : list instr) : Prop := forall i, In i th -> cl i = c.
Definition only (c t : nat) (w : weave) : Prop :=
  forall t' th i, nth_error (w_t w) t' = Some th -> In i th -> cl i = c -> t' = t.

Lemma more_clients w t i rest : inv w -> nth_error (w_t w) t = Some (i :: rest) ->
  wf i /\ forall j, In j (snd (exec isc (w_l w) i)) -> cl j = cl i.
Proof.
  intros I E. destruct (i_threads I t E) as [D|(i' & p & E' & HO & _)]; [discriminate|]. injection E' as <- _. split; [apply HO|].
  pose proof (exec_own (i_typed I) HO) as AF. intros j H. destruct (snd (exec isc (w_l w) i)) as [|j0 [|]]; [contradiction| |contradiction].
  destruct H as [<-|[]]. apply AF.
Qed.

Lemma run_alone c t : isc c = true -> forall es w th l, inv w -> apart isc w es -> nth_error (w_t w) t = Some th -> about c th -> only c t w ->
  same_for c (w_l w) l ->
  (forall p, In (Start p) es -> ~ In c (map (call_client isc) p)) ->
  same_for c (w_l (run isc w es)) (fst (alone isc (runs_of t es) l th)) /\
  nth_error (w_t (run isc w es)) t = Some (snd (alone isc (runs_of t es) l th)).
Proof.
  intros Ic. induction es as [|e es IH]; intros w th l I A E AB ON S NS.
  - cbn. auto.
  - destruct A as [A1 A2]. unfold run. cbn [fold_left]. change (fold_left (step isc) es (step isc w e)) with (run isc (step isc w e) es).
    pose proof (@inv_step w e I A1) as I'.
    assert (NS' : forall p, In (Start p) es -> ~ In c (map (call_client isc) p)) by (intros p H; apply NS; now right).
    destruct e as [p|t'].
    + change (runs_of t (Start p :: es)) with (runs_of t es). apply IH; auto.
      * cbn [step w_t]. rewrite nth_error_app1; [exact E|]. apply nth_error_Some. congruence.
      * intros t1 th1 i1. cbn [step w_t]. intros H1 J1 E1. destruct (Nat.lt_ge_cases t1 (length (w_t w))) as [Lt|Ge].
        -- rewrite nth_error_app1 in H1 by exact Lt. eapply ON; eassumption.
        -- rewrite nth_error_app2 in H1 by exact Ge. destruct (t1 - length (w_t w)) as [|n]; cbn in H1; [|destruct n; discriminate].
           injection H1 as <-. exfalso. apply (NS p); [now left|]. rewrite <- E1. apply begin_in; [apply A1|exact J1].
    + unfold runs_of. cbn [filter]. destruct (Nat.eqb_spec t' t) as [->|N].
      * cbn [length]. fold (runs_of t es). destruct th as [|i rest].
        -- assert (Es : step isc w (Run t) = w) by (cbn [step]; now rewrite E). rewrite Es in *. cbn [alone].
           specialize (IH w [] l I A2 E AB ON S NS'). destruct (runs_of t es); exact IH.
        -- destruct (@more_clients w t i rest I E) as [W MC]. pose proof (AB i (or_introl eq_refl)) as Ci. cbn [alone].
           assert (S' : same_for (cl i) (w_l w) l) by (now rewrite Ci). destruct (@exec_same (w_l w) l i W S') as [X Y]. rewrite Ci in X.
           cbn [step] in I', A2 |- *. rewrite E in *. destruct (exec isc (w_l w) i) as [l1 m1], (exec isc l i) as [l2 m2]. cbn [fst snd] in *. subst m2.
           apply IH; auto.
           ++ cbn [w_t]. now rewrite nth_replace, E, Nat.eqb_refl.
           ++ intros j H. apply in_app_or in H. destruct H as [H|H]; [rewrite MC by exact H; exact Ci|]. apply AB. now right.
           ++ intros t1 th1 i1. cbn [w_t]. rewrite nth_replace. destruct (Nat.eqb_spec t1 t) as [->|]; [auto|]. intros H1. apply ON with (1 := H1).
      * fold (runs_of t es). cbn [step] in I', A2 |- *. destruct (nth_error (w_t w) t') as [[|i rest]|] eqn:Et; [apply IH; auto| |apply IH; auto].
        destruct (@more_clients w t' i rest I Et) as [W MC].
        assert (Nc : c <> cl i) by (intros H; apply N; eapply (ON t'); [exact Et|now left|auto]).
        pose proof (@exec_other (w_l w) i c W Ic Nc) as OT. destruct (exec isc (w_l w) i) as [l1 m1]. cbn [fst snd] in *. apply IH; auto.
        -- cbn [w_t]. rewrite nth_replace. destruct (Nat.eqb_spec t t'); [congruence|exact E].
        -- intros t1 th1 i1. cbn [w_t]. rewrite nth_replace, Et. destruct (Nat.eqb_spec t1 t') as [->|]; [|intros H1; apply ON with (1 := H1)].
           intros [= <-] J1 E1. exfalso. apply in_app_or in J1. destruct J1 as [J1|J1]; [rewrite MC in E1 by exact J1; congruence|].
           apply N. eapply ON; [exact Et|right; exact J1|exact E1].
        -- cbn [w_l]. eapply same_trans; [apply same_sym; exact OT|exact S].
Qed.

Lemma apart_app es1 es2 : forall w, apart isc w (es1 ++ es2) <-> apart isc w es1 /\ apart isc (run isc w es1) es2.
Proof.
  induction es1 as [|e es1 IH]; intros w; cbn [app apart]; [cbn; tauto|]. rewrite IH. unfold run. cbn [fold_left]. tauto.
Qed.

(** ** Detaching ends, with nothing left *)
Lemma alone_add a b l p : alone isc (a + b) l p = alone isc b (fst (alone isc a l p)) (snd (alone isc a l p)).
Proof.
  revert l p. induction a as [|a IH]; intros l p; [reflexivity|]. cbn [Nat.add alone]. destruct p as [|i r].
  - cbn [fst snd]. destruct b; reflexivity.
  - destruct (exec isc l i). apply IH.
Qed.
Lemma alone_nil b l : alone isc b l [] = (l, []).
Proof. destruct b; reflexivity. Qed.
Lemma alone_ok k : forall l i l' j, typed l -> head_ok l i -> alone isc k l [i] = (l', [j]) -> typed l' /\ head_ok l' j /\ cl j = cl i.
Proof.
  induction k as [|k IH]; intros l i l' j T H E; cbn [alone] in E; [injection E as <- <-; auto|].
  pose proof (exec_own T H) as AF. pose proof (@exec_typed l i (proj1 H) T) as T'. destruct (exec isc l i) as [l1 m]. cbn [fst snd] in *.
  destruct m as [|i1 [|]]; [|destruct AF as (H1 & C1 & _)|contradiction]; cbn [app] in E.
  - rewrite alone_nil in E. discriminate.
  - destruct (IH _ _ _ _ T' H1 E) as (X & Y & Z). split; [exact X|]. split; [exact Y|congruence].
Qed.

Lemma loopw c f m : forall l, isc c = true -> typed l -> length (wr l c) <= m ->
  exists k l', k <= 6 * m + 1 /\ alone isc k l [PeekW c f] = (l', [PeekR c f]) /\ rd l' c = rd l c.
Proof.
  induction m as [|m IH]; intros l Ic T Lm.
  - exists 1, l. split; [lia|]. split; [|reflexivity]. cbn [alone exec]. destruct (wr l c); [reflexivity|cbn in Lm; lia].
  - destruct (wr l c) as [|x r] eqn:E.
    { exists 1, l. split; [lia|]. split; [|reflexivity]. cbn [alone exec]. rewrite E. reflexivity. }
    assert (Ix : isc x = false) by (apply (T c Ic); rewrite E; right; now left).
    assert (Nx : c <> x) by congruence.
    set (l2 := set_wr (set_rd l x (drop c (rd l x))) c (drop x (wr l c))).
    assert (T2 : typed l2).
    { assert (W1 : wf (DelR x c (LoopW c f))) by (cbn; rewrite Ix, Ic; auto).
      assert (W2 : wf (DelW x c (LoopW c f))) by (cbn; rewrite Ix, Ic; auto).
      exact (@exec_typed _ _ W2 (@exec_typed _ _ W1 T)). }
    assert (L2 : length (wr l2 c) <= m).
    { unfold l2, set_wr. cbn [wr]. rewrite put_same. assert (H : length (drop x (wr l c)) < length (wr l c)) by (apply remove_length_lt; rewrite E; now left). rewrite E in *. lia. }
    assert (R2 : rd l2 c = rd l c) by (unfold l2, set_wr, set_rd; cbn [rd]; now apply put_other).
    assert (A5 : alone isc 5 l [PeekW c f] = (if is_nil (rd l2 c) then (l2, [E4 x c (LoopW c f)]) else (l2, [PeekW c f]))).
    { cbn [alone exec]. rewrite E. cbn [alone exec app]. rewrite Ix. cbn [andb app alone exec]. rewrite Ic. cbn [andb]. change (rd (set_wr _ _ _)) with (rd l2).
      destruct (is_nil (rd l2 c)); reflexivity. }
    destruct (is_nil (rd l2 c)) eqn:En.
    + assert (A6 : exists l3, alone isc 6 l [PeekW c f] = (l3, [PeekW c f]) /\ rd l3 c = rd l c /\ wr l3 c = wr l2 c /\ typed l3).
      { replace 6 with (5 + 1) by reflexivity. rewrite alone_add, A5. cbn [fst snd alone exec]. destruct (is_nil (wr l2 c)); [exists (set_eof l2 c)|exists l2]; repeat split; auto. }
      destruct A6 as (l3 & A6 & R3 & W3 & T3). rewrite <- W3 in L2. destruct (IH l3 Ic T3 L2) as (k & l' & Hk & Ak & Rk).
      exists (6 + k), l'. split; [lia|]. rewrite alone_add, A6. cbn [fst snd]. split; [exact Ak|congruence].
    + destruct (IH l2 Ic T2 L2) as (k & l' & Hk & Ak & Rk). exists (5 + k), l'. split; [lia|]. rewrite alone_add, A5. cbn [fst snd]. split; [exact Ak|congruence].
Qed.
Lemma loopr c f m : forall l, isc c = true -> typed l -> wr l c = [] -> length (rd l c) <= m ->
  exists k l', k <= 6 * m /\ alone isc k l [PeekR c f] = (l', [PeekR c f]) /\ rd l' c = [].
Proof.
  induction m as [|m IH]; intros l Ic T Wn Lm.
  - exists 0, l. split; [lia|]. split; [reflexivity|]. destruct (rd l c); [reflexivity|cbn in Lm; lia].
  - destruct (rd l c) as [|x r] eqn:E; [exists 0, l; repeat split; auto; lia|].
    assert (Ix : isc x = false) by (apply (T c Ic); rewrite E; left; now left).
    assert (Nx : c <> x) by congruence.
    set (l2 := set_wr (set_rd l c (drop x (rd l c))) x (drop c (wr l x))).
    assert (T2 : typed l2).
    { assert (W1 : wf (DelR c x (LoopR c f))) by (cbn; rewrite Ix, Ic; auto).
      assert (W2 : wf (DelW c x (LoopR c f))) by (cbn; rewrite Ix, Ic; auto).
      exact (@exec_typed _ _ W2 (@exec_typed _ _ W1 T)). }
    assert (L2 : length (rd l2 c) <= m).
    { unfold l2, set_wr, set_rd. cbn [rd]. rewrite put_same. assert (H : length (drop x (rd l c)) < length (rd l c)) by (apply remove_length_lt; rewrite E; now left). rewrite E in *. cbn [length] in *. lia. }
    assert (W2 : wr l2 c = []) by (unfold l2, set_wr, set_rd; cbn [wr]; now rewrite put_other).
    assert (A4 : alone isc 4 l [PeekR c f] = (l2, [if is_nil (rd l2 c) then E2 c x (LoopR c f) else E3 c x (LoopR c f)])).
    { cbn [alone exec]. rewrite E. cbn [alone exec app]. rewrite Ic. cbn [andb]. change (rd (set_wr _ _ _)) with (rd l2).
      destruct (is_nil (rd l2 c)); reflexivity. }
    assert (A5 : exists l3, alone isc 5 l [PeekR c f] = (l3, [PeekR c f]) /\ rd l3 c = rd l2 c /\ wr l3 c = [] /\ typed l3).
    { replace 5 with (4 + 1) by reflexivity. rewrite alone_add, A4. cbn [fst snd]. destruct (is_nil (rd l2 c)); cbn [alone exec].
      - rewrite W2. cbn [is_nil next app]. exists (set_eof l2 c). repeat split; auto.
      - rewrite Ix. cbn [andb next app]. exists l2. repeat split; auto. }
    destruct A5 as (l3 & A5 & R3 & W3 & T3). rewrite <- R3 in L2. destruct (IH l3 Ic T3 W3 L2) as (k & l' & Hk & Ak & Rk).
    exists (5 + k), l'. split; [lia|]. rewrite alone_add, A5. cbn [fst snd]. auto.
Qed.
Lemma detach_ends c f l n : isc c = true -> typed l -> symmetric l c -> 6 * (length (wr l c) + length (rd l c)) + 3 <= n ->
  snd (alone isc n l [PeekW c f]) = [] /\ unlinked (fst (alone isc n l [PeekW c f])) c /\
  (f = true -> gone (fst (alone isc n l [PeekW c f])) c = true).
Proof.
  intros Ic T S Hn. destruct (@loopw c f _ l Ic T (Nat.le_refl _)) as (k & l1 & Hk & Ak & Rk).
  assert (H0 : head_ok l (PeekW c f)) by (repeat split; auto; try discriminate; apply S).
  destruct (alone_ok _ T H0 Ak) as (T1 & (_ & S1 & W1 & _) & _). specialize (W1 eq_refl). cbn [client_of] in W1.
  destruct (@loopr c f _ l1 Ic T1 W1 (Nat.le_refl _)) as (k2 & l2 & Hk2 & Ak2 & Rk2). rewrite Rk in Hk2.
  assert (H1 : head_ok l1 (PeekR c f)) by (repeat split; auto; apply S1).
  destruct (alone_ok _ T1 H1 Ak2) as (T2 & (_ & S2 & W2 & _) & _). specialize (W2 eq_refl). cbn [client_of settled] in W2, S2.
  pose proof (sym_unlinked S2 Rk2 W2) as U.
  assert (A3 : alone isc (k + (k2 + 2)) l [PeekW c f] = (if f then set_gone l2 c else l2, [])).
  { rewrite !alone_add, Ak. cbn [fst snd]. rewrite Ak2. cbn [fst snd alone exec]. rewrite Rk2. destruct f; reflexivity. }
  replace n with ((k + (k2 + 2)) + (n - (k + (k2 + 2)))) by lia. rewrite alone_add, A3. cbn [fst snd]. rewrite alone_nil. cbn [fst snd].
  split; [reflexivity|]. split.
  - destruct f; exact U.
  - intros ->. cbn. apply put_same.
Qed.
End Sep.
