(** Invariants of the output of one client under any schedule. *)
From Verif Require Import Base WakeModel WakeSpec.
Set Implicit Arguments.

Lemma put_eq f t v : put f t v t = v.
Proof. unfold put. now rewrite Nat.eqb_refl. Qed.
Lemma put_ne f t v u : u <> t -> put f t v u = f u.
Proof. intros H. unfold put. apply Nat.eqb_neq in H. now rewrite H. Qed.

(** Shapes of what a thread has left; [h]: it holds the lock. *)
Inductive shape (main : bool) : bool -> list instr -> Prop :=
| sh_nil : shape main false []
| sh_check k w : shape main false [Check k w]
| sh_acqw k w : shape main false (Acquire :: Put k :: (if w : bool then [LoadWrap] else []) ++ [Ask])
| sh_put k w : shape main true (Put k :: (if w : bool then [LoadWrap] else []) ++ [Ask])
| sh_lw : shape main true [LoadWrap; Ask]
| sh_sw e : shape main true [StoreWrap e; Ask]
| sh_ask : shape main true [Ask]
| sh_want : shape main true [Want; Release]
| sh_rel : shape main true [Release]
| sh_le q : (q = true -> main = true) -> shape main false [LoadEof q]
| sh_se w q : (q = true -> main = true) -> shape main false [StoreEof w q]
| sh_flush n : main = true -> shape main false [Acquire; Send n; Empty]
| sh_send n : main = true -> shape main true [Send n; Empty]
| sh_empty : main = true -> shape main true [Empty]
| sh_rest d : main = true -> shape main true [Rest d]
| sh_part d : main = true -> shape main true [Part d]
| sh_peek : main = true -> shape main false [Peek]
| sh_close : main = true -> shape main false [Close]
| sh_flip : main = true -> shape main false [Flip]
| sh_tell b : main = true -> shape main false [Tell b].

Definition holds (s : st) (t : nat) : bool := match lock s with Some u => u =? t | None => false end.
Definition shaped (s : st) : Prop := forall t, shape (t =? 0) (holds s t) (code s t).

(** The holder of the lock is going to ask for output. *)
Definition promised (s : st) : Prop :=
  exists t, lock s = Some t /\
    match code s t with Put _ :: _ | LoadWrap :: _ | StoreWrap _ :: _ | Ask :: _ | Want :: _ => True | _ => False end.
Definition covered (s : st) : Prop :=
  gone s = false -> 0 < pend s -> susp s = false ->
  out s = true \/ promised s \/ code s 0 = [Tell false].
Definition resting (s : st) : Prop := forall d, code s 0 = [Rest d] -> pend s = 0.
Definition telling (s : st) : Prop := forall b, code s 0 = [Tell b] -> susp s = b.
Record inv (s : st) : Prop := mkInv {
  i_shape : shaped s; i_cov : covered s; i_rest : resting s; i_tell : telling s }.

Lemma inv_start : inv start.
Proof.
  split.
  - intros t. constructor.
  - intros _ H. cbn [start pend] in H. lia.
  - intros d H. discriminate.
  - intros b H. discriminate.
Qed.

Lemma holds_eq s t u : lock s = Some t -> holds s u = true -> u = t.
Proof. unfold holds. intros ->. intros E. apply Nat.eqb_eq in E. congruence. Qed.

Lemma holds_same s s' u : lock s' = lock s -> holds s' u = holds s u.
Proof. unfold holds. now intros ->. Qed.
Lemma holds_lock s t : holds s t = true -> lock s = Some t.
Proof. unfold holds. destruct (lock s); [|discriminate]. intros E. apply Nat.eqb_eq in E. congruence. Qed.
Lemma holds_none s t : lock s = None -> holds s t = false.
Proof. unfold holds. now intros ->. Qed.

Lemma shaped_upd s s' t c : shaped s -> code s' = put (code s) t c ->
  shape (t =? 0) (holds s' t) c -> (forall u, u <> t -> holds s' u = holds s u) -> shaped s'.
Proof.
  intros H E C O u. rewrite E. destruct (Nat.eq_dec u t) as [->|N].
  - rewrite put_eq. exact C.
  - rewrite put_ne by exact N. rewrite O by exact N. apply H.
Qed.

(** A step by a thread that does not hold the lock and changes nothing that matters. *)
Lemma covered_same s s' t c : covered s -> gone s' = gone s -> pend s' = pend s -> out s' = out s ->
  susp s' = susp s -> lock s' = lock s -> code s' = put (code s) t c -> holds s t = false ->
  (forall b, code s t <> [Tell b]) -> covered s'.
Proof.
  intros H G P O S L C N T Hg Hp Hs. rewrite G in Hg. rewrite P in Hp. rewrite S in Hs. rewrite O.
  destruct (H Hg Hp Hs) as [A | [(u & Lu & A) | A]].
  - now left.
  - right. left. exists u. split; [congruence|]. rewrite C, put_ne; [exact A|].
    intros ->. unfold holds in N. rewrite Lu, Nat.eqb_refl in N. discriminate.
  - right. right. rewrite C. rewrite put_ne; [exact A|]. intros <-. now apply (T false).
Qed.

(** Nobody else is promising while [t] holds the lock and is not. *)
Lemma covered_holder s t : covered s -> holds s t = true ->
  match code s t with Put _ :: _ | LoadWrap :: _ | StoreWrap _ :: _ | Ask :: _ | Want :: _ => False | _ => True end ->
  gone s = false -> 0 < pend s -> susp s = false -> out s = true \/ (code s 0 = [Tell false]).
Proof.
  intros H L N Hg Hp Hs. destruct (H Hg Hp Hs) as [A | [(u & Lu & A) | A]]; [now left| |now right].
  apply holds_lock in L. assert (u = t) by congruence. subst u. destruct (code s t) as [|[] ?]; contradiction.
Qed.

Lemma resting_same s s' t c : resting s -> pend s' = pend s -> code s' = put (code s) t c ->
  (forall d, c <> [Rest d]) -> resting s'.
Proof.
  intros H P C N d E. rewrite C in E. rewrite P. destruct (Nat.eq_dec 0 t) as [<-|X].
  - rewrite put_eq in E. now apply N in E.
  - rewrite put_ne in E by exact X. now apply (H d).
Qed.
Lemma telling_same s s' t c : telling s -> susp s' = susp s -> code s' = put (code s) t c ->
  (forall b, c <> [Tell b]) -> telling s'.
Proof.
  intros H P C N d E. rewrite C in E. rewrite P. destruct (Nat.eq_dec 0 t) as [<-|X].
  - rewrite put_eq in E. now apply N in E.
  - rewrite put_ne in E by exact X. now apply (H d).
Qed.

Lemma other_holds s t u : holds s t = true -> u <> t -> holds s u = false.
Proof.
  intros H N. apply holds_lock in H. unfold holds. rewrite H. apply Nat.eqb_neq. congruence.
Qed.
(** Thread [t] changes the buffer while it holds the lock. *)
Lemma resting_holder s s' t c : shaped s -> resting s -> holds s t = true -> code s' = put (code s) t c ->
  (forall d, c <> [Rest d]) -> resting s'.
Proof.
  intros Sh H L C N d E. rewrite C in E. destruct (Nat.eq_dec 0 t) as [<-|X].
  - rewrite put_eq in E. now apply N in E.
  - rewrite put_ne in E by exact X. specialize (Sh 0). rewrite E in Sh.
    rewrite (@other_holds _ _ _ L X) in Sh. inversion Sh.
Qed.

Ltac same_lock := intros; apply holds_same; reflexivity.

Ltac nolock := match goal with M : false = holds ?s ?t |- context [holds ?s ?t] => rewrite <- M end.
Ltac is0 := match goal with M : (?t =? 0) = true |- _ => pose proof (proj1 (Nat.eqb_eq _ _) M); subst t end.

Lemma inv_exec cap s t i r : inv s -> code s t = i :: r -> inv (exec cap s t i r).
Proof.
  intros [Sh Co Re Te] E. pose proof (Sh t) as X. rewrite E in X.
  assert (NT : (forall b, i <> Tell b) -> forall b, code s t <> [Tell b]).
  { intros N b F. rewrite E in F. injection F as F _. now apply (N b). }
  inversion X; subst; clear X; cbn [exec].
  - (* Check *)
    destruct (eof s).
    + split.
      * eapply (@shaped_upd s _ t _ Sh); [reflexivity| |same_lock].
        rewrite (@holds_same s) by reflexivity. nolock. constructor.
      * eapply (@covered_same s _ t _ Co); try reflexivity; [congruence|apply NT; discriminate].
      * eapply (@resting_same s _ t _ Re); try reflexivity. discriminate.
      * eapply (@telling_same s _ t _ Te); try reflexivity. discriminate.
    + split.
      * eapply (@shaped_upd s _ t _ Sh); [reflexivity| |same_lock].
        rewrite (@holds_same s) by reflexivity. nolock. constructor.
      * eapply (@covered_same s _ t _ Co); try reflexivity; [congruence|apply NT; discriminate].
      * eapply (@resting_same s _ t _ Re); try reflexivity. discriminate.
      * eapply (@telling_same s _ t _ Te); try reflexivity. discriminate.
  - (* Acquire, a write *)
    destruct (lock s) as [u|] eqn:L; [now split|]. split.
    + eapply (@shaped_upd s _ t _ Sh); [reflexivity| |].
      * unfold holds. cbn [lock]. rewrite Nat.eqb_refl. constructor.
      * intros u N. unfold holds. cbn [lock]. rewrite L. apply Nat.eqb_neq. congruence.
    + intros _ _ _. right. left. exists t. cbn [lock code]. split; [reflexivity|]. now rewrite put_eq.
    + eapply (@resting_same s _ t _ Re); try reflexivity. discriminate.
    + eapply (@telling_same s _ t _ Te); try reflexivity. discriminate.
  - (* Put *)
    assert (L : holds s t = true) by congruence. split.
    + eapply (@shaped_upd s _ t _ Sh); [reflexivity| |same_lock].
      rewrite (@holds_same s) by reflexivity. rewrite L. destruct w; constructor.
    + intros _ _ _. right. left. exists t. cbn [lock code]. split; [now apply holds_lock|].
      rewrite put_eq. now destruct w.
    + eapply (@resting_holder s _ t _ Sh Re L); [reflexivity|]. destruct w; discriminate.
    + eapply (@telling_same s _ t _ Te); try reflexivity. destruct w; discriminate.
  - (* LoadWrap *)
    assert (L : holds s t = true) by congruence. split.
    + eapply (@shaped_upd s _ t _ Sh); [reflexivity| |same_lock].
      rewrite (@holds_same s) by reflexivity. rewrite L. constructor.
    + intros _ _ _. right. left. exists t. cbn [lock code]. split; [now apply holds_lock|].
      now rewrite put_eq.
    + eapply (@resting_same s _ t _ Re); try reflexivity. discriminate.
    + eapply (@telling_same s _ t _ Te); try reflexivity. discriminate.
  - (* StoreWrap *)
    assert (L : holds s t = true) by congruence. split.
    + eapply (@shaped_upd s _ t _ Sh); [reflexivity| |same_lock].
      rewrite (@holds_same s) by reflexivity. rewrite L. constructor.
    + intros _ _ _. right. left. exists t. cbn [lock code]. split; [now apply holds_lock|].
      now rewrite put_eq.
    + eapply (@resting_same s _ t _ Re); try reflexivity. discriminate.
    + eapply (@telling_same s _ t _ Te); try reflexivity. discriminate.
  - (* Ask *)
    assert (L : holds s t = true) by congruence. split.
    + eapply (@shaped_upd s _ t _ Sh); [reflexivity| |same_lock].
      rewrite (@holds_same s) by reflexivity. rewrite L. destruct (susp s); constructor.
    + intros _ _ Hs. cbn [susp] in Hs. right. left. exists t. cbn [lock code].
      split; [now apply holds_lock|]. rewrite put_eq, Hs. exact I.
    + eapply (@resting_same s _ t _ Re); try reflexivity. destruct (susp s); discriminate.
    + eapply (@telling_same s _ t _ Te); try reflexivity. destruct (susp s); discriminate.
  - (* Want *)
    assert (L : holds s t = true) by congruence. split.
    + eapply (@shaped_upd s _ t _ Sh); [reflexivity| |same_lock].
      rewrite (@holds_same s) by reflexivity. rewrite L. constructor.
    + intros _ _ _. now left.
    + eapply (@resting_same s _ t _ Re); try reflexivity. discriminate.
    + eapply (@telling_same s _ t _ Te); try reflexivity. discriminate.
  - (* Release *)
    assert (L : holds s t = true) by congruence. split.
    + eapply (@shaped_upd s _ t _ Sh); [reflexivity| |].
      * unfold holds. cbn [lock]. constructor.
      * intros u N. rewrite (@other_holds _ _ _ L N). reflexivity.
    + intros Hg Hp Hs. cbn [gone pend susp] in Hg, Hp, Hs.
      destruct (@covered_holder _ _ Co L) as [A | A]; auto. { now rewrite E. }
      right. right. cbn [code]. rewrite put_ne; [exact A|]. intros <-. congruence.
    + eapply (@resting_same s _ t _ Re); try reflexivity. discriminate.
    + eapply (@telling_same s _ t _ Te); try reflexivity. discriminate.
  - (* LoadEof *)
    split.
    + eapply (@shaped_upd s _ t _ Sh); [reflexivity| |same_lock].
      rewrite (@holds_same s) by reflexivity. nolock. now constructor.
    + eapply (@covered_same s _ t _ Co); try reflexivity; [congruence|apply NT; discriminate].
    + eapply (@resting_same s _ t _ Re); try reflexivity. discriminate.
    + eapply (@telling_same s _ t _ Te); try reflexivity. discriminate.
  - (* StoreEof *)
    split.
    + eapply (@shaped_upd s _ t _ Sh); [reflexivity| |same_lock].
      rewrite (@holds_same s) by reflexivity. nolock. destruct q; constructor; auto.
    + eapply (@covered_same s _ t _ Co); try reflexivity; [congruence|apply NT; discriminate].
    + eapply (@resting_same s _ t _ Re); try reflexivity. destruct q; discriminate.
    + eapply (@telling_same s _ t _ Te); try reflexivity. destruct q; discriminate.
  - (* Acquire, a flush *)
    destruct (lock s) as [u|] eqn:L; [now split|].
    is0. split.
    + eapply (@shaped_upd s _ 0 _ Sh); [reflexivity| |].
      * unfold holds. cbn [lock]. rewrite Nat.eqb_refl. now constructor.
      * intros u N. unfold holds. cbn [lock]. rewrite L. apply Nat.eqb_neq. congruence.
    + intros Hg Hp Hs. cbn [gone pend susp] in Hg, Hp, Hs.
      destruct (Co Hg Hp Hs) as [A | [(u & Lu & A) | A]]; [now left|congruence|congruence].
    + eapply (@resting_same s _ 0 _ Re); try reflexivity. discriminate.
    + eapply (@telling_same s _ 0 _ Te); try reflexivity. discriminate.
  - (* Send *)
    assert (L : holds s t = true) by congruence.
    is0. split.
    + eapply (@shaped_upd s _ 0 _ Sh); [reflexivity| |same_lock].
      rewrite (@holds_same s) by reflexivity. rewrite L. now constructor.
    + intros Hg Hp Hs. cbn [gone pend susp] in Hg, Hp, Hs.
      destruct (@covered_holder _ _ Co L) as [A | A]; auto; [now rewrite E|lia|congruence].
    + eapply (@resting_holder s _ 0 _ Sh Re L); [reflexivity|]. discriminate.
    + eapply (@telling_same s _ 0 _ Te); try reflexivity. discriminate.
  - (* Empty *)
    assert (L : holds s t = true) by congruence.
    is0. split.
    + eapply (@shaped_upd s _ 0 _ Sh); [reflexivity| |same_lock].
      rewrite (@holds_same s) by reflexivity. rewrite L. destruct (pend s =? 0); now constructor.
    + intros Hg Hp Hs. cbn [gone pend susp] in Hg, Hp, Hs.
      destruct (@covered_holder _ _ Co L) as [A | A]; auto; [now rewrite E|congruence].
    + intros d F. cbn [code pend] in *. rewrite put_eq in F. destruct (pend s =? 0) eqn:Z; [|discriminate].
      now apply Nat.eqb_eq.
    + eapply (@telling_same s _ 0 _ Te); try reflexivity. destruct (pend s =? 0); discriminate.
  - (* Rest *)
    assert (L : holds s t = true) by congruence.
    is0. split.
    + eapply (@shaped_upd s _ 0 _ Sh); [reflexivity| |same_lock].
      rewrite (@holds_same s) by reflexivity. rewrite L. now constructor.
    + intros Hg Hp Hs. cbn [pend] in Hp. pose proof (Re _ E). lia.
    + eapply (@resting_same s _ 0 _ Re); try reflexivity. discriminate.
    + eapply (@telling_same s _ 0 _ Te); try reflexivity. discriminate.
  - (* Part *)
    assert (L : holds s t = true) by congruence.
    is0. split.
    + eapply (@shaped_upd s _ 0 _ Sh); [reflexivity| |].
      * unfold holds. cbn [lock]. destruct d; now constructor.
      * intros u N. rewrite (@other_holds _ _ _ L N). reflexivity.
    + intros Hg Hp Hs. cbn [gone pend susp] in Hg, Hp, Hs.
      destruct (@covered_holder _ _ Co L) as [A | A]; auto; [now rewrite E|congruence].
    + eapply (@resting_same s _ 0 _ Re); try reflexivity. destruct d; discriminate.
    + eapply (@telling_same s _ 0 _ Te); try reflexivity. destruct d; discriminate.
  - (* Peek *)
    is0. split.
    + eapply (@shaped_upd s _ 0 _ Sh); [reflexivity| |same_lock].
      rewrite (@holds_same s) by reflexivity. nolock. destruct (pend s =? 0); now constructor.
    + eapply (@covered_same s _ 0 _ Co); try reflexivity; [congruence|apply NT; discriminate].
    + eapply (@resting_same s _ 0 _ Re); try reflexivity. destruct (pend s =? 0); discriminate.
    + eapply (@telling_same s _ 0 _ Te); try reflexivity. destruct (pend s =? 0); discriminate.
  - (* Close *)
    is0. split.
    + eapply (@shaped_upd s _ 0 _ Sh); [reflexivity| |same_lock].
      rewrite (@holds_same s) by reflexivity. nolock. now constructor.
    + intros Hg. discriminate.
    + intros d F. reflexivity.
    + eapply (@telling_same s _ 0 _ Te); try reflexivity. discriminate.
  - (* Flip *)
    is0. split.
    + eapply (@shaped_upd s _ 0 _ Sh); [reflexivity| |same_lock].
      rewrite (@holds_same s) by reflexivity. nolock. now constructor.
    + intros _ _ Hs. cbn [susp] in Hs. right. right. cbn [code]. now rewrite put_eq, Hs.
    + eapply (@resting_same s _ 0 _ Re); try reflexivity. discriminate.
    + intros b F. cbn [code susp] in *. rewrite put_eq in F. congruence.
  - (* Tell *)
    is0. split.
    + eapply (@shaped_upd s _ 0 _ Sh); [reflexivity| |same_lock].
      rewrite (@holds_same s) by reflexivity. nolock. now constructor.
    + intros Hg Hp Hs. cbn [susp] in Hs. left. cbn [out]. rewrite (Te _ E) in Hs. now rewrite Hs.
    + eapply (@resting_same s _ 0 _ Re); try reflexivity. discriminate.
    + eapply (@telling_same s _ 0 _ Te); try reflexivity. discriminate.
Qed.

Lemma inv_step cap s e : inv s -> inv (step cap s e).
Proof.
  intros H. destruct e as [t c | t]; cbn [step].
  - destruct (may t c && idle s t) eqn:B; [|exact H]. apply andb_prop in B as [B I].
    unfold idle in I. destruct (code s t) eqn:E; [|discriminate]. destruct H as [Sh Co Re Te].
    pose proof (Sh t) as X. rewrite E in X. inversion X; subst. split.
    + eapply (@shaped_upd s _ t _ Sh); [reflexivity| |same_lock].
      rewrite (@holds_same s) by reflexivity. nolock. destruct c; cbn [begin may] in *; now constructor.
    + eapply (@covered_same s _ t _ Co); try reflexivity; [congruence|]. rewrite E. discriminate.
    + eapply (@resting_same s _ t _ Re); try reflexivity. destruct c; discriminate.
    + eapply (@telling_same s _ t _ Te); try reflexivity. destruct c; discriminate.
  - destruct (code s t) eqn:E; [exact H|]. now apply inv_exec.
Qed.
Lemma inv_run cap es : forall s, inv s -> inv (run cap s es).
Proof. induction es as [|e es IH]; intros s H; [exact H|]. apply IH. now apply inv_step. Qed.
Lemma inv_reached cap s : reached cap s -> inv s.
Proof. intros [es ->]. apply inv_run, inv_start. Qed.

Lemma polled cap s : reached cap s -> waiting s -> gone s = false -> 0 < pend s -> susp s = false -> out s = true.
Proof.
  intros R [C L] G P S. destruct (i_cov (inv_reached R) G P S) as [A | [(u & Lu & A) | A]]; congruence.
Qed.

(** ** The lock is always given back *)
Lemma run_cons cap s e es : run cap s (e :: es) = run cap (step cap s e) es.
Proof. reflexivity. Qed.
Lemma run_app cap s l1 l2 : run cap s (l1 ++ l2) = run cap (run cap s l1) l2.
Proof. unfold run. apply fold_left_app. Qed.
Lemma step_run cap s t i r : code s t = i :: r -> step cap s (Run t) = exec cap s t i r.
Proof. intros E. cbn [step]. now rewrite E. Qed.

(** Steps left until the thread lets go. *)
Fixpoint cost (l : list instr) : nat :=
  match l with
  | [Want; Release] => 2
  | [Release] => 1
  | [Ask] => 3
  | StoreWrap _ :: _ => 4
  | LoadWrap :: _ => 5
  | Put _ :: r => S (cost r)
  | [Part _] => 1
  | [Rest _] => 2
  | [Empty] => 3
  | Send _ :: _ => 4
  | _ => 0
  end.
Lemma let_go cap n : forall s t, inv s -> lock s = Some t -> cost (code s t) <= n ->
  exists m, m <= n /\ lock (run cap s (repeat (Run t) m)) = None.
Proof.
  induction n as [|n IH]; intros s t I L C; pose proof (i_shape I t) as X; unfold holds in X;
    rewrite L, Nat.eqb_refl in X.
  - exfalso. inversion X; subst;
      repeat match goal with E : _ = code s t |- _ => rewrite <- E in C; clear E end; cbn [cost] in C; lia.
  - assert (E : exists i r, code s t = i :: r).
    { inversion X; eauto; destruct w; eauto. }
    destruct E as (i & r & E).
    pose proof (@inv_exec cap _ _ _ _ I E) as I'.
    destruct (lock (exec cap s t i r)) as [u|] eqn:L'.
    + assert (U : u = t).
      { clear - E L L'. destruct i; cbn [exec] in L'; try (cbn [lock] in L'; congruence);
          try (destruct (eof s); cbn [lock] in L'; congruence).
        rewrite L in L'. congruence. }
      subst u. destruct (IH _ t I' L') as (m & M & G).
      * rewrite E in X, C. inversion X; subst; cbn [exec code]; rewrite put_eq; cbn [cost app] in *; try lia.
        all: repeat match goal with
             | |- context [if ?b then _ else _] => destruct b
             | H : context [if ?b then _ else _] |- _ => destruct b
             end; cbn [cost app] in *; lia.
      * exists (S m). split; [lia|]. cbn [repeat]. rewrite run_cons, (@step_run cap _ _ _ _ E). exact G.
    + exists 1. split; [lia|]. cbn [repeat]. rewrite run_cons, (@step_run cap _ _ _ _ E). exact L'.
Qed.
Lemma cost_six main h l : shape main h l -> cost l <= 6.
Proof. destruct 1; cbn [cost]; try lia. destruct w; cbn [cost app]; lia. Qed.
Lemma released cap s t : reached cap s -> lock s = Some t ->
  exists m, m <= 6 /\ lock (run cap s (repeat (Run t) m)) = None.
Proof.
  intros R L. pose proof (inv_reached R) as I. apply let_go; auto. eapply cost_six, (i_shape I t).
Qed.

(** ** Without a write past the end, gotEOF is never lost *)
Definition tame (i : instr) : Prop :=
  match i with Check _ true | LoadWrap | StoreWrap _ => False | _ => True end.
Definition tamed (s : st) : Prop := forall t, Forall tame (code s t).
Lemma put_all (P : list instr -> Prop) f t v : (forall u, P (f u)) -> P v -> forall u, P (put f t v u).
Proof. intros H V u. unfold put. destruct (u =? t); auto. Qed.

Lemma tamed_step cap s e : tamed s -> (forall t k, e <> Begin t (Write k true)) ->
  tamed (step cap s e) /\ (gone s = true -> gone (step cap s e) = true) /\
  (eof s = true -> gone (step cap s e) = true \/ eof (step cap s e) = true).
Proof.
  intros T N. destruct e as [t c | t]; cbn [step].
  - destruct (may t c && idle s t); [|now auto]. split; [|split; cbn [gone eof]; auto].
    intros u. cbn [code]. apply put_all; [exact T|]. destruct c as [k [] | | | |]; cbn [begin]; repeat constructor.
    now apply (N t k).
  - destruct (code s t) as [|i r] eqn:E; [now auto|]. pose proof (T t) as X. rewrite E in X.
    inversion X as [|? ? Hi Hr]; subst.
    destruct i; cbn [exec tame] in *; try contradiction;
      try (destruct w; [contradiction|]);
      repeat match goal with |- context [if ?b then _ else _] => destruct b eqn:? end;
      try (destruct (lock s));
      (split; [first [exact T | intros u; cbn [code]; apply put_all; [exact T|repeat constructor; auto]]
              |split; cbn [gone eof]; auto; try congruence]).
Qed.
Lemma tamed_run cap es : forall s, tamed s -> unwrapped es ->
  (gone s = true -> gone (run cap s es) = true) /\ tamed (run cap s es) /\
  (eof s = true -> gone (run cap s es) = true \/ eof (run cap s es) = true).
Proof.
  induction es as [|e es IH]; intros s T U; [now auto|].
  destruct (@tamed_step cap s e T) as (T' & G & F).
  { intros t k ->. apply (U t k). now left. }
  destruct (IH _ T') as (G' & T'' & F'). { intros t k H. apply (U t k). now right. }
  rewrite run_cons. split; [auto|]. split; [exact T''|].
  intros H. destruct (F H); auto.
Qed.
Lemma kept cap es1 es2 : unwrapped (es1 ++ es2) -> noted (run cap start es1) ->
  gone (run cap start (es1 ++ es2)) = true \/ noted (run cap start (es1 ++ es2)).
Proof.
  intros U N. rewrite run_app. apply (@tamed_run cap es2); [|intros t k H; apply (U t k), in_or_app; now right|exact N].
  apply (@tamed_run cap es1); [intros t; constructor|intros t k H; apply (U t k), in_or_app; now left].
Qed.

(** ** A suspended client is sent nothing *)
Definition mute (i : instr) : Prop := match i with Want | Flip | Tell _ => False | _ => True end.
Definition muted (s : st) : Prop := susp s = true /\ out s = false /\ forall t, Forall mute (code s t).
Lemma muted_step cap s e : muted s -> (forall t, e <> Begin t Suspend) -> muted (step cap s e).
Proof.
  intros (S & O & T) N. destruct e as [t c | t]; cbn [step].
  - destruct (may t c && idle s t); [|now repeat split]. split; [exact S|]. split; [exact O|].
    intros u. cbn [code]. apply put_all; [exact T|]. destruct c; cbn [begin]; repeat constructor.
    now apply (N t).
  - destruct (code s t) as [|i r] eqn:E; [now repeat split|]. pose proof (T t) as X. rewrite E in X.
    inversion X as [|? ? Hi Hr]; subst.
    destruct i; cbn [exec mute] in *; try contradiction; rewrite ?S;
      repeat match goal with |- context [if ?b then _ else _] => destruct b eqn:? end;
      try (destruct (lock s));
      (split; [try exact S; try reflexivity|split; [try exact O; try reflexivity|
        first [exact T | intros u; cbn [code]; apply put_all; [exact T|repeat constructor; auto]]]]).
Qed.
Lemma muted_run cap es : forall s, muted s -> steady es -> muted (run cap s es).
Proof.
  induction es as [|e es IH]; intros s M U; [exact M|]. rewrite run_cons. apply IH.
  - apply muted_step; [exact M|]. intros t ->. apply (U t). now left.
  - intros t H. apply (U t). now right.
Qed.
Lemma silenced cap s es : (forall t, code s t = []) -> susp s = true -> held s -> steady es ->
  held (run cap s es).
Proof.
  intros C S H U. apply (@muted_run cap es s); [|exact U].
  split; [exact S|]. split; [exact H|]. intros t. rewrite C. constructor.
Qed.

(** ** A client that nobody attends to *)
Definition shut (c : list instr) : Prop :=
  match c with [] | [Check _ _] | [LoadEof false] | [StoreEof _ false] => True | _ => False end.
Definition stuck (s : st) : Prop :=
  eof s = true /\ pend s = 0 /\ out s = false /\ gone s = false /\ forall t, shut (code s t).
Lemma stuck_step cap s e : stuck s ->
  match e with Begin _ (Write _ _) | Begin _ Unlink | Run _ => True | _ => False end -> stuck (step cap s e).
Proof.
  intros (Ef & P & O & G & T) N. destruct e as [t c | t]; cbn [step].
  - destruct (may t c && idle s t); [|now repeat split].
    repeat split; cbn [eof pend out gone code]; auto. apply (put_all shut); [exact T|]. now destruct c.
  - pose proof (T t) as X. destruct (code s t) as [|i r] eqn:E; [now repeat split|].
    destruct i; cbn [shut] in X; try contradiction; try (destruct q; [contradiction|]);
      destruct r; try contradiction; cbn [exec]; rewrite ?Ef;
      repeat split; cbn [eof pend out gone code]; auto; apply (put_all shut); auto; exact I.
Qed.
Lemma stuck_run cap es : forall s, stuck s -> unattended es -> stuck (run cap s es).
Proof.
  induction es as [|e es IH]; intros s S U; [exact S|]. inversion U; subst. rewrite run_cons. apply IH; auto.
  now apply stuck_step.
Qed.
