(** Proofs about the main loop's flags, the end of the daemon and its successor. *)
From Coq Require Import Lia.
From Verif Require Import Base DownModel DownSpec.

(** ** The loop *)
Lemma loop_run_app n l a b :
  loop_run n l (a ++ b) = let (l1, x) := loop_run n l a in let (l2, y) := loop_run n l1 b in (l2, x ++ y).
Proof.
  revert l. induction a as [|h a IH]; intros l; cbn [app loop_run].
  - destruct (loop_run n l b). reflexivity.
  - destruct (loop_step n l h) as [l1 x]. rewrite IH. destruct (loop_run n l1 a) as [l2 y].
    destruct (loop_run n l2 b) as [l3 z]. now rewrite app_assoc.
Qed.

(** the request is noted, being carried out, or has been *)
Definition Heard (n : nat) (l : loop) (opened : list nat) : Prop :=
  (l_reconfig l = true /\ match l_pc l with Serving | ADone | AReconfig | Out => True | _ => False end)
  \/ (exists k, l_pc l = Reopening k /\ k <= n /\ forall j, j < k -> In j opened)
  \/ (forall j, j < n -> In j opened).

Lemma heard_step n l op h : Heard n l op ->
  Heard n (fst (loop_step n l h)) (op ++ snd (loop_step n l h)).
Proof.
  intros [(Hr & Hp)|[(k & Hp & Hkn & Hk)|Ha]].
  3: { right; right. intros j Hj. apply in_or_app. auto. }
  - destruct l as [p d r]. cbn [l_reconfig l_pc] in *. subst r. unfold loop_step, handler.
    destruct h as [|s|]; cbn [l_pc l_done l_reconfig].
    + destruct p; try easy; cbn [fst snd].
      * destruct d; left; cbn; auto.
      * right; left. exists 0. cbn. repeat split; [lia|intros; lia].
      * left; cbn; auto.
      * left; cbn; auto.
    + destruct p; try easy; destruct s; left; cbn; auto.
    + destruct p; try easy; left; cbn; auto.
  - destruct l as [p d r]. cbn [l_pc] in Hp. subst p. unfold loop_step, handler.
    destruct h as [|s|]; cbn [l_pc l_done l_reconfig].
    + destruct (Nat.ltb_spec k n) as [Hlt|Hge]; cbn [fst snd].
      * right; left. exists (S k). cbn [l_pc]. repeat split; [lia|]. intros j Hj. apply in_or_app.
        destruct (Nat.eq_dec j k) as [->|Hne]; [right; now left|left; apply Hk; lia].
      * right; right. intros j Hj. apply in_or_app. left. apply Hk. lia.
    + right; left. exists k. destruct s; cbn; repeat split; auto; intros j Hj; rewrite app_nil_r; auto.
    + right; left. exists k. cbn. repeat split; auto; intros j Hj; rewrite app_nil_r; auto.
Qed.
Lemma heard_run n hs : forall l op, Heard n l op ->
  Heard n (fst (loop_run n l hs)) (op ++ snd (loop_run n l hs)).
Proof.
  induction hs as [|h hs IH]; intros l op H; cbn [loop_run].
  - cbn [fst snd]. now rewrite app_nil_r.
  - pose proof (heard_step n l op h H) as H1. destruct (loop_step n l h) as [l1 a]. cbn [fst snd] in H1.
    specialize (IH l1 (op ++ a) H1). destruct (loop_run n l1 hs) as [l2 b]. cbn [fst snd] in *.
    now rewrite app_assoc.
Qed.
Lemma heard_blocked n l op : Heard n l op -> blocked l -> forall j, j < n -> In j op.
Proof.
  unfold blocked. intros [(_ & Hp)|[(k & Hp & _)|Ha]] Hb; [|congruence|exact Ha].
  rewrite Hb in Hp. destruct Hp.
Qed.

Lemma hup_prompt n l ys : ~ reopening l -> l_pc l <> BeforePoll ->
  let (l', opened) := loop_run n l (Signal SigHup :: ys) in blocked l' -> forall k, k < n -> In k opened.
Proof.
  intros Hr Hb. cbn [loop_run].
  assert (H : Heard n (fst (loop_step n l (Signal SigHup))) ([] ++ snd (loop_step n l (Signal SigHup)))).
  { destruct l as [p d r]. unfold reopening in Hr. cbn [l_pc] in *. unfold loop_step, handler. cbn [l_pc l_done l_reconfig].
    destruct p; try (now elim Hr); try (now elim Hb); left; rewrite ?Bool.orb_true_r; cbn; auto. }
  destruct (loop_step n l (Signal SigHup)) as [l1 a]. cbn [fst snd app] in H.
  pose proof (heard_run n ys l1 a H) as H2. destruct (loop_run n l1 ys) as [l2 b]. cbn [fst snd] in H2.
  intros Hbl k Hk. exact (heard_blocked n l2 _ H2 Hbl k Hk).
Qed.

(** the request came after the test: noted, before or in poll() *)
Definition Noted (l : loop) : Prop := l_reconfig l = true /\ (l_pc l = BeforePoll \/ l_pc l = InPoll).
Lemma noted_step n l h : Noted l -> Noted (fst (loop_step n l h)) \/ (wakes l h /\ Heard n (fst (loop_step n l h)) (snd (loop_step n l h))).
Proof.
  destruct l as [p d r]. intros [Hr Hp]. cbn [l_reconfig l_pc] in *. subst r. unfold wakes, blocked, loop_step, handler.
  destruct Hp as [-> | ->]; destruct h as [|s|]; cbn [l_pc l_done l_reconfig].
  - left. split; cbn; auto.
  - left. destruct s; split; cbn; auto.
  - left. split; cbn; auto.
  - left. split; cbn; auto.
  - right. destruct s; rewrite ?Bool.orb_true_r; cbn; (split; [split; [reflexivity|discriminate]|left; cbn; auto]).
  - right. cbn; (split; [split; [reflexivity|discriminate]|left; cbn; auto]).
Qed.
Lemma wakes_any n l h : wakes l h -> l_pc (fst (loop_step n l h)) <> InPoll.
Proof.
  unfold wakes, blocked. destruct l as [p d r]. cbn [l_pc]. intros [-> H]. destruct h; [now elim H| |].
  - exact H.
  - exact H.
Qed.
Lemma hup_woken n l ys h zs : ~ reopening l ->
  let (l1, a) := loop_run n l (Signal SigHup :: ys) in wakes l1 h ->
  let (l2, b) := loop_run n l1 (h :: zs) in blocked l2 -> forall k, k < n -> In k (a ++ b).
Proof.
  intros Hr.
  assert (Hs : Heard n (fst (loop_step n l (Signal SigHup))) (snd (loop_step n l (Signal SigHup)))
               \/ (Noted (fst (loop_step n l (Signal SigHup))))).
  { destruct l as [p d r]. unfold reopening in Hr. cbn [l_pc] in *. unfold loop_step, handler, Noted. cbn [l_pc l_done l_reconfig].
    destruct p; try (now elim Hr); try (left; left; rewrite ?Bool.orb_true_r; cbn; auto; fail).
    right; cbn; auto. }
  assert (Hys : forall ys l1, Noted l1 ->
     Noted (fst (loop_run n l1 ys)) \/ Heard n (fst (loop_run n l1 ys)) (snd (loop_run n l1 ys))).
  { clear. induction ys as [|x ys IH]; intros l1 HN; cbn [loop_run]; [left; exact HN|].
    destruct (noted_step n l1 x HN) as [HN'|[_ HH]].
    - destruct (loop_step n l1 x) as [l2 a] eqn:E. cbn [fst] in HN'. specialize (IH l2 HN').
      destruct (loop_run n l2 ys) as [l3 b]. cbn [fst snd] in *. destruct IH as [IH|IH]; [auto|].
      right. destruct IH as [H|[(k & H1 & H0 & H2)|H]]; [left; exact H|right; left; exists k|right; right];
        repeat split; auto; intros; apply in_or_app; auto.
    - right. destruct (loop_step n l1 x) as [l2 a]. cbn [fst snd] in HH.
      pose proof (heard_run n ys l2 a HH) as H2. destruct (loop_run n l2 ys) as [l3 b]. exact H2. }
  cbn [loop_run]. destruct (loop_step n l (Signal SigHup)) as [l0 a0]. cbn [fst snd] in Hs.
  assert (H1 : Heard n (fst (loop_run n l0 ys)) (a0 ++ snd (loop_run n l0 ys)) \/ Noted (fst (loop_run n l0 ys))).
  { destruct Hs as [Hs|Hs]; [left; apply heard_run, Hs|]. destruct (Hys ys l0 Hs) as [H|H]; [auto|].
    left. destruct H as [H|[(k & H1 & H0 & H2)|H]]; [left; exact H|right; left; exists k|right; right];
        repeat split; auto; intros; apply in_or_app; auto. }
  destruct (loop_run n l0 ys) as [l1 a1]. cbn [fst snd] in H1. intros Hw.
  assert (H2 : Heard n (fst (loop_step n l1 h)) ((a0 ++ a1) ++ snd (loop_step n l1 h))).
  { destruct H1 as [H1|H1]; [apply heard_step, H1|]. destruct (noted_step n l1 h H1) as [H|[_ H]].
    - destruct H1 as [Hrc _]. destruct H as [_ [H|H]].
      + exfalso. destruct Hw as [Hb _]. unfold blocked in Hb. revert H. destruct l1 as [p d r]. cbn in Hb, Hrc. subst.
        unfold loop_step, handler. destruct h as [|s|]; cbn; [discriminate| |discriminate].
        destruct s; cbn; rewrite ?Bool.orb_true_r; discriminate.
      + elim (wakes_any n l1 h Hw H).
    - destruct H as [H|[(k & H3 & H0 & H4)|H]]; [left; exact H|right; left; exists k|right; right];
        repeat split; auto; intros; apply in_or_app; auto. }
  destruct (loop_step n l1 h) as [l2 b1]. cbn [fst snd] in H2.
  pose proof (heard_run n zs l2 _ H2) as H3. destruct (loop_run n l2 zs) as [l3 b2]. cbn [fst snd] in H3.
  intros Hb k Hk. rewrite app_assoc. exact (heard_blocked n l3 _ H3 Hb k Hk).
Qed.

(** no request pending, for log [j] *)
Definition Deaf (j : nat) (l : loop) : Prop :=
  match l_pc l with Reopening k => j < k | AClear => True | _ => l_reconfig l = false end.
Lemma deaf_step n j l h : is_hup h = false -> Deaf j l ->
  Deaf j (fst (loop_step n l h)) /\ ~ In j (snd (loop_step n l h)).
Proof.
  destruct l as [p d r]. unfold Deaf, loop_step, handler. intros Hh Hd. cbn [l_pc l_done l_reconfig] in *.
  destruct h as [|s|]; [| destruct s; [discriminate| |] |]; destruct p as [| |k| | | | |]; cbn [l_pc l_done l_reconfig fst snd In] in *;
    try subst r; repeat match goal with |- context [if ?b then _ else _] => destruct b end; cbn [l_pc l_done l_reconfig fst snd In];
    try (split; [auto|tauto]).
  split; [lia|]. intros [E|[]]. lia.
Qed.
Lemma deaf_run n j hs : forall l, forallb (fun h => negb (is_hup h)) hs = true -> Deaf j l ->
  ~ In j (snd (loop_run n l hs)).
Proof.
  induction hs as [|h hs IH]; intros l Hh Hd; cbn [loop_run forallb] in *; [tauto|].
  apply andb_prop in Hh. destruct Hh as [H1 H2]. apply Bool.negb_true_iff in H1.
  destruct (deaf_step n j l h H1 Hd) as [Hd1 Hn]. destruct (loop_step n l h) as [l1 a]. cbn [fst snd] in *.
  specialize (IH l1 H2 Hd1). destruct (loop_run n l1 hs) as [l2 b]. cbn [snd] in *.
  intros H. apply in_app_or in H. tauto.
Qed.

(** how often a log is opened *)
Definition owed (j : nat) (l : loop) : nat :=
  match l_pc l with Reopening k => if j <? k then 0 else 1 | AClear => 0 | _ => if l_reconfig l then 1 else 0 end.
Lemma owed_step n j l h :
  count_occ Nat.eq_dec (snd (loop_step n l h)) j + owed j (fst (loop_step n l h)) <= owed j l + hups [h].
Proof.
  destruct l as [p d r]. unfold owed, loop_step, handler, hups. cbn [l_pc l_done l_reconfig].
  destruct h as [|s|]; [| destruct s |]; destruct p as [| |k| | | | |]; cbn [l_pc l_done l_reconfig fst snd count_occ filter is_hup length];
    try (destruct d; cbn [orb l_pc l_done l_reconfig fst snd count_occ]); try (destruct r; cbn [orb l_pc l_done l_reconfig fst snd count_occ]);
    try (destruct (Nat.ltb_spec k n); cbn [l_pc l_done l_reconfig fst snd count_occ]);
    try (destruct (Nat.eq_dec k j)); repeat match goal with |- context [?a <? ?b] => destruct (Nat.ltb_spec a b) end; lia.
Qed.
Lemma owed_run n j hs : forall l,
  count_occ Nat.eq_dec (snd (loop_run n l hs)) j + owed j (fst (loop_run n l hs)) <= owed j l + hups hs.
Proof.
  induction hs as [|h hs IH]; intros l; cbn [loop_run].
  - cbn. lia.
  - pose proof (owed_step n j l h) as H. destruct (loop_step n l h) as [l1 a]. cbn [fst snd] in H.
    specialize (IH l1). destruct (loop_run n l1 hs) as [l2 b]. cbn [fst snd] in *. rewrite count_occ_app.
    unfold hups in *. cbn [filter] in *. destruct (is_hup h); cbn [length] in *; lia.
Qed.

(** ** Letting go *)
Lemma perform_all_app m a b : forall ma, perform_all m a (repeat Main (length a)) = Ok (ma, []) ->
  forall k, perform_all m (a ++ b) (repeat Main (length a + k)) = perform_all ma b (repeat Main k).
Proof.
  revert m. induction a as [|x a IH]; intros m ma H k; cbn [length repeat perform_all app Nat.add] in *.
  - injection H as <-. reflexivity.
  - destruct (perform m x) as [m1|]; [|discriminate]. cbn [bind] in *. apply IH, H.
Qed.
Lemma then_all m a ma b mb : perform_all m a (repeat Main (length a)) = Ok (ma, []) ->
  perform_all ma b (repeat Main (length b)) = Ok (mb, []) -> perform_all m (a ++ b) (repeat Main (length (a ++ b))) = Ok (mb, []).
Proof. intros H1 H2. rewrite app_length, (perform_all_app m a b ma H1). exact H2. Qed.

Lemma close_head fd l o t c : ~ In fd l -> perform (mkMem (fd :: l) o t c) (Close fd) = Ok (mkMem l o t c).
Proof.
  intros H. cbn [perform m_open existsb]. rewrite Nat.eqb_refl. cbn [orb m_objs m_tp m_conf remove].
  destruct (Nat.eq_dec fd fd); [|easy]. rewrite notin_remove by exact H. reflexivity.
Qed.
Lemma close_opt_ok x l o t c : NoDup (opt x ++ l) ->
  perform_all (mkMem (opt x ++ l) o t c) (close_opt x) (repeat Main (length (close_opt x))) = Ok (mkMem l o t c, []).
Proof.
  destruct x as [fd|]; [|reflexivity]. cbn [opt app]. intros H. inversion H; subst.
  cbn [close_opt length repeat perform_all]. rewrite close_head by assumption. reflexivity.
Qed.
Lemma use_tp a b c : perform (mkMem a b true c) UseTp = Ok (mkMem a b true c).
Proof. reflexivity. Qed.
Lemma objs_ok ts : forall i l c, NoDup (flat_map (fun t => opt (t_fd t)) ts ++ l) ->
  perform_all (mkMem (flat_map (fun t => opt (t_fd t)) ts ++ l) (seq i (length ts)) true c) (destroy_objs i ts)
    (repeat Main (length (destroy_objs i ts))) = Ok (mkMem l [] true c, []).
Proof.
  induction ts as [|t ts IH]; intros i l c HN; [reflexivity|].
  cbn [destroy_objs flat_map length seq] in *. rewrite <- app_assoc in *.
  apply then_all with (ma := mkMem (flat_map (fun t => opt (t_fd t)) ts ++ l) (seq (S i) (length ts)) true c).
  2: { apply IH. destruct (t_fd t); [inversion HN; assumption|exact HN]. }
  assert (Hfree : forall m, perform (mkMem m (i :: seq (S i) (length ts)) true c) (FreeObj i) = Ok (mkMem m (seq (S i) (length ts)) true c)).
  { intros m. cbn [perform m_objs existsb]. rewrite Nat.eqb_refl. cbn [orb m_open m_tp m_conf remove].
    destruct (Nat.eq_dec i i); [|easy]. rewrite notin_remove; [reflexivity|]. rewrite in_seq. lia. }
  assert (Hp : (match t_req t with Some _ => destroy_req None | None => [] end) = []) by (destruct (t_req t); reflexivity).
  unfold destroy_obj. rewrite Hp. cbn [app].
  destruct (t_fd t) as [fd|].
  - cbn [opt app] in *. inversion HN; subst. cbn [length repeat perform_all].
    rewrite use_tp. cbn [bind].
    rewrite close_head by assumption. cbn [bind]. rewrite Hfree. reflexivity.
  - cbn [opt app length repeat perform_all]. rewrite Hfree. reflexivity.
Qed.

Lemma nodup_app_r {A} (a b : list A) : NoDup (a ++ b) -> NoDup b.
Proof. induction a as [|x a IH]; intros H; [exact H|]. inversion H; auto. Qed.

Lemma all_let_go c others : NoDup (fds c ++ others) ->
  perform_all (at_work c others) (destroy_server_conf c) (repeat Main (length (destroy_server_conf c)))
  = Ok (mkMem others [] false false, []).
Proof.
  intros HN. unfold at_work, fds, destroy_server_conf in *. rewrite <- !app_assoc in *. cbn [app] in *.

  pose proof HN as HN1. pose proof (nodup_app_r _ _ HN1) as HN2. pose proof (nodup_app_r _ _ HN2) as HN3.
  pose proof (nodup_app_r _ _ HN3) as HN4.
  eapply then_all.
  { destruct (c_pid c); reflexivity. }
  eapply then_all; [apply close_opt_ok, HN1|].
  eapply then_all; [apply close_opt_ok, HN2|].
  eapply then_all; [apply objs_ok, HN3|].
  unfold tpoll_destroy. cbn [app length repeat perform_all].
  inversion HN4 as [|? ? Hn1 HN5]; subst. inversion HN5 as [|? ? Hn2 HN6]; subst.
  rewrite close_head by assumption. cbn [bind]. rewrite close_head by assumption. reflexivity.
Qed.

Lemma main_then_thread m acts k ma : perform_all m acts (repeat Main k) = Ok (ma, []) -> m_conf ma = false ->
  perform_all m acts (repeat Main k ++ [Thread]) = UB UseAfterFree.
Proof.
  revert m acts. induction k as [|k IH]; intros m acts H Hc; cbn [repeat perform_all app] in *.
  - injection H as -> ->. unfold thread_step. rewrite Hc. reflexivity.
  - destruct acts as [|a acts]; [apply IH; assumption|].
    destruct (perform m a) as [m1|]; [|discriminate]. cbn [bind] in *. apply IH; assumption.
Qed.

(** ** Children *)
Definition Family (d g : nat) (ps : list proc) : Prop :=
  In (mkProc d g Daemon) ps /\
  forall p, In p ps -> match p_role p with Program _ => p_group p = g | Daemon => p = mkProc d g Daemon | _ => p_group p <> g end.
Lemma used_false id ps p : used id ps = false -> In p ps -> p_id p <> id /\ p_group p <> id.
Proof.
  intros H Hi. unfold used in H.
  assert (Hx : ((p_id p =? id) || (p_group p =? id)) = false).
  { destruct (_ || _) eqn:E; [|reflexivity].
    assert (existsb (fun p => (p_id p =? id) || (p_group p =? id)) ps = true) by (apply existsb_exists; eauto). congruence. }
  apply Bool.orb_false_elim in Hx. destruct Hx as [A B]. split; apply Nat.eqb_neq; assumption.
Qed.
Lemma family_add d g ps q : Family d g ps ->
  match p_role q with Program _ => p_group q = g | Daemon => q = mkProc d g Daemon | _ => p_group q <> g end -> Family d g (ps ++ [q]).
Proof.
  intros [H1 H2] Hq. split; [apply in_or_app; auto|]. intros p Hp. apply in_app_or in Hp.
  destruct Hp as [Hp|[<-|[]]]; [apply H2, Hp|exact Hq].
Qed.
Lemma family_step d g ps x : x <> End d -> Family d g ps -> Family d g (pstep g ps x).
Proof.
  intros Hx HF. pose proof HF as [H1 H2]. destruct x as [id c|id c|id h|id]; cbn [pstep].
  - destruct (used id ps) eqn:E; [exact HF|]. apply family_add; [exact HF|reflexivity].
  - destruct (used id ps) eqn:E; [exact HF|]. apply family_add; [exact HF|]. cbn.
    destruct (used_false id ps _ E H1) as [_ H]. cbn in H. auto.
  - destruct (used id ps) eqn:E; [exact HF|]. destruct (_ || _) eqn:E2; [|exact HF].
    apply family_add; [exact HF|]. cbn. apply Bool.orb_prop in E2. destruct E2 as [E2|E2].
    + apply Nat.eqb_eq in E2. subst h. destruct (used_false id ps _ E H1) as [_ H]. cbn in H. auto.
    + apply existsb_exists in E2. destruct E2 as (p & Hp & E2). apply andb_prop in E2. destruct E2 as [E2 E3].
      apply Nat.eqb_eq in E2. specialize (H2 p Hp). destruct (p_role p); try discriminate. congruence.
  - split.
    + apply filter_In. split; [exact H1|]. cbn. apply Bool.negb_true_iff, Nat.eqb_neq. congruence.
    + intros p Hp. apply filter_In in Hp. apply H2, Hp.
Qed.
Lemma family_run d g xs : forall ps, Forall (fun x => x <> End d) xs -> Family d g ps -> Family d g (prun g ps xs).
Proof.
  induction xs as [|x xs IH]; intros ps HF H; cbn [prun fold_left]; [exact H|].
  inversion HF; subst. apply IH; [assumption|]. apply family_step; assumption.
Qed.

(** ** Restart *)
(** what Old has yet to let go of, and who has what *)
Definition Turn (n : nat) (s : two) : Prop :=
  (exists a, r_old s = skipn a (stopping n)) /\
  (In OUnlink (r_old s) -> r_lock s = Some Old /\ r_pid s = Some Old /\ (r_new s = starting n \/ r_new s = [] /\ r_failed s = true)) /\
  (In OUnlock (r_old s) -> r_lock s = Some Old /\ (r_new s = starting n \/ r_new s = [] /\ r_failed s = true)) /\
  (r_lock s = Some Old -> In OUnlock (r_old s)) /\
  (r_pid s = Some Old -> In OUnlink (r_old s)) /\
  (r_port s = Some Old -> In OPort (r_old s)) /\
  (forall i, r_held s i = Some Old -> In (OObj i) (r_old s)) /\
  (r_own s = Some Old -> In OExit (r_old s)) /\
  (exists b, r_new s = skipn b (starting n)) /\
  (past_pid s -> r_pid s = Some New).

Lemma skipn_cons {A} a (l : list A) x r : skipn a l = x :: r -> skipn (S a) l = r.
Proof.
  revert l. induction a as [|a IH]; intros l H.
  - cbn in H. subst l. reflexivity.
  - destruct l as [|y l]; [discriminate|]. exact (IH l H).
Qed.
Lemma stopping_nodup n : NoDup (stopping n).
Proof.
  unfold stopping. cbn [app].
  assert (H : NoDup (map OObj (seq 0 n) ++ [OExit])).
  {
    induction (seq_NoDup n 0) as [|x l Hx _ IH]; cbn [map app].
    - repeat constructor. tauto.
    - constructor; [|exact IH]. intros Hi. apply in_app_or in Hi. destruct Hi as [Hi|[Hi|[]]]; [|discriminate].
      apply in_map_iff in Hi. destruct Hi as (y & E & Hy). injection E as ->. auto. }
  assert (Hn : forall a, In a (map OObj (seq 0 n) ++ [OExit]) -> a <> OUnlink /\ a <> OUnlock /\ a <> OPort).
  { intros a Hi. apply in_app_or in Hi. destruct Hi as [Hi|[<-|[]]]; [|repeat split; discriminate].
    apply in_map_iff in Hi. destruct Hi as (y & <- & _). repeat split; discriminate. }
  constructor. { intros [E|[E|Hi]]; try discriminate. now destruct (Hn _ Hi). }
  constructor. { intros [E|Hi]; try discriminate. now destruct (Hn _ Hi). }
  constructor. { intros Hi. now destruct (Hn _ Hi). }
  exact H.
Qed.
Lemma nodup_skipn {A} a (l : list A) : NoDup l -> NoDup (skipn a l).
Proof. intros H. rewrite <- (firstn_skipn a l) in H. exact (nodup_app_r _ _ H). Qed.

Lemma turn_start n : Turn n (restart n).
Proof.
  unfold Turn, restart. cbn [r_old r_new r_lock r_pid r_port r_held r_own r_failed].
  split; [now exists 0|]. split; [auto|]. split; [auto|].
  split; [intros _; right; now left|]. split; [intros _; now left|]. split; [intros _; right; right; now left|].
  split.
  { intros i. destruct (Nat.ltb_spec i n) as [H|H]; [|discriminate]. intros _. unfold stopping. apply in_or_app. right.
    apply in_or_app. left. apply in_map, in_seq. lia. }
  split. { intros _. unfold stopping. apply in_or_app. right. apply in_or_app. right. now left. }
  split; [now exists 0|].
  intros [_ H]. discriminate.
Qed.

Lemma old_first n a rest x : skipn a (stopping n) = x :: rest -> NoDup (x :: rest).
Proof. intros H. rewrite <- H. apply nodup_skipn, stopping_nodup. Qed.

Lemma without_old r : without r = Some Old -> False.
Proof. destruct r as [[|]|]; discriminate. Qed.
Lemma without_keeps r w : without r = Some w -> r = Some w.
Proof. destruct r as [[|]|]; cbn; congruence. Qed.

Lemma past_pid_new n b : forallb is_nobj (skipn b (starting n)) = true <-> 2 <= b.
Proof.
  split.
  - destruct b as [|[|b]]; [discriminate|discriminate|lia].
  - intros H. destruct b as [|[|b]]; [lia|lia|]. cbn [skipn starting app].
    apply forallb_forall. intros x Hx.
    assert (Hin : In x ([NPort; NOwn] ++ map NObj (seq 0 n))).
    { rewrite <- (firstn_skipn b). apply in_or_app. right. exact Hx. }
    apply in_app_or in Hin. destruct Hin as [[<-|[<-|[]]]|Hin]; [reflexivity|reflexivity|].
    apply in_map_iff in Hin. destruct Hin as (y & <- & _). reflexivity.
Qed.

Lemma turn_old n s : Turn n s -> Turn n (old_step s).
Proof.
  intros HT. pose proof HT as ((a & Ha) & HU & HL & Hl & Hp & Hport & Hh & Hown & Hb & Hpast).
  unfold old_step. destruct (r_old s) as [|x rest] eqn:E; [exact HT|]. symmetry in Ha.
  pose proof (old_first n a rest x Ha) as HN. inversion HN as [|? ? Hx _]; subst.
  assert (Ha' : exists a, rest = skipn a (stopping n)) by (exists (S a); symmetry; exact (skipn_cons _ _ _ _ Ha)).
  assert (Hlater : forall y, In y (x :: rest) -> y <> x -> In y rest) by (intros y [->|Hy] Hne; [now elim Hne|exact Hy]).
  destruct x; unfold Turn, past_pid; cbn [r_old r_new r_lock r_pid r_port r_held r_own r_failed].
  - destruct (HU (or_introl eq_refl)) as (HU1 & HU2 & HU3).
    split; [exact Ha'|]. split; [intros H; now elim Hx|]. split; [intros H; apply HL; now right|].
    split; [intros H; apply Hlater; [auto|discriminate]|]. split; [discriminate|].
    split; [intros H; apply Hlater; [auto|discriminate]|]. split; [intros i H; apply Hlater; [auto|discriminate]|].
    split; [intros H; apply Hlater; [auto|discriminate]|]. split; [exact Hb|].
    intros [Hf Hn]. exfalso. destruct HU3 as [HS|[_ Hf']]; [rewrite HS in Hn; discriminate|congruence].
  - destruct (HL (or_introl eq_refl)) as (HL1 & HL2).
    split; [exact Ha'|].
    split. { intros H. exfalso. (* OUnlink comes before *)
      assert (In OUnlink (skipn (S a) (stopping n))) as H2 by (rewrite (skipn_cons _ _ _ _ Ha); exact H).
      clear - H2. cbn [skipn stopping app] in H2.
      pose proof (stopping_nodup n) as HN. inversion HN as [|? ? Hno _]; subst. apply Hno.
      change ([OUnlock; OPort] ++ map OObj (seq 0 n) ++ [OExit]) with (skipn 0 (OUnlock :: OPort :: map OObj (seq 0 n) ++ [OExit])).
      rewrite <- (firstn_skipn a (OUnlock :: OPort :: map OObj (seq 0 n) ++ [OExit])). apply in_or_app. right. exact H2. }
    split; [intros H; now elim Hx|].
    split; [intros H; elim (without_old _ H)|]. split; [intros H; apply Hlater; [auto|discriminate]|].
    split; [intros H; apply Hlater; [auto|discriminate]|]. split; [intros i H; apply Hlater; [auto|discriminate]|].
    split; [intros H; apply Hlater; [auto|discriminate]|]. split; [exact Hb|exact Hpast].
  - split; [exact Ha'|]. split; [intros H; apply HU; now right|]. split; [intros H; apply HL; now right|].
    split; [intros H; apply Hlater; [auto|discriminate]|]. split; [intros H; apply Hlater; [auto|discriminate]|].
    split; [intros H; elim (without_old _ H)|]. split; [intros i H; apply Hlater; [auto|discriminate]|].
    split; [intros H; apply Hlater; [auto|discriminate]|]. split; [exact Hb|exact Hpast].
  - split; [exact Ha'|]. split; [intros H; apply HU; now right|]. split; [intros H; apply HL; now right|].
    split; [intros H; apply Hlater; [auto|discriminate]|]. split; [intros H; apply Hlater; [auto|discriminate]|].
    split; [intros H; apply Hlater; [auto|discriminate]|].
    split. { intros j. unfold set_held. destruct (Nat.eqb_spec j i) as [->|Hne]; [intros H; elim (without_old _ H)|].
             intros H. apply Hlater; [auto|congruence]. }
    split; [intros H; apply Hlater; [auto|discriminate]|]. split; [exact Hb|exact Hpast].
  - split; [exact Ha'|]. split; [intros H; apply HU; now right|]. split; [intros H; apply HL; now right|].
    split; [intros H; apply Hlater; [auto|discriminate]|]. split; [intros H; apply Hlater; [auto|discriminate]|].
    split; [intros H; apply Hlater; [auto|discriminate]|]. split; [intros i H; apply Hlater; [auto|discriminate]|].
    split; [intros H; elim (without_old _ H)|]. split; [exact Hb|exact Hpast].
Qed.

Lemma turn_give_up n s : Turn n s -> Turn n (give_up s).
Proof.
  intros (Ha & HU & HL & Hl & Hp & Hport & Hh & Hown & Hb & Hpast).
  assert (Hk : forall r, without_new r = Some Old -> r = Some Old) by (intros [[|]|]; cbn; congruence).
  assert (Hk2 : forall r, r = Some Old -> without_new r = Some Old) by (intros r ->; reflexivity).
  unfold Turn, give_up, past_pid. cbn [r_old r_new r_lock r_pid r_port r_held r_own r_failed].
  split; [exact Ha|]. split; [intros H; destruct (HU H) as (A & B & _); auto|].
  split; [intros H; destruct (HL H) as (A & _); auto|].
  split; [auto|]. split; [auto|]. split; [auto|]. split; [auto|]. split; [auto|].
  split; [|intros [H _]; discriminate].
  exists (length (starting n)). symmetry. apply skipn_all.
Qed.

Lemma turn_new n s : Turn n s -> Turn n (new_step s).
Proof.
  intros HT. pose proof (turn_give_up n s HT) as HG.
  pose proof HT as (Ha & HU & HL & Hl & Hp & Hport & Hh & Hown & (b & Hb) & Hpast).
  unfold new_step. destruct (r_new s) as [|x rest] eqn:E; [exact HT|]. symmetry in Hb.
  assert (Hb' : rest = skipn (S b) (starting n)) by (symmetry; exact (skipn_cons _ _ _ _ Hb)).
  assert (Hgone : x <> NLock -> ~ In OUnlock (r_old s) /\ ~ In OUnlink (r_old s)).
  { intros Hne. split; intros H.
    - destruct (HL H) as (_ & [HS|[HS _]]); [|discriminate]. cbn in HS. congruence.
    - destruct (HU H) as (_ & _ & [HS|[HS _]]); [|discriminate]. cbn in HS. congruence. }
  assert (Hstart : x = NLock -> b = 0).
  { intros ->. destruct b as [|b]; [reflexivity|]. exfalso. cbn [skipn starting app] in Hb.
    assert (Hin : In NLock (NPid :: NPort :: NOwn :: map NObj (seq 0 n))).
    { rewrite <- (firstn_skipn b (NPid :: NPort :: NOwn :: map NObj (seq 0 n))). apply in_or_app. right. rewrite Hb. now left. }
    destruct Hin as [H|[H|[H|H]]]; try discriminate. apply in_map_iff in H. destruct H as (y & H & _). discriminate. }
  assert (Hpid : 2 <= b -> r_failed s = false -> r_pid s = Some New).
  { intros H2 Hf. apply Hpast. split; [exact Hf|]. rewrite E, <- Hb. apply past_pid_new, H2. }
  assert (Hb2 : x <> NLock -> x <> NPid -> 2 <= b).
  { intros H1 H2. destruct b as [|[|b]]; [cbn in Hb; congruence|cbn in Hb; congruence|lia]. }
  destruct x.
  - destruct (r_lock s) as [w|] eqn:EL; [exact HG|]. clear HG.
    unfold Turn, past_pid; cbn [r_old r_new r_lock r_pid r_port r_held r_own r_failed].
    split; [exact Ha|]. split; [intros H; destruct (HU H) as (A & _); discriminate|].
    split; [intros H; destruct (HL H) as (A & _); discriminate|]. split; [discriminate|].
    split; [exact Hp|]. split; [exact Hport|]. split; [exact Hh|]. split; [exact Hown|].
    split; [exists (S b); exact Hb'|]. intros [_ H]. rewrite Hb', (Hstart eq_refl) in H. discriminate.
  - destruct (Hgone ltac:(discriminate)) as [G1 G2].
    unfold Turn, past_pid; cbn [r_old r_new r_lock r_pid r_port r_held r_own r_failed].
    split; [exact Ha|]. split; [intros H; now elim G2|]. split; [intros H; now elim G1|]. split; [exact Hl|].
    split; [discriminate|]. split; [exact Hport|]. split; [exact Hh|]. split; [exact Hown|].
    split; [exists (S b); exact Hb'|]. auto.
  - destruct (r_port s) as [w|] eqn:EL; [exact HG|]. clear HG.
    destruct (Hgone ltac:(discriminate)) as [G1 G2].
    unfold Turn, past_pid; cbn [r_old r_new r_lock r_pid r_port r_held r_own r_failed].
    split; [exact Ha|]. split; [intros H; now elim G2|]. split; [intros H; now elim G1|]. split; [exact Hl|].
    split; [exact Hp|]. split; [discriminate|]. split; [exact Hh|]. split; [exact Hown|].
    split; [exists (S b); exact Hb'|]. intros [Hf _]. apply Hpid; [apply Hb2; discriminate|exact Hf].
  - destruct (Hgone ltac:(discriminate)) as [G1 G2].
    destruct (r_own s) as [w|] eqn:EL; unfold Turn, past_pid; cbn [r_old r_new r_lock r_pid r_port r_held r_own r_failed];
    (split; [exact Ha|]); (split; [intros H; now elim G2|]); (split; [intros H; now elim G1|]); (split; [exact Hl|]);
    (split; [exact Hp|]); (split; [exact Hport|]); (split; [exact Hh|]).
    + split; [exact Hown|].
      split; [exists (S b); exact Hb'|]. intros [Hf _]. apply Hpid; [apply Hb2; discriminate|exact Hf].
    + split; [discriminate|].
      split; [exists (S b); exact Hb'|]. intros [Hf _]. apply Hpid; [apply Hb2; discriminate|exact Hf].
  - destruct (Hgone ltac:(discriminate)) as [G1 G2].
    destruct (r_held s i) as [w|] eqn:EL; unfold Turn, past_pid; cbn [r_old r_new r_lock r_pid r_port r_held r_own r_failed];
    (split; [exact Ha|]); (split; [intros H; now elim G2|]); (split; [intros H; now elim G1|]); (split; [exact Hl|]);
    (split; [exact Hp|]); (split; [exact Hport|]).
    + split; [exact Hh|]. split; [exact Hown|].
      split; [exists (S b); exact Hb'|]. intros [Hf _]. apply Hpid; [apply Hb2; discriminate|exact Hf].
    + split. { intros j. unfold set_held. destruct (j =? i); [discriminate|apply Hh]. }
      split; [exact Hown|].
      split; [exists (S b); exact Hb'|]. intros [Hf _]. apply Hpid; [apply Hb2; discriminate|exact Hf].
Qed.
Lemma turn_run n ws : forall s, Turn n s -> Turn n (two_run s ws).
Proof.
  induction ws as [|w ws IH]; intros s H; cbn [two_run fold_left]; [exact H|].
  apply IH. destruct w; [apply turn_old|apply turn_new]; exact H.
Qed.

Lemma new_keeps_old s : r_old (new_step s) = r_old s.
Proof.
  unfold new_step. destruct (r_new s) as [|x rest]; [reflexivity|].
  destruct x; try reflexivity.
  - destruct (r_lock s); reflexivity.
  - destruct (r_port s); reflexivity.
  - destruct (r_own s); reflexivity.
  - destruct (r_held s i); reflexivity.
Qed.
Lemma old_left ws : forall s, r_old (two_run s ws) = skipn (moves Old ws) (r_old s).
Proof.
  induction ws as [|w ws IH]; intros s; cbn [two_run fold_left]; [reflexivity|].
  unfold two_run in IH. rewrite IH. destruct w; cbn [two_step].
  - unfold moves. cbn [filter length]. fold (moves Old ws). unfold old_step.
    destruct (r_old s) as [|x rest] eqn:E; [rewrite E, !skipn_nil; reflexivity|]. destruct x; reflexivity.
  - rewrite new_keeps_old. reflexivity.
Qed.

(** the objects, when nobody holds them, and when the old daemon does *)
Lemma take_objs l : forall s, r_new s = map NObj l -> NoDup l -> (forall i, In i l -> r_held s i = None) ->
  let e := two_run s (repeat New (length l)) in
  r_lock e = r_lock s /\ r_pid e = r_pid s /\ r_port e = r_port s /\ r_own e = r_own s /\ r_failed e = r_failed s /\
  r_without e = r_without s /\ r_logless e = r_logless s /\ r_new e = [] /\
  (forall i, In i l -> r_held e i = Some New) /\ (forall i, ~ In i l -> r_held e i = r_held s i).
Proof.
  induction l as [|x l IH]; intros s Hn HN Hf; cbn [length repeat].
  - cbn. repeat split; auto. intros i [].
  - inversion HN; subst. unfold two_run in *. cbn [fold_left two_step].
    set (s1 := new_step s).
    assert (E1 : s1 = mkTwo (r_lock s) (r_pid s) (r_port s) (set_held (r_held s) x (Some New)) (r_own s) (r_old s) (map NObj l) (r_failed s) (r_without s) (r_logless s)).
    { unfold s1, new_step. rewrite Hn. cbn [map]. rewrite (Hf x) by now left. reflexivity. }
    assert (Hf1 : forall i, In i l -> r_held s1 i = None).
    { intros i Hi. rewrite E1. cbn [r_held]. unfold set_held. destruct (Nat.eqb_spec i x) as [->|_]; [easy|]. apply Hf. now right. }
    assert (Hn1 : r_new s1 = map NObj l) by (rewrite E1; reflexivity).
    destruct (IH s1 Hn1 ltac:(assumption) Hf1) as (A1 & A2 & A3 & A4 & A5 & A6 & A7 & A8 & A9 & A10).
    rewrite A1, A2, A3, A4, A5, A6, A7, A8. clearbody s1.
    do 7 (split; [rewrite E1; reflexivity|]). split; [reflexivity|]. split.
    + intros i [<-|Hi]; [|auto]. rewrite A10 by assumption. rewrite E1. cbn [r_held]. unfold set_held. now rewrite Nat.eqb_refl.
    + intros i Hi. rewrite A10 by (intros H; apply Hi; now right). rewrite E1. cbn [r_held]. unfold set_held.
      destruct (Nat.eqb_spec i x) as [->|_]; [|reflexivity]. elim Hi. now left.
Qed.
Lemma miss_objs l : forall s, r_new s = map NObj l -> (forall i, In i l -> r_held s i = Some Old) ->
  let e := two_run s (repeat New (length l)) in
  e = mkTwo (r_lock s) (r_pid s) (r_port s) (r_held s) (r_own s) (r_old s) [] (r_failed s) (r_without s ++ l) (r_logless s).
Proof.
  induction l as [|x l IH]; intros s Hn Hf; cbn [length repeat].
  - cbn. rewrite app_nil_r. destruct s; cbn in *; subst; reflexivity.
  - unfold two_run in *. cbn [fold_left two_step].
    set (s1 := new_step s).
    assert (E1 : s1 = mkTwo (r_lock s) (r_pid s) (r_port s) (r_held s) (r_own s) (r_old s) (map NObj l) (r_failed s) (r_without s ++ [x]) (r_logless s)).
    { unfold s1, new_step. rewrite Hn. cbn [map]. rewrite (Hf x) by now left. reflexivity. }
    specialize (IH s1). rewrite E1 in *. cbn [r_new r_held r_lock r_pid r_port r_own r_old r_failed r_without r_logless] in IH.
    rewrite IH; [|reflexivity|intros i Hi; apply Hf; now right]. now rewrite <- app_assoc.
Qed.

(** ** The request to stop *)
Definition leaving (k : nat) (l : loop) : Prop :=
  l_done l = true /\ match k, l_pc l with 2, (Serving | ADone | Out) => True | 1, (ADone | Out) => True | 0, Out => True | _, _ => False end.
Lemma leaving_run n hs : forall k l, leaving k l ->
  leaving (k - steps hs) (fst (loop_run n l hs)) /\ snd (loop_run n l hs) = [].
Proof.
  induction hs as [|h hs IH]; intros k l H; cbn [loop_run].
  - unfold steps. cbn [filter length]. rewrite Nat.sub_0_r. auto.
  - assert (HS : leaving (k - steps [h]) (fst (loop_step n l h)) /\ snd (loop_step n l h) = []).
    { destruct l as [p d r]. destruct H as [Hd H]. cbn [l_done l_pc] in *. subst d.
      destruct k as [|[|[|k]]]; destruct p as [| |j| | | | |]; try contradiction;
      destruct h as [|s|]; try destruct s; repeat split. }
    destruct HS as [H1 H2]. specialize (IH _ _ H1). destruct (loop_step n l h) as [l1 a]. cbn [fst snd] in *.
    destruct (loop_run n l1 hs) as [l2 b]. cbn [fst snd] in *. destruct IH as [H3 ->]. subst a. split; [|reflexivity].
    replace (k - steps (h :: hs)) with (k - steps [h] - steps hs); [exact H3|].
    unfold steps. destruct h; cbn [filter length]; lia.
Qed.
Definition rank (n : nat) (l : loop) : nat :=
  match l_pc l with AReconfig => n + 4 | Reopening k => n - k + 3 | AClear => 2 | BeforePoll => 1 | _ => 0 end.
Lemma late_run n m : forall l, past_test l \/ blocked l -> rank n l <= m ->
  blocked (fst (loop_run n l (repeat Step m))) /\ l_done (fst (loop_run n l (repeat Step m))) = l_done l.
Proof.
  induction m as [|m IH]; intros [p d r] H Hm.
  - unfold past_test, blocked in *. cbn [repeat loop_run fst l_pc l_done]. unfold rank in Hm.
    destruct p as [| |k| | | | |]; cbn [l_pc] in *; try lia; try (destruct H as [[]|H]; discriminate). auto.
  - cbn [repeat loop_run].
    assert (HS : (past_test (fst (loop_step n (mkLoop p d r) Step)) \/ blocked (fst (loop_step n (mkLoop p d r) Step))) /\
       rank n (fst (loop_step n (mkLoop p d r) Step)) <= m /\ l_done (fst (loop_step n (mkLoop p d r) Step)) = d).
    { unfold past_test, blocked, rank in *. cbn [l_pc] in *.
      destruct p as [| |k| | | | |]; cbn [loop_step l_pc l_done l_reconfig] in *; try (destruct H as [[]|H]; discriminate).
      - destruct r; cbn [fst l_pc l_done]; repeat split; auto; lia.
      - destruct (Nat.ltb_spec k n); cbn [fst l_pc l_done]; repeat split; auto; lia.
      - cbn [fst l_pc l_done]; repeat split; auto; lia.
      - cbn [fst l_pc l_done]; repeat split; auto; lia.
      - cbn [fst l_pc l_done]; repeat split; auto; lia. }
    destruct HS as (H1 & H2 & H3). destruct (IH _ H1 H2) as [H4 H5].
    destruct (loop_step n (mkLoop p d r) Step) as [l1 a]. cbn [fst] in *.
    destruct (loop_run n l1 (repeat Step m)) as [l2 b]. cbn [fst l_done] in *. split; [exact H4|congruence].
Qed.
