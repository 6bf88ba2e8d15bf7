(** Nobody is sent what is not meant for them. *)
From Verif Require Import Base BaseProof RingModel RingSpec RingProof LogModel LogSpec EscModel EscSpec TelnetModel TelnetSpec
  SessModel SessSpec SessInv SessWorld SessThread SessProps FlowSpec FlowProof RecSpec RecProof SeenSpec SeenProof SeenEvent.
Set Implicit Arguments.

(** C112: from any state the daemon can be in, an event changes the queue of a
    client or console (and sends from it) by operations that are due to it, and by
    nothing else: what is said by somebody linked with it, messages about a console
    it is linked with, answers to its own commands, and so on ([due]). *)
Theorem C112_event E w e w' out x o o' p : env_ok E -> reachable E w -> event_ok e -> step E w e = Ok (w', out) ->
  w_heap w x = Some o -> log_b o = false -> w_heap w' x = Some o' -> iov (e_sz E) (s_ring o) = Ok p ->
  exists ops p', iov (e_sz E) (s_ring o') = Ok p' /\
    qrun (e_sz E - 1) (queue_of o p) ops = (queue_of o' p', given_to x e out) /\ Forall (due E w e x) ops.
Proof.
  intros HE R EV X Hx LB Hx' IP. pose proof (reach_WWF HE R) as W. pose proof (proj2 (ww_hok W) x o Hx) as (I1 & _).
  assert (LV : w_heap w' x <> None) by congruence.
  destruct (@event_S E HE w e W (reach_own HE R) x w' out o Hx LB LV X o Hx I1 LB) as (o2 & ops & A1 & A2 & _ & _ & A5 & A6).
  rewrite Hx' in A1. injection A1 as <-. rewrite iov_pending in IP by exact I1. injection IP as <-.
  exists ops, (pending (e_sz E) (s_ring o')). split; [now apply iov_pending|]. auto.
Qed.

(** ... and so it is in any history of the daemon, from its start on: all that is
    ever sent to a client or console, and all that waits to be sent to it, went
    through its queue, empty at first, by operations that were due to it. *)
Theorem C112_history E cs w0 es w' l x o' : env_ok E -> boot E cs = Ok w0 -> Forall event_ok es -> outputs E w0 es = Ok (w', l) ->
  w_heap w' x = Some o' -> log_b o' = false ->
  exists q ops p', unused q /\ iov (e_sz E) (s_ring o') = Ok p' /\
    qrun (e_sz E - 1) q ops = (queue_of o' p', sent_to x l) /\ Forall (due_in E w0 es x) ops.
Proof.
  intros HE B EV X Hx LB. destruct (boot_ok HE cs) as (w1 & B1 & W). rewrite B in B1. injection B1 as <-.
  assert (W' : WWF E w').
  { clear B Hx. revert w0 W l X EV. induction es as [|e es IH]; intros w0 W l X EV; cbn [outputs] in X; [now injection X as <- _|].
    inversion EV as [|? ? EV1 EV2]; subst. apply bind_ok in X. destruct X as ([w1 s1] & A & X). apply bind_ok in X. destruct X as ([w2 l2] & A2 & X).
    cbn [fst snd] in *. injection X as <- _. exact (IH w1 (proj1 (step_facts HE _ W EV1 A)) l2 A2 EV2). }
  pose proof (proj2 (ww_hok W') x o' Hx) as (I1 & _).
  destruct (@history_S E HE x es w0 w' l o' W (@boot_own E HE cs w0 B) EV X Hx LB) as [(o & ops & H1 & H2 & H3 & H4)|(H1 & H2 & q & ops & H3 & H4)].
  - exists (abs (e_sz E) (s_ring o)), ops, (pending (e_sz E) (s_ring o')). split; [|split; [now apply iov_pending|auto]].
    exact (proj2 (@boot_objs E cs _ B x o H1)).
  - exists (abs (e_sz E) (s_ring (new_client E q))), ops, (pending (e_sz E) (s_ring o')). split; [now apply pending_none|]. split; [now apply iov_pending|auto].
Qed.

Lemma lastn_In n (l : list Z) b : In b (lastn n l) -> In b l.
Proof. unfold lastn. intros I. rewrite <- (firstn_skipn (length l - n) l). apply in_or_app. now right. Qed.
Lemma firstn_In n (l : list Z) b : In b (firstn n l) -> In b l.
Proof. intros I. rewrite <- (firstn_skipn n l). apply in_or_app. now left. Qed.
Lemma skipn_In n (l : list Z) b : In b (skipn n l) -> In b l.
Proof. intros I. rewrite <- (firstn_skipn n l). apply in_or_app. now right. Qed.
Lemma qrun_bytes c : forall ops q q' s b, qrun c q ops = (q', s) -> In b s \/ In b (q_pending q') ->
  In b (q_pending q) \/ exists d f, In (OWrite d f) ops /\ In b d.
Proof.
  induction ops as [|y ops IH]; intros q q' s b X I; cbn [qrun] in X.
  - injection X as <- <-. destruct I as [[]|I]. auto.
  - destruct (qstep c q y) as [q1 s1] eqn:Q1. destruct (qrun c q1 ops) as [q2 s2] eqn:Q2. injection X as <- <-.
    assert (ONE : In b s1 \/ In b (q_pending q1) -> In b (q_pending q) \/ exists d f, In (OWrite d f) (y :: ops) /\ In b d).
    { clear - Q1. destruct q as [p e cl qu op]. destruct y as [d f|rs| | | | | |]; cbn in Q1.
      - destruct (accepts _ f); injection Q1 as <- <-; cbn; [|tauto]. intros [[]|I]. apply lastn_In in I. apply in_app_or in I.
        destruct I as [I|I]; [auto|]. apply firstn_In in I. right. exists d, f. auto.
      - injection Q1 as <- <-. cbn. intros [I|I]; left; [exact (firstn_In _ _ _ I)|exact (skipn_In _ _ _ I)].
      - injection Q1 as <- <-. cbn. tauto.
      - injection Q1 as <- <-. cbn. tauto.
      - injection Q1 as <- <-. cbn. tauto.
      - destruct op; injection Q1 as <- <-; cbn; tauto.
      - injection Q1 as <- <-. cbn. tauto.
      - destruct op; injection Q1 as <- <-; cbn; tauto. }
    assert (R : In b s1 \/ In b (q_pending q1) \/ exists d f, In (OWrite d f) ops /\ In b d).
    { destruct I as [I|I]; [apply in_app_or in I; destruct I as [I|I]; [auto|]|]; right; eapply IH; eauto. }
    destruct R as [R|[R|(d & f & R1 & R2)]]; [auto|auto|]. right. exists d, f. split; [now right|exact R2].
Qed.

(** ... in particular, each byte ever sent to it is part of a message that was due
    to it when it was queued. *)
Theorem C112_bytes E cs w0 es w' l x o' b : env_ok E -> boot E cs = Ok w0 -> Forall event_ok es -> outputs E w0 es = Ok (w', l) ->
  w_heap w' x = Some o' -> log_b o' = false -> In b (sent_to x l) ->
  exists d f, due_in E w0 es x (OWrite d f) /\ In b d.
Proof.
  intros HE B EV X Hx LB I. destruct (@C112_history E cs w0 es w' l x o' HE B EV X Hx LB) as (q & ops & p' & U & _ & Q & F).
  destruct (@qrun_bytes _ ops q _ _ b Q (or_introl I)) as [Y|(d & f & Y1 & Y2)].
  - rewrite U in Y. destruct Y.
  - exists d, f. split; [|exact Y2]. rewrite Forall_forall in F. auto.
Qed.

(** ... where what somebody says goes from clients to consoles and from consoles to
    clients only: no user is sent what another user types, but by the console. *)
Theorem C112_sources E w e i x : env_ok E -> reachable E w -> feeds_in w e i x ->
  (is_client_id (w_heap w) x -> is_console_id (w_heap w) i) /\ (is_console_id (w_heap w) x -> is_client_id (w_heap w) i).
Proof.
  intros HE R F. destruct (C28_links_consistent HE R) as (_ & _ & TY).
  assert (NB : forall j, is_client_id (w_heap w) j -> is_console_id (w_heap w) j -> False).
  { intros j (p & P1 & P2) (q & Q1 & Q2). rewrite P1 in Q1. injection Q1 as <-. rewrite client_b_eq in P2. rewrite console_b_eq in Q2.
    destruct (cls_of p); discriminate. }
  assert (NL : forall j, is_log_id (w_heap w) j -> is_console_id (w_heap w) j \/ is_client_id (w_heap w) j -> False).
  { intros j (p & P1 & P2) [(q & Q1 & Q2)|(q & Q1 & Q2)]; rewrite P1 in Q1; injection Q1 as <-; rewrite log_b_eq in P2;
      [rewrite console_b_eq in Q2|rewrite client_b_eq in Q2]; destruct (cls_of p); discriminate. }
  destruct F as [F|[(y & (d & wr & ro & rst & o & _ & O1 & O2 & _) & _) F]].
  - destruct (TY _ _ F) as [[T1 T2]|[T1 [T2|T2]]].
    + split; [intros Y; destruct (NB x Y T2)|auto].
    + split; [auto|intros Y; destruct (NB x T2 Y)].
    + split; [auto|intros Y; destruct (NL x T2); auto].
  - assert (CI : is_client_id (w_heap w) i) by (exists o; auto). destruct (TY _ _ F) as [[T1 T2]|[T1 _]].
    + destruct (NB i CI T2).
    + split; [intros Y; destruct (NB x Y T1)|auto].
Qed.

(** Non-vacuity: user 4 is at console 0 and user 5 at console 2. Each gets what its
    own console says, and the consoles what their own users type. *)
Definition ex_seen : list event :=
  [EvConsole 0 opens; EvConsole 2 opens] ++ connects 0 0 ++ connects 1 2 ++
  [sends 0 [97; 98]; sends 2 [99; 100]; sends 4 [101]; sends 5 [102];
   EvMux 4 None (Some [WAccept 64]) no_reopen (fun _ => []); EvMux 5 None (Some [WAccept 64]) no_reopen (fun _ => []);
   EvMux 2 None (Some [WAccept 64]) no_reopen (fun _ => [])]%Z.
Example C112_example : exists w0 w' l o4 o0, boot ex_env ex_conf = Ok w0 /\ Forall event_ok ex_seen /\
  outputs ex_env w0 ex_seen = Ok (w', l) /\ w_heap w' 4 = Some o4 /\ log_b o4 = false /\ w_heap w' 0 = Some o0 /\ log_b o0 = false /\
  sent_to 4 l = [97; 98]%Z /\ sent_to 5 l = [99; 100]%Z /\ sent_to 2 l = [102]%Z /\ iov 64 (s_ring o0) = Ok [101]%Z.
Proof.
  destruct (boot ex_env ex_conf) as [w0|] eqn:B; [|vm_compute in B; discriminate].
  destruct (outputs ex_env w0 ex_seen) as [[w' l]|] eqn:O.
  2:{ exfalso. vm_compute in B. injection B as <-. vm_compute in O. discriminate. }
  vm_compute in B. injection B as <-.
  do 1 eexists. exists w', l. pose proof O as O2. vm_compute in O2. injection O2 as <- <-.
  do 2 eexists. split; [reflexivity|]. split; [run_ok|]. split; [exact O|].
  repeat (split; [vm_compute; reflexivity|]). vm_compute; reflexivity.
Qed.
Print Assumptions C112_event.
Print Assumptions C112_history.
Print Assumptions C112_bytes.
Print Assumptions C112_sources.
