(** The whole daemon: the invariant of all reachable states. *)
From Verif Require Import Base BaseProof RingModel RingSpec RingProof LogModel LogSpec LogProof
  TelnetModel TelnetSpec TelnetProof EscModel EscSpec EscProof SessModel SessSpec SessInv SessLink SessStep.
Set Implicit Arguments.

Lemma trun_bytes : forall l iac, bytes_ok l -> bytes_ok (snd (fst (trun iac l))).
Proof.
  induction l as [|b l IH]; intros iac H; cbn [trun]; [constructor|].
  inversion H; subst. destruct (TelnetProof.tstep iac b) as [[i1 d1] r1] eqn:T.
  specialize (IH i1 H3). destruct (trun i1 l) as [[i2 d2] r2]. cbn in *.
  assert (D : d1 = [] \/ d1 = [b]).
  { unfold TelnetProof.tstep in T.
    repeat match type of T with (if ?c then _ else _) = _ => destruct c end; injection T as _ <- _; auto. }
  destruct D as [->| ->]; cbn; [exact IH|constructor; assumption].
Qed.

Section Env.
Variable E : env.
Hypothesis HE : env_ok E.
Let SZ := e_sz E.
Notation HOK := (HOK E).
Notation evo := (evo E).

Definition read_danger (h : heap) (i : nat) (ev : rdev) : Prop :=
  exists o d x, h i = Some o /\ client_b o = true /\ ev = RdData d /\
    In x (stream_cmds (pre (s_esc o) d)) /\ cmd_danger E o x.

(** Does the input switch the session between reading and writing? *)
Definition rdp (h : heap) (i : nat) (ev : rdev) (b : bool) (j : nat) : Prop :=
  b = true \/ j <> i \/
  (forall o d, h i = Some o -> client_b o = true -> ev = RdData d ->
     existsb switches (stream_cmds (pre (s_esc o) d)) = false).

Lemma modify_sim h i o f : HOK h -> h i = Some o -> gn (f o) = gn o -> oinv E (f o) -> s_ring (f o) = s_ring o ->
  exists h1, modify h i f = Ok h1 /\ sim E h h1 /\ h1 i = Some (f o).
Proof.
  intros HK Hi HG HO HR. rewrite (modify_ok _ _ _ Hi). eexists; split; [reflexivity|].
  split; [|apply upd_same]. apply sim_upd with o; auto; [apply HK|]. intros _. rewrite HR. apply kept_refl.
Qed.

Lemma eof_evo h i o : HOK h -> h i = Some o ->
  evo any h (upd h i (Some (set_ring o (mark_eof (s_ring o))))).
Proof.
  intros HK Hi. apply upd_evo with o; auto.
  apply (@ring_oinv E HE o OEof _ []); [eapply (proj2 HK); eauto|exact I|intros; exact I|reflexivity].
Qed.

Lemma served_evo (P : bool -> nat -> Prop) h h1 i r : evo any h h1 -> served E P h1 i r -> served E P h i r.
Proof.
  intros A B. unfold served in *. destruct (snd r).
  2:{ eapply evo_trans; [|exact B]. eapply evo_weak; [|exact A]. intros; exact I. }
  destruct B as (B1 & o & B2 & B3 & B4). split.
  - eapply evo_trans; [|exact B1]. eapply evo_weak; [|exact A]. intros; exact I.
  - destruct (h i) as [oi|] eqn:Hi; [|rewrite (ev_new A i Hi) in B2; discriminate].
    destruct (ev_keep A i Hi) as (o' & X & Y). rewrite B2 in X. injection X as <-.
    exists oi. split; [reflexivity|]. split; [congruence|exact B4].
Qed.

(** read_from_obj *)
Lemma read_ok rst h i o ev ro : HOK h -> h i = Some o -> (forall d, ev = RdData d -> bytes_ok d) ->
  chk (read_from_obj E rst h i ev ro) (served E (rdp h i ev) h i) (read_danger h i ev).
Proof.
  intros HK Hi Hb. unfold read_from_obj. rewrite (at_ok _ _ Hi). cbn [bind].
  assert (SAME : chk (Ok (h, false)) (served E (rdp h i ev) h i) (read_danger h i ev)) by (apply evo_refl, HK).
  assert (ANY : forall r, served E any h i r -> served E (rdp h i ev) h i r).
  { intros r X. unfold served in *. destruct (snd r); [exact X|]. eapply evo_weak; [|exact X]. intros; exact I. }
  destruct (negb (o_open (s_ring o))); [exact SAME|].
  destruct (telnet_b o && negb (state_up o)); [exact SAME|].
  destruct ev as [| | |d]; [exact SAME| | |].
  - destruct (shutdown_ok HE i ro HK Hi) as (r & -> & A & _). apply ANY, A.
  - pose proof (eof_evo i HK Hi) as E1. destruct (o_in (s_ring o) =? o_out (s_ring o)).
    + destruct (shutdown_ok HE i ro (ev_hok E1) (upd_same h i _)) as (r & -> & A & _). cbn.
      apply ANY. eapply served_evo; eauto.
    + apply (ANY (_, false)), E1.
  - specialize (Hb d eq_refl). destruct (client_b o) eqn:CB.
    + rewrite pce_ok. cbn [bind]. assert (Cc : cls_of o = ClClient) by now apply client_b_cls.
      destruct (@modify_sim h i o (fun o => set_esc o (dangling (pre (s_esc o) d))) HK Hi) as (h1 & A1 & S1 & H1);
        [reflexivity|exact (proj2 HK i o Hi)|reflexivity|].
      replace (modify h i (fun o0 => set_esc o0 (dangling (pre (s_esc o) d)))) with (Ok h1).
      2:{ rewrite <- A1. unfold modify. now rewrite (at_ok _ _ Hi). }
      cbn [bind].
      eapply chk_bind.
      * eapply chk_mono; [apply (exec_cmds_ok HE rst i _ (sim_HOK S1 HK) H1 Cc)|intros a Ha; exact Ha|].
        intros (x & Hx & Dx). exists o, d, x. auto 8.
      * intros h2 _ [E2 (p & o2 & X & Y & _)].
        destruct (deliver_ok HE i (ev_hok E2) Y (stream_bytes E (s_esc o) Hb)) as (h3 & -> & S3). cbn.
        eapply evo_trans; [apply (sim_evo _ HK S1)|]. eapply evo_trans; [|apply (sim_evo _ (ev_hok E2) S3)].
        eapply evo_weak; [|exact E2]. intros b j [Z|[Z|Z]]; [now left|right; now left|].
        right. right. apply Z; auto.
    + destruct (telnet_b o) eqn:TB.
      * assert (OI : oinv E o) by exact (proj2 HK i o Hi). assert (IO : iac_ok (s_iac o)) by apply OI.
        rewrite (pte_ok (s_iac o) d IO). pose proof (trun_ok d (s_iac o) IO) as IO2. pose proof (trun_bytes (s_iac o) Hb) as TBy.
        destruct (trun (s_iac o) d) as [[iac d'] rs]. cbn in IO2, TBy. cbn [bind].
        destruct (@modify_sim h i o (fun o => set_iac o iac) HK Hi) as (h1 & A1 & S1 & H1);
          [reflexivity|destruct OI as (X1 & _ & X2); split; [exact X1|split; [exact IO2|exact X2]]|reflexivity|].
        rewrite A1. cbn [bind].
        destruct (@fold_sim E _ (fun h m => put_data E h i m false) rs h1 (sim_RI S1)) as (h2 & -> & S2).
        { intros m h2 _ S. destruct (sim_some i S H1) as (o2 & X & _).
          destruct (put_data_ok HE i m false (sim_RI S) X) as (h3 & Z & Z2 & _). eauto. }
        cbn [bind]. destruct (sim_some i S2 H1) as (o2 & H2 & _).
        pose proof (sim_trans S1 S2) as S12.
        destruct (deliver_ok HE i (sim_HOK S12 HK) H2 TBy) as (h3 & -> & S3). cbn.
        apply (sim_evo _ HK (sim_trans S12 S3)).
      * destruct (deliver_ok HE i HK Hi Hb) as (h1 & -> & S1). cbn. apply (sim_evo _ HK S1).
Qed.

(** write_to_obj *)
Lemma flush_ok h i o rs ro : HOK h -> h i = Some o ->
  exists h' sent dead, flush_obj E h i rs ro = Ok (h', sent, dead) /\ served E any h i (h', dead).
Proof.
  intros HK Hi. unfold flush_obj. rewrite (at_ok _ _ Hi). cbn [bind].
  destruct (negb (o_open (s_ring o))) eqn:Op; [do 3 eexists; split; [reflexivity|]; apply evo_refl, HK|].
  destruct (telnet_b o && _) eqn:TB.
  { apply andb_prop in TB. destruct TB as [TB _]. apply andb_prop in TB. destruct TB as [_ TB]. apply console_b_cls in TB.
    destruct (open_console_ok HE i ro HK Hi TB) as (h1 & -> & E1 & _). cbn [bind].
    do 3 eexists; split; [reflexivity|]. exact E1. }
  assert (OI : oinv E o) by exact (proj2 HK i o Hi). fold SZ.
  destruct (@flush_abs SZ (s_ring o) rs (HSZ HE) (proj1 OI)) as (dead & r' & W & I' & A & _ & _ & _ & K & _).
  rewrite W. cbn [bind]. set (sent := snd (qstep (SZ - 1) (abs SZ (s_ring o)) (OFlush rs))).
  assert (O1 : oinv E (set_ring o r')).
  { apply (@ring_oinv E HE o (OFlush rs) r' sent); [exact OI|exact I|intros; exact I|].
    cbn. unfold SZ in W. rewrite W. reflexivity. }
  assert (G1 : gn (set_ring o r') = gn o) by (apply gn_ring; rewrite K; reflexivity).
  assert (QO : o_open r' = o_open (s_ring o) /\ o_eof r' = o_eof (s_ring o)).
  { split; [apply (f_equal q_open) in A|apply (f_equal q_eof) in A]; exact A. }
  assert (E1 : evo any h (upd h i (Some (set_ring o r')))).
  { apply upd_evo with o; auto. intros _ _. cbn. destruct QO as [-> ->]. auto. }
  destruct dead.
  - destruct (shutdown_ok HE i ro (ev_hok E1) (upd_same h i _)) as ([h2 b] & -> & B & _). cbn [bind].
    do 3 eexists; split; [reflexivity|]. cbn. eapply served_evo; eauto.
  - do 3 eexists; split; [reflexivity|]. exact E1.
Qed.

(** ** Threads *)
Definition step_console (x : SessModel.tstep) : nat :=
  match x with ToConsole k | FromConsole k | CheckState k => k end.
Definition is_link (x : SessModel.tstep) : bool :=
  match x with CheckState _ => false | _ => true end.
Definition bprog (ks : list nat) : list SessModel.tstep := flat_map (fun k => [ToConsole k; CheckState k]) ks.

(** What a client's remaining set-up steps require of its links so far. *)
Definition todo_ok (n : gnode) (todo : list SessModel.tstep) : Prop :=
  if g_bc n then
    exists ks, (todo = bprog ks \/ exists k, todo = CheckState k :: bprog ks) /\
      NoDup ks /\ (forall k, In k ks -> ~ In k (g_rd n))
  else
    existsb is_link todo = false \/
    (exists k, todo = [FromConsole k; CheckState k] /\ g_wr n = [] /\ incl (g_rd n) [k]) \/
    (exists k, todo = [ToConsole k; FromConsole k; CheckState k] /\ g_wr n = [] /\ g_rd n = []).

Definition consoles_ok (g : graph) (ks : list nat) : Prop :=
  forall k, In k ks -> exists n, g k = Some n /\ g_cls n = ClCons.

Definition thr_ok (g : graph) (next : nat) (x : thr) : Prop :=
  match x with
  | TStart _ _ | TEnd _ => True
  | TGranted q sel => sel <> [] /\ NoDup sel /\ consoles_ok g sel /\ r_cmd q <> CmdQuery /\
      (length sel = 1 -> r_bcast q = false) /\ (length sel <> 1 -> r_cmd q = CmdConnect /\ r_bcast q = true)
  | TRun c todo => c < next /\ consoles_ok g (map step_console todo) /\
      (forall n, g c = Some n -> g_cls n = ClClient /\ todo_ok n todo)
  end.

Definition pending_link (c : nat) (ts : list thr) : Prop :=
  exists t todo, nth_error ts t = Some (TRun c todo) /\ existsb is_link todo = true.

Record WWF (w : world) : Prop := mkWWF {
  ww_hok : HOK (w_heap w);
  ww_live : forall i, In i (w_objs w) <-> live (w_heap w) i;
  ww_nd : NoDup (w_objs w);
  ww_fresh : forall i, In i (w_objs w) -> i < w_next w;
  ww_thr : forall t x, nth_error (w_thr w) t = Some x -> thr_ok (G (w_heap w)) (w_next w) x;
  ww_one : forall t t' c a b, nth_error (w_thr w) t = Some (TRun c a) ->
           nth_error (w_thr w) t' = Some (TRun c b) -> t = t';
  ww_open : forall c o, w_heap w c = Some o -> client_b o = true -> o_open (s_ring o) = true;
  ww_eof : forall c o, w_heap w c = Some o -> client_b o = true -> unlinked o ->
           o_eof (s_ring o) = true \/ pending_link c (w_thr w) }.

Lemma todo_evo n n' todo : gevo n n' -> todo_ok n todo -> todo_ok n' todo.
Proof.
  intros (B & C & H) T. unfold todo_ok in *. rewrite B. destruct (g_bc n).
  - destruct H as [[I1 I2]|[X _]]; [|discriminate]. destruct T as (ks & T1 & T2 & T3). exists ks. repeat split; auto.
    intros k Hk Y. apply (T3 k Hk). auto.
  - destruct H as [[I1 I2]|[_ X]].
    + destruct T as [T|[(k & T1 & T2 & T3)|(k & T1 & T2 & T3)]]; [auto| |]; right; [left|right]; exists k; split; auto.
      * rewrite T2 in I2. split; [destruct (g_wr n') as [|z l]; [reflexivity|destruct (I2 z); now left]|].
        eapply incl_tran; eauto.
      * rewrite T2 in I2. rewrite T3 in I1. split; [destruct (g_wr n') as [|z l]; [reflexivity|destruct (I2 z); now left]|].
        destruct (g_rd n') as [|z l]; [reflexivity|destruct (I1 z); now left].
    + destruct T as [T|[(k & T1 & T2 & T3)|(k & T1 & T2 & T3)]]; [auto|contradiction|contradiction].
Qed.

Lemma consoles_evo P h h' ks : evo P h h' -> consoles_ok (G h) ks -> consoles_ok (G h') ks.
Proof.
  intros A H k Hk. destruct (H k Hk) as (n & X & Y). apply G_some in X. destruct X as (o & X & <-).
  destruct (ev_keep A k X) as (o' & Z & W). exists (gn o'). split; [now apply G_of|]. cbn in *. congruence.
Qed.

Lemma thr_evo (P : bool -> nat -> Prop) h h' next next' x : evo P h h' -> next <= next' ->
  (forall c todo, x = TRun c todo -> P true c) ->
  thr_ok (G h) next x -> thr_ok (G h') next' x.
Proof.
  intros A L HP. destruct x as [q m|q sel|c todo|e]; cbn; auto.
  - intros (S1 & S2 & S3 & S4). split; [exact S1|]. split; [exact S2|]. split; [|exact S4]. eapply consoles_evo; eauto.
  - intros (S1 & S2 & S3). split; [lia|]. split; [eapply consoles_evo; eauto|].
    intros n' Hn'. apply G_some in Hn'. destruct Hn' as (o' & X & <-).
    destruct (h c) as [o|] eqn:Hc; [|rewrite (ev_new A c Hc) in X; discriminate].
    destruct (S3 (gn o) (G_of _ _ Hc)) as [C1 C2].
    destruct (ev_cl A c (HP c todo eq_refl) Hc X C1) as (Y & _). split; [|eapply todo_evo; eauto].
    destruct Y as (_ & Y & _). congruence.
Qed.

Lemma live_some h i : live h i <-> exists o, h i = Some o.
Proof.
  unfold live. destruct (h i) as [o|]; split.
  - eauto.
  - congruence.
  - intros H. congruence.
  - intros [o H]. discriminate.
Qed.

(** A new heap, the same objects and threads. *)
Lemma WWF_heap (P : bool -> nat -> Prop) w h' : (forall i, P true i) -> WWF w -> evo P (w_heap w) h' -> WWF (set_heap w h').
Proof.
  intros HP W A. constructor; cbn [w_heap w_next w_objs w_thr destroy set_heap].
  - apply (ev_hok A).
  - intros i. rewrite (ww_live W i). rewrite !live_some. split.
    + intros [o Ho]. destruct (ev_keep A i Ho) as (o' & X & _). eauto.
    + intros [o' Ho]. destruct (w_heap w i) eqn:X; [eauto|]. rewrite (ev_new A i X) in Ho. discriminate.
  - apply W.
  - apply W.
  - intros t x Hx. eapply thr_evo; [exact A|apply le_n|intros; apply HP|]. eapply (ww_thr W); eauto.
  - apply W.
  - intros c o' Ho' CB. destruct (w_heap w c) as [o|] eqn:X; [|rewrite (ev_new A c X) in Ho'; discriminate].
    assert (Cc : cls_of o = ClClient).
    { destruct (ev_keep A c X) as (o2 & Y & Z). rewrite Ho' in Y. injection Y as <-. apply client_b_cls in CB. congruence. }
    destruct (ev_cl A c (HP c) X Ho' Cc) as (_ & B & _). rewrite B. apply (ww_open W c X). now apply client_b_cls.
  - intros c o' Ho' CB U. destruct (w_heap w c) as [o|] eqn:X; [|rewrite (ev_new A c X) in Ho'; discriminate].
    assert (Cc : cls_of o = ClClient).
    { destruct (ev_keep A c X) as (o2 & Y & Z). rewrite Ho' in Y. injection Y as <-. apply client_b_cls in CB. congruence. }
    destruct (ev_cl A c (HP c) X Ho' Cc) as (_ & _ & B). destruct (B U) as [|[U2 F]]; [auto|].
    destruct (ww_eof W c X) as [|]; auto; [now apply client_b_cls|congruence].
Qed.

(** A client destroyed. *)
Lemma WFg_remove g x n : WFg g -> g x = Some n -> g_cls n = ClClient -> g_rd n = [] -> g_wr n = [] ->
  WFg (fun i => if i =? x then None else g i).
Proof.
  intros W Hx Hc R1 R2. constructor.
  - intros a na b Ha Hb. destruct (Nat.eqb_spec a x); [discriminate|].
    destruct (wg_r W a b Ha Hb) as (nb & A & B & C). exists nb. split; [|auto].
    destruct (Nat.eqb_spec b x) as [->|]; [|exact A]. rewrite Hx in A. injection A as <-. rewrite R2 in B. destruct B.
  - intros b nb a Hb Ha. destruct (Nat.eqb_spec b x); [discriminate|].
    destruct (wg_w W b a Hb Ha) as (na & A & B). exists na. split; [|auto].
    destruct (Nat.eqb_spec a x) as [->|]; [|exact A]. rewrite Hx in A. injection A as <-. rewrite R1 in B. destruct B.
  - intros a m Ha. destruct (Nat.eqb_spec a x); [discriminate|]. apply (wg_nd W a Ha).
  - intros a m Ha. destruct (Nat.eqb_spec a x); [discriminate|]. apply (wg_cl W a Ha).
  - intros a m l Ha Hl. destruct (Nat.eqb_spec a x); [discriminate|]. destruct (wg_log W a Ha Hl) as (nl & A & B).
    exists nl. split; [|exact B]. destruct (Nat.eqb_spec l x) as [->|]; [|exact A]. congruence.
Qed.

Lemma WWF_destroy w h' i : WWF w -> dead_ok E (w_heap w) h' i -> WWF (destroy (set_heap w h') i).
Proof.
  intros W (A & o & Hi & Ci & o' & Hi' & U).
  assert (Ci' : cls_of o' = ClClient).
  { destruct (ev_keep A i Hi) as (p & X & Y). rewrite Hi' in X. injection X as <-. congruence. }
  assert (HK' : HOK (upd h' i None)).
  { destruct (ev_hok A) as [X Y]. split.
    - eapply WFg_geq; [|apply (@WFg_remove (G h') i (gn o') X (G_of _ _ Hi') Ci' (proj1 U) (proj2 U))].
      intros j. rewrite G_upd. reflexivity.
    - intros j p. unfold upd. destruct (j =? i); [discriminate|]. apply Y. }
  constructor; cbn [w_heap w_next w_objs w_thr destroy set_heap].
  - exact HK'.
  - intros j. rewrite del_In, (ww_live W j), !live_some. unfold upd. destruct (Nat.eqb_spec j i) as [->|N].
    + split; [tauto|intros [? ?]; discriminate].
    + split.
      * intros [[p Hp] _]. destruct (ev_keep A j Hp) as (p' & X & _). eauto.
      * intros [p Hp]. split; [|exact N]. destruct (w_heap w j) eqn:X; [eauto|]. rewrite (ev_new A j X) in Hp. discriminate.
  - apply NoDup_del, W.
  - intros j Hj. apply del_In in Hj. now apply (ww_fresh W).
  - intros t x Hx. pose proof (ww_thr W t Hx) as T. destruct x as [q m|q sel|c todo|e]; cbn in *; auto.
    + destruct T as (S1 & S2 & S3 & S4). split; [exact S1|]. split; [exact S2|]. split; [|exact S4].
      intros k Hk. destruct (consoles_evo A S3 k Hk) as (n & X & Y). exists n. split; [|exact Y].
      rewrite G_upd. destruct (Nat.eqb_spec k i) as [->|]; [|exact X].
      rewrite (G_of _ _ Hi') in X. injection X as <-. cbn in Y. congruence.
    + destruct T as (S1 & S2 & S3). split; [exact S1|]. split.
      * intros k Hk. destruct (consoles_evo A S2 k Hk) as (n & X & Y). exists n. split; [|exact Y].
        rewrite G_upd. destruct (Nat.eqb_spec k i) as [->|]; [|exact X].
        rewrite (G_of _ _ Hi') in X. injection X as <-. cbn in Y. congruence.
      * intros n Hn. rewrite G_upd in Hn. destruct (Nat.eqb_spec c i) as [->|N]; [discriminate|].
        apply G_some in Hn. destruct Hn as (p' & X & <-).
        destruct (w_heap w c) as [p|] eqn:Hc; [|rewrite (ev_new A c Hc) in X; discriminate].
        destruct (S3 (gn p) (G_of _ _ Hc)) as [C1 C2].
        destruct (ev_cl A c N Hc X C1) as (Y & _). split; [|eapply todo_evo; eauto].
        destruct Y as (_ & Y & _). congruence.
  - apply W.
  - intros c p' Hp' CB. unfold upd in Hp'. destruct (Nat.eqb_spec c i) as [|N]; [discriminate|].
    destruct (w_heap w c) as [p|] eqn:X; [|rewrite (ev_new A c X) in Hp'; discriminate].
    assert (Cc : cls_of p = ClClient).
    { destruct (ev_keep A c X) as (o2 & Y & Z). rewrite Hp' in Y. injection Y as <-. apply client_b_cls in CB. congruence. }
    destruct (ev_cl A c N X Hp' Cc) as (_ & B & _). rewrite B. apply (ww_open W c X). now apply client_b_cls.
  - intros c p' Hp' CB Up. unfold upd in Hp'. destruct (Nat.eqb_spec c i) as [|N]; [discriminate|].
    destruct (w_heap w c) as [p|] eqn:X; [|rewrite (ev_new A c X) in Hp'; discriminate].
    assert (Cc : cls_of p = ClClient).
    { destruct (ev_keep A c X) as (o2 & Y & Z). rewrite Hp' in Y. injection Y as <-. apply client_b_cls in CB. congruence. }
    destruct (ev_cl A c N X Hp' Cc) as (_ & _ & B). destruct (B Up) as [|[U2 F]]; [auto|].
    destruct (ww_eof W c X) as [|]; auto; [now apply client_b_cls|congruence].
Qed.
End Env.
