(** Steps of the client threads, all events, and start-up. *)
From Verif Require Import Base BaseProof RingModel RingSpec RingProof LogModel LogSpec LogProof
  TelnetModel TelnetSpec TelnetProof EscModel EscSpec EscProof SessModel SessSpec SessInv SessLink SessStep SessWorld.
Set Implicit Arguments.

Section Env.
Variable E : env.
Hypothesis HE : env_ok E.
Let SZ := e_sz E.
Notation HOK := (HOK E).
Notation evo := (evo E).
Notation WWF := (WWF E).

Definition puts (l : list thr) (t : nat) (x : thr) : list thr := firstn t l ++ x :: skipn (S t) l.
Lemma nth_puts l t x y t' : nth_error l t = Some y ->
  nth_error (puts l t x) t' = if t' =? t then Some x else nth_error l t'.
Proof.
  intros H. assert (L : t < length l) by (apply nth_error_Some; congruence). unfold puts.
  destruct (Nat.eqb_spec t' t) as [->|N].
  - rewrite nth_error_app2 by (rewrite firstn_length; lia). rewrite firstn_length.
    replace (t - Nat.min t (length l)) with 0 by lia. reflexivity.
  - destruct (le_lt_dec t t').
    + rewrite nth_error_app2 by (rewrite firstn_length; lia). rewrite firstn_length.
      replace (t' - Nat.min t (length l)) with (S (t' - S t)) by lia. cbn.
      rewrite <- (firstn_skipn (S t) l) at 2. rewrite nth_error_app2 by (rewrite firstn_length; lia).
      rewrite firstn_length. f_equal. lia.
    + rewrite nth_error_app1 by (rewrite firstn_length; lia).
      rewrite <- (firstn_skipn t l) at 2. rewrite nth_error_app1 by (rewrite firstn_length; lia). reflexivity.
Qed.

Lemma NoDup_app (l r : list nat) : NoDup l -> NoDup r -> (forall i, In i l -> In i r -> False) -> NoDup (l ++ r).
Proof.
  induction l as [|a l IH]; cbn; intros A B D; [exact B|]. inversion A; subst. constructor.
  - intros X. apply in_app_iff in X. destruct X; [contradiction|]. eapply D; [now left|eassumption].
  - apply IH; auto. intros i Hi Hj. eapply D; [right; exact Hi|exact Hj].
Qed.

(** A thread moves on, the objects stay. *)
Lemma WWF_thr w t y x : WWF w -> nth_error (w_thr w) t = Some y ->
  thr_ok (G (w_heap w)) (w_next w) x ->
  (forall c a, x = TRun c a -> exists b, y = TRun c b) ->
  (forall c b o, y = TRun c b -> existsb is_link b = true -> w_heap w c = Some o -> client_b o = true ->
     (exists a, x = TRun c a /\ existsb is_link a = true) \/ ~ unlinked o) ->
  WWF (set_thr w t x).
Proof.
  intros W Hy Hx Hone Hp. constructor; cbn [w_heap w_next w_objs w_thr set_thr]; try apply W; fold (puts (w_thr w) t x).
  - intros t' x' Hx'. rewrite (nth_puts _ _ _ _ Hy) in Hx'. destruct (Nat.eqb_spec t' t) as [->|].
    + injection Hx' as <-. exact Hx.
    + eapply (ww_thr W); eauto.
  - intros t1 t2 c a b H1 H2. rewrite (nth_puts _ _ _ _ Hy) in H1. rewrite (nth_puts _ _ _ _ Hy) in H2.
    destruct (Nat.eqb_spec t1 t) as [->|N1]; destruct (Nat.eqb_spec t2 t) as [->|N2]; auto.
    + injection H1 as ->. destruct (Hone c a eq_refl) as (b' & ->). symmetry. eapply (ww_one W); eauto.
    + injection H2 as ->. destruct (Hone c b eq_refl) as (b' & ->). eapply (ww_one W); eauto.
    + eapply (ww_one W); eauto.
  - intros c o Ho CB U. destruct (ww_eof W c Ho CB U) as [|(t' & todo & A & B)]; [auto|].
    destruct (Nat.eq_dec t' t) as [->|N].
    + rewrite Hy in A. injection A as ->. destruct (Hp c todo o eq_refl B Ho CB) as [(a & -> & Ha)|X]; [|contradiction].
      right. exists t, a. rewrite (nth_puts _ _ _ _ Hy), Nat.eqb_refl. auto.
    + right. exists t', todo. rewrite (nth_puts _ _ _ _ Hy). destruct (Nat.eqb_spec t' t); [contradiction|auto].
Qed.

(** Selection and validation of a request *)
Lemma query_ok h m : forall l, (forall i, In i l -> live h i) -> NoDup l ->
  exists sel, query h m l = Ok sel /\ NoDup sel /\
    (forall k, In k sel <-> In k l /\ m k = true /\ exists o, h k = Some o /\ console_b o = true).
Proof.
  induction l as [|i l IH]; intros HL ND; cbn [query].
  - exists []. split; [reflexivity|]. split; [constructor|]. cbn. tauto.
  - inversion ND as [|? ? N1 N2]; subst. destruct (proj1 (live_some h i) (HL i (or_introl eq_refl))) as (o & Ho).
    rewrite (at_ok _ _ Ho). cbn [bind].
    destruct IH as (sel & -> & A & B); [intros; apply HL; now right|exact N2|]. cbn [bind].
    eexists. split; [reflexivity|]. destruct (console_b o && m i) eqn:X.
    + apply andb_prop in X. destruct X as [X1 X2]. split.
      * constructor; [|exact A]. intros Y. apply B in Y. tauto.
      * intros k. cbn [In]. rewrite B. split.
        -- intros [<-|(Y1 & Y2 & Y3)]; [split; [now left|]; split; [exact X2|eauto]|auto].
        -- intros ([<-|Y1] & Y2 & Y3); auto.
    + split; [exact A|]. intros k. rewrite B. cbn [In]. split; [tauto|].
      intros ([<-|Y1] & Y2 & (o2 & Y3 & Y4)); [|eauto]. rewrite Ho in Y3. injection Y3 as <-.
      rewrite Y2, Y4 in X. discriminate.
Qed.

Lemma check_writers_ok h l : (forall w, In w l -> exists o, h w = Some o /\ client_b o = true) ->
  check_writers h l = Ok tt.
Proof.
  induction l as [|w l IH]; intros H; cbn; [reflexivity|].
  destruct (H w (or_introl eq_refl)) as (o & A & B). rewrite (at_ok _ _ A). cbn. rewrite B. apply IH.
  intros; apply H; now right.
Qed.
Lemma any_busy_ok h : HOK h -> forall l, (forall k, In k l -> exists o, h k = Some o /\ console_b o = true) ->
  exists b, any_busy h l = Ok b /\
    (b = true <-> exists k o, In k l /\ h k = Some o /\ s_writers o <> []).
Proof.
  intros HK. induction l as [|k l IH]; intros H; cbn [any_busy].
  - exists false. split; [reflexivity|]. split; [discriminate|]. intros (k & o & [] & _).
  - destruct (H k (or_introl eq_refl)) as (o & A & B). rewrite (at_ok _ _ A). cbn [bind].
    rewrite check_writers_ok.
    2:{ intros w Hw. destruct (write_live k w HK A Hw) as (ow & X & _ & T). exists ow. split; [exact X|].
        apply console_b_cls in B. rewrite B in T. apply client_b_cls. destruct (cls_of ow); cbn in T; congruence. }
    cbn [bind]. destruct IH as (b & -> & C); [intros; apply H; now right|]. cbn [bind].
    eexists. split; [reflexivity|]. rewrite orb_true_iff, C. split.
    + intros [X|(k' & o' & X1 & X2 & X3)]; [|exists k', o'; auto using in_cons].
      exists k, o. split; [now left|]. split; [exact A|]. intros Y. rewrite Y in X. discriminate.
    + intros (k' & o' & [<-|X1] & X2 & X3); [|right; eauto]. left. rewrite A in X2. injection X2 as <-.
      destruct (s_writers o); [congruence|reflexivity].
Qed.

(** The verdict on a request. *)
Lemma admit_ok w q m : WWF w -> exists r, admit (w_heap w) (w_objs w) q m = Ok r /\
  match r with
  | inl e => e <> ERR_LOCAL
  | inr (q', sel) => NoDup sel /\ sel <> [] /\ (forall k, In k sel <-> matching w m k) /\
      r_cmd q' = r_cmd q /\ r_force q' = r_force q /\ r_join q' = r_join q /\ r_quiet q' = r_quiet q /\
      r_cmd q <> CmdQuery /\
      r_bcast q' = (if length sel =? 1 then false else r_bcast q) /\
      (length sel = 1 \/ (r_cmd q = CmdConnect /\ r_bcast q = true)) /\
      (r_cmd q = CmdConnect -> r_force q = false -> r_join q = false ->
         forall k, In k sel -> ~ busy (w_heap w) k)
  end.
Proof.
  intros W. unfold admit.
  destruct (@query_ok (w_heap w) m (w_objs w)) as (sel & -> & ND & SP); [intros i; apply (ww_live W)|apply (ww_nd W)|].
  cbn [bind].
  assert (SP' : forall k, In k sel <-> matching w m k) by exact SP. clear SP.
  set (q1 := if length sel =? 1 then _ else _). cbv zeta.
  assert (Q1 : r_cmd q1 = r_cmd q /\ r_force q1 = r_force q /\ r_join q1 = r_join q /\ r_quiet q1 = r_quiet q /\
     r_bcast q1 = (if length sel =? 1 then false else r_bcast q)).
  { unfold q1. destruct (length sel =? 1); cbn; auto. }
  destruct Q1 as (Q1 & Q2 & Q3 & Q4 & Q5).
  destruct (Nat.eqb_spec (length sel) 0) as [Z|NZ]; [eexists; split; [reflexivity|discriminate]|].
  assert (NE : sel <> []) by (intros ->; apply NZ; reflexivity).
  destruct (r_cmd q1) eqn:RC.
  - destruct ((length sel =? 1) || r_bcast q1) eqn:OK; [|eexists; split; [reflexivity|discriminate]].
    assert (L : length sel = 1 \/ (r_cmd q = CmdConnect /\ r_bcast q = true)).
    { destruct (Nat.eqb_spec (length sel) 1); [auto|]. right. split; [congruence|]. rewrite <- Q5. exact OK. }
    assert (FIN : (r_cmd q = CmdConnect -> r_force q = false -> r_join q = false ->
         forall k, In k sel -> ~ busy (w_heap w) k) ->
      NoDup sel /\ sel <> [] /\ (forall k, In k sel <-> matching w m k) /\
      r_cmd q1 = r_cmd q /\ r_force q1 = r_force q /\ r_join q1 = r_join q /\ r_quiet q1 = r_quiet q /\
      r_cmd q <> CmdQuery /\ r_bcast q1 = (if length sel =? 1 then false else r_bcast q) /\
      (length sel = 1 \/ (r_cmd q = CmdConnect /\ r_bcast q = true)) /\
      (r_cmd q = CmdConnect -> r_force q = false -> r_join q = false ->
         forall k, In k sel -> ~ busy (w_heap w) k)).
    { intros F. repeat (split; [assumption || congruence|]). exact F. }
    destruct (r_force q1 || r_join q1) eqn:FJ.
    + eexists. split; [reflexivity|]. cbn beta iota. apply FIN. intros _ F J. rewrite Q2, Q3, F, J in FJ. discriminate.
    + destruct (any_busy_ok (ww_hok W) sel) as (b & -> & B).
      { intros k Hk. apply SP' in Hk. apply Hk. }
      cbn [bind]. destruct b; eexists; (split; [reflexivity|]); cbn beta iota; [discriminate|].
      apply FIN. intros _ _ _ k Hk (o & X1 & X2). assert (false = true) by (apply B; eauto). discriminate.
  - destruct (Nat.eqb_spec (length sel) 1) as [L|]; [|eexists; split; [reflexivity|discriminate]].
    eexists. split; [reflexivity|]. cbn beta iota. rewrite L. cbn [Nat.eqb] in Q5 |- *.
    split; [exact ND|]. split; [exact NE|]. split; [exact SP'|]. repeat (split; [congruence|]).
    split; [left; reflexivity|]. intros X. congruence.
  - eexists; split; [reflexivity|discriminate].
Qed.

(** check_console_state *)
Lemma check_ok h k ok c oc ro : HOK h -> h k = Some ok -> cls_of ok = ClCons -> h c = Some oc ->
  exists h', check_console_state E h k c ro = Ok h' /\ evo any h h' /\ geq (G h') (G h).
Proof.
  intros HK Hk Ck Hc. unfold check_console_state. rewrite (at_ok _ _ Hk). cbn [bind].
  assert (SAME : exists h', Ok h = Ok h' /\ evo any h h' /\ geq (G h') (G h)).
  { exists h. split; [reflexivity|]. split; [now apply evo_refl|apply geq_refl]. }
  destruct (put_data_ok HE c (e_txt E (NDown k)) true (proj2 HK) Hc) as (h1 & A1 & S1 & _).
  assert (TELL : exists h', put_data E h c (e_txt E (NDown k)) true = Ok h' /\ evo any h h' /\ geq (G h') (G h)).
  { exists h1. split; [exact A1|]. split; [now apply sim_evo|]. apply geq_sym, S1. }
  assert (OPEN : exists h', (do h1 <- put_data E h c (e_txt E (NDown k)) true; open_console E h1 k ro) = Ok h' /\ evo any h h' /\ geq (G h') (G h)).
  { rewrite A1. cbn [bind]. destruct (sim_some k S1 Hk) as (ok1 & X & Y). apply gn_parts in Y. destruct Y as (Y & _).
    destruct (open_console_ok HE k ro (sim_HOK S1 HK) X) as (h2 & -> & E2 & Q2); [congruence|].
    exists h2. split; [reflexivity|]. split; [eapply evo_trans; [apply (sim_evo any HK S1)|exact E2]|].
    eapply geq_trans; [exact Q2|]. apply geq_sym, S1. }
  destruct (s_type ok); try destruct (negb (o_open (s_ring ok))); try destruct (s_state ok); assumption.
Qed.

Lemma check_dead h k ok c ro : h k = Some ok -> h c = None ->
  chk (check_console_state E h k c ro) (fun h' => h' = h) True.
Proof.
  intros Hk Hc. unfold check_console_state. rewrite (at_ok _ _ Hk). cbn [bind].
  assert (P : put_data E h c (e_txt E (NDown k)) true = UB UseAfterFree).
  { unfold put_data, at_. now rewrite Hc. }
  rewrite P. destruct (s_type ok); try destruct (negb (o_open (s_ring ok))); try destruct (s_state ok); cbn; auto.
Qed.

Lemma tstep_dead h k ok c x ro : step_console x = k -> h k = Some ok -> h c = None ->
  chk (do_tstep E h c x ro) (fun h' => h' = h) True.
Proof.
  intros Hx Hk Hc. destruct x as [j|j|j]; cbn in Hx; subst j; cbn [do_tstep].
  - unfold link_objs, at_. rewrite Hc. cbn. exact I.
  - unfold link_objs. rewrite (at_ok _ _ Hk). unfold at_. rewrite Hc. cbn. exact I.
  - eapply check_dead; eauto.
Qed.

Lemma evo_nodes h h' i o n' : evo (fun _ j => j <> i) h h' -> h i = Some o -> G h' i = Some n' -> g_cls n' = cls_of o.
Proof.
  intros A Hi Hn. destruct (ev_keep A i Hi) as (o' & X & Y). rewrite (G_of _ _ X) in Hn. injection Hn as <-. exact Y.
Qed.

Lemma bprog_link ks : ks <> [] -> existsb is_link (bprog ks) = true.
Proof. destruct ks; [congruence|reflexivity]. Qed.

(** A link step of the thread that sets up client [c]. *)
Lemma link_step w t c x todo o ro : WWF w -> nth_error (w_thr w) t = Some (TRun c (x :: todo)) ->
  w_heap w c = Some o -> is_link x = true ->
  exists h', do_tstep E (w_heap w) c x ro = Ok h' /\ WWF (set_thr (set_heap w h') t (TRun c todo)) /\
    evo (fun _ j => j <> c) (w_heap w) h'.
Proof.
  intros W Ht Hc Hx. set (h := w_heap w) in *. pose proof (ww_hok W) as HK. fold h in HK.
  destruct (ww_thr W t Ht) as (LT & CO & TK). fold h in CO, TK.
  destruct (TK (gn o) (G_of _ _ Hc)) as [Cc TO]. cbn in Cc.
  destruct (CO (step_console x)) as (nk & Hk & Ck); [now left|]. apply G_some in Hk. destruct Hk as (ok & Hk & <-).
  cbn in Ck. set (k := step_console x) in *.
  assert (NK : c <> k) by (intros ->; rewrite Hc in Hk; injection Hk as <-; congruence).
  (* the two kinds of link *)
  assert (LINK : exists h' n', do_tstep E h c x ro = Ok h' /\ HOK h' /\ evo (fun _ j => j <> c) h h' /\
     G h' c = Some n' /\ g_bc n' = r_bcast (s_req o) /\ todo_ok n' todo /\ (g_rd n' <> [] \/ g_wr n' <> []) /\
     (exists o', h' c = Some o' /\ o_open (s_ring o') = o_open (s_ring o))).
  { destruct x as [j|j|j]; [| |discriminate]; cbn in k; subst k; cbn [do_tstep].
    - (* client to console *)
      assert (NR : ~ In j (s_readers o)).
      { unfold todo_ok in TO. cbn in TO. destruct (r_bcast (s_req o)).
        - destruct TO as (ks & [T|(k & T)] & _ & TD); [|discriminate]. apply TD. destruct ks; [discriminate|].
          cbn in T. injection T as -> _. now left.
        - destruct TO as [T|[(k & T & _)|(k & T & _ & ->)]]; [discriminate|discriminate|]. intros []. }
      assert (ML : may_link (G h) c j).
      { exists (gn o), (gn ok). split; [now apply G_of|]. split; [now apply G_of|]. cbn.
        split; [rewrite Cc, Ck; reflexivity|]. split; [exact NR|]. split.
        - intros X. destruct (write_live j c HK Hk X) as (o2 & A & B & _). rewrite Hc in A. injection A as <-. contradiction.
        - split; [|congruence]. intros _ EB. unfold todo_ok in TO. cbn in TO. rewrite EB in TO.
          destruct TO as [T|[(k & T & _)|(k & T & TW & TR)]]; [discriminate|discriminate|].
          rewrite TW, TR. split; [reflexivity|]. intros z []. }
      destruct (link_objs_ok HE HK ML) as (h' & A & M & K'). exists h'.
      destruct (base_at h c j c (G_of _ _ Hc)) as (n1 & B & B1 & B2 & B3 & B4 & B5).
      pose proof (proj1 M c) as Q. unfold linkg, joing in Q. rewrite (gmap_of _ _ _ _ B) in Q.
      unfold at1 in Q. rewrite Nat.eqb_refl in Q. destruct (Nat.eqb_spec c j); [contradiction|].
      eexists. split; [exact A|]. split; [exact K'|]. split.
      { eapply link_evo; [exact K'|exact M| |].
        - intros ? _ _. split; [|left]; intros X; now apply X.
        - intros m Hm X. rewrite (G_of _ _ Hk) in Hm. injection Hm as <-. cbn in X. congruence. }
      split; [exact Q|]. cbn [g_bc g_rd g_wr]. cbn in B1. split; [exact B1|]. split.
      { unfold todo_ok in TO |- *. cbn [g_bc g_rd g_wr]. rewrite B1. cbn in TO. destruct (r_bcast (s_req o)).
        - destruct TO as (ks & [T|(k & T)] & TN & TD); [|discriminate]. destruct ks as [|k1 ks]; [discriminate|].
          cbn in T. injection T as <- ->. inversion TN as [|? ? N1 N2]; subst.
          exists ks. split; [right; eexists; reflexivity|]. split; [exact N2|].
          intros z Hz X. apply in_app_iff in X. cbn in X. destruct X as [X|[<-|[]]].
          + apply B4 in X. cbn in X. apply (TD z); [now right|exact X].
          + contradiction.
        - destruct TO as [T|[(k & T & _)|(k & T & TW & TR)]]; [discriminate|discriminate|].
          injection T as <- ->. right. left. exists j. cbn in B4, B5. rewrite TW in B5. rewrite TR in B4.
          split; [reflexivity|]. split; [destruct (g_wr n1) as [|z l]; [reflexivity|destruct (B5 z); now left]|].
          intros z Hz. apply in_app_iff in Hz. destruct Hz as [Hz|Hz]; [destruct (B4 z Hz)|exact Hz]. }
      split; [left; intros X; now apply app_eq_nil in X|].
      destruct M as (_ & _ & M & _). destruct (M c o Hc Cc) as (o' & X & _ & _ & Y & _). exists o'. auto.
    - (* console to client *)
      assert (TO' : r_bcast (s_req o) = false /\ s_writers o = [] /\ incl (s_readers o) [j] /\ todo = [CheckState j]).
      { unfold todo_ok in TO. cbn in TO. destruct (r_bcast (s_req o)).
        - destruct TO as (ks & [T|(k & T)] & _ & TD); [|discriminate]. destruct ks; discriminate.
        - destruct TO as [T|[(k & T & T2 & T3)|(k & T & _)]]; [discriminate| |discriminate].
          injection T as <- ->. auto. }
      destruct TO' as (EB & EW & ER & ->).
      assert (ML : may_link (G h) j c).
      { exists (gn ok), (gn o). split; [now apply G_of|]. split; [now apply G_of|]. cbn.
        split; [rewrite Cc, Ck; reflexivity|]. split.
        - intros X. destruct (read_live j c HK Hk X) as (o2 & A & B & _). rewrite Hc in A. injection A as <-.
          rewrite EW in B. exact B.
        - rewrite EW. split; [intros []|]. split; [congruence|]. intros _. split; [exact EB|]. split; [reflexivity|].
          intros z Hz. apply ER in Hz. destruct Hz as [<-|[]]. reflexivity. }
      destruct (link_objs_ok HE HK ML) as (h' & A & M & K'). exists h'.
      assert (BS : base h j c = G h).
      { unfold base, stealing. rewrite Hk, Hc. assert (client_b ok = false) as ->; [|reflexivity].
        rewrite client_b_eq, Ck. reflexivity. }
      pose proof (proj1 M c) as Q. unfold linkg, joing in Q. rewrite BS in Q. rewrite (gmap_of _ _ _ _ (G_of _ _ Hc)) in Q.
      unfold at1 in Q. rewrite Nat.eqb_refl in Q. destruct (Nat.eqb_spec c j); [contradiction|].
      eexists. split; [exact A|]. split; [exact K'|]. split.
      { eapply link_evo; [exact K'|exact M| |].
        - intros m Hm X. rewrite (G_of _ _ Hk) in Hm. injection Hm as <-. cbn in X. congruence.
        - intros ? _ _. split; [|left]; intros X; now apply X. }
      split; [exact Q|]. cbn [g_bc g_rd g_wr gn]. split; [reflexivity|]. split.
      { unfold todo_ok. cbn [g_bc]. rewrite EB. left. reflexivity. }
      split; [right; intros X; now apply app_eq_nil in X|].
      destruct M as (_ & _ & M & _). destruct (M c o Hc Cc) as (o' & X & _ & _ & Y & _). exists o'. auto. }
  destruct LINK as (h' & n' & A & K' & EV & Hn' & BC & TO2 & NU & (o' & Ho' & OP)).
  exists h'. split; [exact A|]. split; [|exact EV].
  rewrite (G_of _ _ Ho') in Hn'. injection Hn' as Hn'.
  assert (LIVE : forall i, live h i <-> live h' i).
  { intros i. rewrite !live_some. split.
    - intros [p Hp]. destruct (ev_keep EV i Hp) as (p' & X & _). eauto.
    - intros [p Hp]. destruct (h i) eqn:X; [eauto|]. rewrite (ev_new EV i X) in Hp. discriminate. }
  assert (Cc' : cls_of o' = ClClient).
  { destruct (ev_keep EV c Hc) as (p & X & Y). rewrite Ho' in X. injection X as <-. congruence. }
  assert (OTHER : forall t' y, t' <> t -> nth_error (w_thr w) t' = Some y -> forall c' a, y = TRun c' a -> c' <> c).
  { intros t' y N Hy c' a -> ->. apply N. eapply (ww_one W); eauto. }
  constructor; cbn [w_heap w_next w_objs w_thr set_thr set_heap]; fold (puts (w_thr w) t (TRun c todo)).
  - exact K'.
  - intros i. rewrite (ww_live W i). fold h. apply LIVE.
  - apply W.
  - apply W.
  - intros t' y Hy. rewrite (nth_puts _ _ _ _ Ht) in Hy. destruct (Nat.eqb_spec t' t) as [->|N].
    + injection Hy as <-. cbn. split; [exact LT|]. split.
      * eapply consoles_evo; [exact EV|]. intros z Hz. apply CO. now right.
      * intros n Hn. rewrite (G_of _ _ Ho') in Hn. injection Hn as <-. split; [exact Cc'|]. rewrite Hn'. exact TO2.
    + eapply thr_evo; [exact EV|apply le_n| |eapply (ww_thr W); eauto]. intros c' a X. eapply OTHER; eauto.
  - intros t1 t2 c' a b H1 H2. rewrite (nth_puts _ _ _ _ Ht) in H1. rewrite (nth_puts _ _ _ _ Ht) in H2.
    destruct (Nat.eqb_spec t1 t) as [->|N1]; destruct (Nat.eqb_spec t2 t) as [->|N2]; auto.
    + injection H1 as -> _. symmetry. eapply (ww_one W); eauto.
    + injection H2 as -> _. eapply (ww_one W); eauto.
    + eapply (ww_one W); eauto.
  - intros c' p' Hp' CB. destruct (Nat.eq_dec c' c) as [->|N].
    + rewrite Ho' in Hp'. injection Hp' as <-. rewrite OP. apply (ww_open W c Hc). now apply client_b_cls.
    + destruct (h c') as [p|] eqn:X; [|rewrite (ev_new EV c' X) in Hp'; discriminate].
      assert (Cp : cls_of p = ClClient).
      { destruct (ev_keep EV c' X) as (o2 & Y & Z). rewrite Hp' in Y. injection Y as <-. apply client_b_cls in CB. congruence. }
      destruct (ev_cl EV c' N X Hp' Cp) as (_ & B & _). rewrite B. apply (ww_open W c' X). now apply client_b_cls.
  - intros c' p' Hp' CB U. destruct (Nat.eq_dec c' c) as [->|N].
    + rewrite Ho' in Hp'. injection Hp' as <-. exfalso. destruct U as [U1 U2]. rewrite <- Hn' in NU. cbn in NU.
      destruct NU; contradiction.
    + destruct (h c') as [p|] eqn:X; [|rewrite (ev_new EV c' X) in Hp'; discriminate].
      assert (Cp : cls_of p = ClClient).
      { destruct (ev_keep EV c' X) as (o2 & Y & Z). rewrite Hp' in Y. injection Y as <-. apply client_b_cls in CB. congruence. }
      destruct (ev_cl EV c' N X Hp' Cp) as (_ & _ & B). destruct (B U) as [|[U2 F]]; [auto|].
      destruct (ww_eof W c' X) as [|(t' & a & Y & Z)]; auto; [now apply client_b_cls|congruence|].
      right. exists t', a. rewrite (nth_puts _ _ _ _ Ht). destruct (Nat.eqb_spec t' t) as [->|]; [|auto].
      rewrite Ht in Y. injection Y as -> _. contradiction.
Qed.

(** The other step: telling the client that a console is down. *)
Lemma check_step w t c k todo o ro : WWF w -> nth_error (w_thr w) t = Some (TRun c (CheckState k :: todo)) ->
  w_heap w c = Some o ->
  exists h', do_tstep E (w_heap w) c (CheckState k) ro = Ok h' /\ WWF (set_thr (set_heap w h') t (TRun c todo)) /\
    evo any (w_heap w) h'.
Proof.
  intros W Ht Hc. destruct (ww_thr W t Ht) as (LT & CO & TK).
  destruct (CO k) as (nk & Hk & Ck); [now left|]. apply G_some in Hk. destruct Hk as (ok & Hk & <-). cbn in Ck.
  destruct (check_ok k c ro (ww_hok W) Hk Ck Hc) as (h' & A & B & Q). exists h'. split; [exact A|]. split; [|exact B].
  pose proof (WWF_heap (fun _ => I) W B) as W'. eapply WWF_thr with (y := TRun c (CheckState k :: todo)); [exact W'|exact Ht| | |].
  - cbn. split; [exact LT|]. split.
    + eapply consoles_evo; [exact B|]. intros z Hz. apply CO. now right.
    + intros n Hn. rewrite Q in Hn. destruct (TK n Hn) as [X Y]. split; [exact X|].
      unfold todo_ok in *. destruct (g_bc n).
      * destruct Y as (ks & [T|(z & T)] & Y); [destruct ks; discriminate|]. injection T as _ ->. exists ks. auto.
      * destruct Y as [T|[(z & T & _)|(z & T & _)]]; [left; exact T|discriminate|discriminate].
  - intros c' a X. injection X as <- _. eauto.
  - intros c' b p X. injection X as <- <-. cbn. intros Y _ _. left. eauto.
Qed.

(** ... and a step on behalf of a client that is gone. *)
Lemma dead_step w t c x todo ro : WWF w -> nth_error (w_thr w) t = Some (TRun c (x :: todo)) ->
  w_heap w c = None ->
  chk (do_tstep E (w_heap w) c x ro) (fun h' => WWF (set_thr (set_heap w h') t (TRun c todo)) /\ h' = w_heap w) True.
Proof.
  intros W Ht Hc. destruct (ww_thr W t Ht) as (LT & CO & TK).
  destruct (CO (step_console x)) as (nk & Hk & Ck); [now left|]. apply G_some in Hk. destruct Hk as (ok & Hk & <-).
  eapply chk_mono; [exact (@tstep_dead (w_heap w) (step_console x) ok c x ro eq_refl Hk Hc)| |auto]. intros h' ->. split; [|reflexivity].
  replace (set_heap w (w_heap w)) with w by (destruct w; reflexivity).
  eapply WWF_thr; [exact W|exact Ht| | |].
  - cbn. split; [exact LT|]. split; [intros z Hz; apply CO; now right|].
    intros n Hn. unfold G in Hn. rewrite Hc in Hn. discriminate.
  - intros c' a X. injection X as <- _. eauto.
  - intros c' b p X _ Y. injection X as <- _. congruence.
Qed.

(** ** New objects *)
Lemma WFg_add g x n : WFg g -> g x = None -> g_rd n = [] -> g_wr n = [] ->
  (forall l, g_log n = Some l -> exists nl, g l = Some nl /\ g_cls nl = ClLog) ->
  WFg (fun i => if i =? x then Some n else g i).
Proof.
  intros W Hx R1 R2 HL.
  assert (NX : forall i m, g i = Some m -> i <> x) by (intros i m Hi ->; congruence).
  assert (KEEP : forall i m, g i = Some m -> (if i =? x then Some n else g i) = Some m).
  { intros i m Hi. destruct (Nat.eqb_spec i x) as [->|]; [congruence|exact Hi]. }
  constructor.
  - intros a na b Ha Hb. destruct (Nat.eqb_spec a x).
    + injection Ha as <-. rewrite R1 in Hb. destruct Hb.
    + destruct (wg_r W a b Ha Hb) as (nb & A & B). exists nb. split; [now apply KEEP|exact B].
  - intros b nb a Hb Ha. destruct (Nat.eqb_spec b x).
    + injection Hb as <-. rewrite R2 in Ha. destruct Ha.
    + destruct (wg_w W b a Hb Ha) as (na & A & B). exists na. split; [now apply KEEP|exact B].
  - intros a m Ha. destruct (Nat.eqb_spec a x); [|apply (wg_nd W a Ha)]. injection Ha as <-. rewrite R1, R2. split; constructor.
  - intros a m Ha. destruct (Nat.eqb_spec a x); [|apply (wg_cl W a Ha)]. injection Ha as <-. intros _.
    unfold client_ok. rewrite R1, R2. destruct (g_bc n); [reflexivity|]. cbn. split; [lia|]. split; [lia|]. intros ? ? [].
  - intros a m l Ha Hl. destruct (Nat.eqb_spec a x).
    + injection Ha as <-. destruct (HL l Hl) as (nl & A & B). exists nl. split; [now apply KEEP|exact B].
    + destruct (wg_log W a Ha Hl) as (nl & A & B). exists nl. split; [now apply KEEP|exact B].
Qed.

Lemma add_HOK h x o : HOK h -> h x = None -> s_readers o = [] -> s_writers o = [] -> oinv E o ->
  (forall l, s_log o = Some l -> exists ol, h l = Some ol /\ cls_of ol = ClLog) -> HOK (upd h x (Some o)).
Proof.
  intros [W R] Hx R1 R2 HO HL. split; [|now apply RI_upd].
  eapply WFg_geq; [|apply (@WFg_add (G h) x (gn o) W)]; auto.
  - intros j. rewrite G_upd. reflexivity.
  - unfold G. now rewrite Hx.
  - intros l Hl. destruct (HL l Hl) as (ol & A & B). exists (gn ol). split; [now apply G_of|exact B].
Qed.

Lemma create_oinv k o : s_ring o = create k (e_obuf E) -> iac_ok (s_iac o) -> oinv E o.
Proof.
  intros Hr Hi. unfold oinv. rewrite Hr. pose proof (HSZ HE).
  split; [apply create_inv; [unfold SZ; lia|apply HE]|]. split; [exact Hi|].
  intros _. pose proof (create_abs_empty SZ k (e_obuf E)) as A.
  apply (f_equal q_pending) in A. cbn [q_pending abs] in A. fold SZ. rewrite A. intros X. exfalso. apply X. now destruct k.
Qed.

Lemma create_closed_oinv k o : kcls k <> ClClient -> s_ring o = close_fd (create k (e_obuf E)) -> iac_ok (s_iac o) -> oinv E o.
Proof.
  intros Hk Hr Hi. set (o0 := set_ring o (create k (e_obuf E))).
  assert (A : oinv E o0) by (eapply create_oinv; [reflexivity|exact Hi]).
  pose proof (@ring_oinv E HE o0 OClose (close_fd (s_ring o0)) [] A I) as B.
  specialize (B (fun _ => I) eq_refl). destruct o. cbn in *. subst s_ring. exact B.
Qed.

(** A granted request: the client is created. *)
Lemma create_step w t q sel : WWF w -> nth_error (w_thr w) t = Some (TGranted q sel) ->
  WWF (set_thr (mkW (upd (w_heap w) (w_next w) (Some (new_client E q))) (S (w_next w))
                    (w_objs w ++ [w_next w]) (w_thr w)) t (TRun (w_next w) (program (r_cmd q) sel))).
Proof.
  intros W Ht. destruct (ww_thr W t Ht) as (S1 & S2 & S3 & S4 & S5 & S6).
  set (h := w_heap w) in *. set (c := w_next w).
  assert (Hc : h c = None).
  { destruct (h c) as [o|] eqn:X; [|reflexivity]. assert (In c (w_objs w)) by (apply (ww_live W), live_some; eauto).
    apply (ww_fresh W) in H. unfold c in H. lia. }
  assert (HK : HOK (upd h c (Some (new_client E q)))).
  { apply add_HOK; auto; [apply (ww_hok W)|eapply create_oinv; [reflexivity|]|cbn; discriminate].
    cbn. unfold iac_ok. lia. }
  assert (OLD : forall ks, consoles_ok (G h) ks -> consoles_ok (G (upd h c (Some (new_client E q)))) ks).
  { intros ks X k Hk. destruct (X k Hk) as (n & A & B). exists n. split; [|exact B]. rewrite G_upd.
    destruct (Nat.eqb_spec k c) as [->|]; [|exact A]. unfold G in A. rewrite Hc in A. discriminate. }
  assert (PC : incl (map step_console (program (r_cmd q) sel)) sel /\ existsb is_link (program (r_cmd q) sel) = true /\
     todo_ok (gn (new_client E q)) (program (r_cmd q) sel)).
  { unfold todo_ok. cbn [gn g_bc g_rd g_wr new_client s_req s_readers s_writers].
    destruct (r_cmd q) eqn:RC; [| |congruence].
    - destruct sel as [|k1 [|k2 sel]]; [congruence| |].
      + cbn. rewrite (S5 eq_refl). split; [intros z Hz; cbn in Hz; cbn; tauto|]. split; [reflexivity|].
        right. right. exists k1. auto.
      + destruct S6 as [_ ->]; [cbn; lia|]. set (ks := k1 :: k2 :: sel) in *.
        change (program CmdConnect ks) with (bprog ks). split.
        * intros z Hz. apply in_map_iff in Hz. destruct Hz as (y & <- & Hy). apply in_flat_map in Hy.
          destruct Hy as (k & Hk & Hy). cbn in Hy. destruct Hy as [<-|[<-|[]]]; exact Hk.
        * split; [now apply bprog_link|]. exists ks. split; [now left|]. split; [exact S2|]. intros k _ [].
    - destruct sel as [|k1 sel]; [congruence|]. assert (L : length (k1 :: sel) = 1).
      { destruct (Nat.eq_dec (length (k1 :: sel)) 1) as [|N]; [assumption|]. destruct (S6 N). discriminate. }
      rewrite (S5 L). cbn. split; [intros z Hz; cbn in Hz; cbn; tauto|]. split; [reflexivity|].
      right. left. exists k1. split; [reflexivity|]. split; [reflexivity|]. intros z []. }
  destruct PC as (PC & PL & PT).
  constructor; cbn [w_heap w_next w_objs w_thr set_thr]; fold (puts (w_thr w) t (TRun c (program (r_cmd q) sel))).
  - exact HK.
  - intros i. rewrite in_app_iff, (ww_live W i). cbn [In]. fold h. rewrite !live_some. unfold upd.
    destruct (Nat.eqb_spec i c) as [->|N]; split; eauto.
    + intros [|[|[]]]; [assumption|]. congruence.
  - apply NoDup_app.
    + apply W.
    + constructor; [intros []|constructor].
    + intros i Hi [<-|[]]. apply (ww_fresh W) in Hi. lia.
  - intros i Hi. apply in_app_iff in Hi. destruct Hi as [Hi|[<-|[]]]; [apply (ww_fresh W) in Hi; lia|unfold c; lia].
  - intros t' y Hy. rewrite (nth_puts _ _ _ _ Ht) in Hy. destruct (Nat.eqb_spec t' t) as [->|N].
    + injection Hy as <-. cbn. split; [unfold c; lia|]. split; [apply OLD; intros k Hk; apply S3, PC, Hk|].
      intros n Hn. rewrite G_upd, Nat.eqb_refl in Hn. injection Hn as <-. split; [reflexivity|exact PT].
    + pose proof (ww_thr W t' Hy) as T. destruct y as [q' m|q' sel'|c' todo|e]; cbn in *; auto.
      * destruct T as (T1 & T2 & T3 & T4). auto.
      * destruct T as (T1 & T2 & T3). split; [lia|]. split; [now apply OLD|].
        intros n Hn. rewrite G_upd in Hn. destruct (Nat.eqb_spec c' c) as [->|]; [unfold c in T1; lia|]. now apply T3.
  - assert (NC : forall t' a, nth_error (w_thr w) t' <> Some (TRun c a)).
    { intros t' a X. destruct (ww_thr W t' X) as (Y & _). unfold c in Y. lia. }
    intros t1 t2 c' a b H1 H2. rewrite (nth_puts _ _ _ _ Ht) in H1. rewrite (nth_puts _ _ _ _ Ht) in H2.
    destruct (Nat.eqb_spec t1 t) as [->|N1]; destruct (Nat.eqb_spec t2 t) as [->|N2]; auto.
    + injection H1 as <- _. now apply NC in H2.
    + injection H2 as <- _. now apply NC in H1.
    + eapply (ww_one W); eauto.
  - intros i o Ho CB. unfold upd in Ho. destruct (Nat.eqb_spec i c); [|eapply (ww_open W); eauto].
    injection Ho as <-. reflexivity.
  - intros i o Ho CB U. unfold upd in Ho. destruct (Nat.eqb_spec i c) as [->|N].
    + right. exists t, (program (r_cmd q) sel). rewrite (nth_puts _ _ _ _ Ht), Nat.eqb_refl. auto.
    + destruct (ww_eof W i Ho CB U) as [|(t' & a & A & B)]; [auto|]. right. exists t', a.
      rewrite (nth_puts _ _ _ _ Ht). destruct (Nat.eqb_spec t' t) as [->|]; [congruence|auto].
Qed.

(** ** All events *)
Definition gone_danger (w : world) (t : nat) : Prop :=
  exists c x todo, nth_error (w_thr w) t = Some (TRun c (x :: todo)) /\ w_heap w c = None.
Definition danger (w : world) (e : event) : Prop :=
  match e with
  | EvThread t _ _ => gone_danger w t
  | EvMux i (Some ev) _ _ _ => read_danger E (w_heap w) i ev
  | _ => False
  end.

(** Only the client that asked for it gains a link. *)
Definition gains (Q : nat -> Prop) (h h' : heap) : Prop :=
  forall c o o', h c = Some o -> h' c = Some o' -> cls_of o' = cls_of o /\
    (~ Q c -> client_b o = true -> incl (s_readers o') (s_readers o) /\ incl (s_writers o') (s_writers o)).
Lemma gains_refl Q h : gains Q h h.
Proof. intros c o o' A B. rewrite A in B. injection B as <-. split; [reflexivity|]. intros _ _. split; apply incl_refl. Qed.
Lemma evo_gains (P : bool -> nat -> Prop) (Q : nat -> Prop) h h' : evo P h h' -> (forall c, ~ Q c -> P false c) -> gains Q h h'.
Proof.
  intros A H c o o' Hc Hc'. split; [destruct (ev_keep A c Hc) as (o2 & X & Y); congruence|].
  intros N CB. apply (ev_rd A c (H c N) Hc Hc'). now apply client_b_cls.
Qed.
Lemma evo_gains_any (Q : nat -> Prop) h h' : evo any h h' -> gains Q h h'.
Proof. intros A. eapply evo_gains; [exact A|]. intros; exact I. Qed.

Lemma served_WWF (P : bool -> nat -> Prop) (Q : nat -> Prop) w h' i d : (forall j, P true j) -> (forall c, ~ Q c -> P false c) -> WWF w -> served E P (w_heap w) i (h', d) ->
  let w' := if d then destroy (set_heap w h') i else set_heap w h' in WWF w' /\ gains Q (w_heap w) (w_heap w').
Proof.
  intros HP HQ W S. unfold served in S. cbn [fst snd] in S. destruct d; (split; [first [now apply WWF_destroy|eapply WWF_heap; eauto]|]).
  - destruct S as (A & _). intros c o o' Hc Hc'. cbn in Hc'. unfold upd in Hc'. destruct (Nat.eqb_spec c i) as [->|Nc]; [discriminate|].
    split; [destruct (ev_keep A c Hc) as (o2 & X & Y); congruence|]. intros N CB.
    apply (ev_rd A c Nc Hc Hc'). now apply client_b_cls.
  - eapply evo_gains; eauto.
Qed.

Lemma step_ok w e : WWF w -> event_ok e ->
  chk (step E w e) (fun r => WWF (fst r) /\ gains (asks w e) (w_heap w) (w_heap (fst r))) (danger w e).
Proof.
  intros W He. pose proof (ww_hok W) as HK.
  assert (SAME : WWF w /\ gains (asks w e) (w_heap w) (w_heap w)) by (split; [exact W|apply gains_refl]).
  assert (HEAP : forall h', evo any (w_heap w) h' -> WWF (set_heap w h') /\ gains (asks w e) (w_heap w) h').
  { intros h' A. split; [exact (WWF_heap (fun _ => I) W A)|now apply evo_gains_any]. }
  destruct e as [q m|t sent ro|i rd wr ro rst|k ro|l m|l ok m]; cbn [step].
  - (* accept *)
    cbn. split; [|apply gains_refl]. constructor; cbn; try apply W.
    + intros t x Hx. destruct (le_lt_dec (length (w_thr w)) t) as [L|L].
      * rewrite nth_error_app2 in Hx by exact L. destruct (t - length (w_thr w)) as [|j]; [|destruct j; discriminate].
        injection Hx as <-. exact I.
      * rewrite nth_error_app1 in Hx by exact L. eapply (ww_thr W); eauto.
    + assert (R : forall t c a, nth_error (w_thr w ++ [TStart q m]) t = Some (TRun c a) -> nth_error (w_thr w) t = Some (TRun c a)).
      { intros t c a Hx. destruct (le_lt_dec (length (w_thr w)) t) as [L|L].
        - rewrite nth_error_app2 in Hx by exact L. destruct (t - length (w_thr w)) as [|j]; [|destruct j]; discriminate.
        - now rewrite nth_error_app1 in Hx by exact L. }
      intros t t' c a b H1 H2. apply R in H1. apply R in H2. eapply (ww_one W); eauto.
    + intros c o Ho CB U. destruct (ww_eof W c Ho CB U) as [|(t & a & A & B)]; [auto|]. right. exists t, a.
      split; [|exact B]. rewrite nth_error_app1; [exact A|]. apply nth_error_Some. congruence.
  - (* thread *)
    destruct (nth_error (w_thr w) t) as [[q m|q sel|c [|x todo]|code]|] eqn:Ht; try exact SAME.
    + destruct (admit_ok q m W) as (r & -> & R). cbn. split; [|apply gains_refl]. eapply WWF_thr; [exact W|exact Ht| | |].
      * destruct r as [e|[q' sel]]; [exact I|]. destruct R as (R1 & R2 & R3 & R4 & R5 & R6 & R7 & R8 & R9 & R10 & _).
        cbn. split; [exact R2|]. split; [exact R1|]. split.
        { intros k Hk. apply R3 in Hk. destruct Hk as (_ & _ & o & A & B). exists (gn o). split; [now apply G_of|].
          now apply console_b_cls. }
        split; [congruence|]. rewrite R9, R4. destruct (Nat.eqb_spec (length sel) 1); [tauto|].
        split; [congruence|]. intros _. destruct R10; [contradiction|assumption].
      * intros c a X. destruct r as [e|[q' sel]]; discriminate.
      * intros c b o X. discriminate.
    + destruct sent; cbn [negb].
      * cbn. split; [now apply create_step|]. intros i o o' Hi Hi'.
        assert (N : i <> w_next w).
        { intros ->. assert (X : In (w_next w) (w_objs w)) by (apply (ww_live W), live_some; eauto).
          apply (ww_fresh W) in X. lia. }
        rewrite upd_other in Hi' by exact N. rewrite Hi in Hi'. injection Hi' as <-. split; [reflexivity|]. intros _ _. split; apply incl_refl.
      * cbn. split; [|apply gains_refl]. eapply WWF_thr; [exact W|exact Ht|exact I| |]; [intros c a X|intros c b o X]; discriminate.
    + cbn. split; [|apply gains_refl]. eapply WWF_thr; [exact W|exact Ht|exact I| |].
      * intros c' a X. discriminate.
      * intros c' b o X. injection X as <- <-. discriminate.
    + destruct (w_heap w c) as [o|] eqn:Hc.
      * assert (X : exists h', do_tstep E (w_heap w) c x ro = Ok h' /\ WWF (set_thr (set_heap w h') t (TRun c todo)) /\
           evo (fun _ j => j <> c) (w_heap w) h').
        { destruct (is_link x) eqn:L; [eapply link_step; eauto|]. destruct x; try discriminate.
          destruct (check_step t ro W Ht Hc) as (h' & A1 & A2 & A3). exists h'. split; [exact A1|]. split; [exact A2|].
          eapply evo_weak; [|exact A3]. intros; exact I. }
        destruct X as (h' & -> & X & Y). cbn. split; [exact X|]. eapply evo_gains; [exact Y|].
        intros c' N ->. apply N. exists x, todo. exact Ht.
      * eapply chk_bind; [eapply chk_mono; [exact (dead_step t ro W Ht Hc)|intros h' X; exact X|]|].
        -- intros _. exists c, x, todo. auto.
        -- intros h' _ [X ->]. cbn. split; [exact X|apply gains_refl].
  - (* main loop *)
    destruct (mem i (w_objs w)) eqn:Mi; cbn [negb]; [|exact SAME].
    apply mem_In in Mi. apply (ww_live W), live_some in Mi. destruct Mi as (o & Hi).
    set (P := fun b j => match rd with Some ev => rdp (w_heap w) i ev b j | None => True end).
    assert (HP : forall j, P true j) by (intros j; unfold P; destruct rd; [now left|exact I]).
    assert (HQ : forall c, ~ asks w (EvMux i rd wr ro rst) c -> P false c).
    { intros c N. unfold P. destruct rd as [ev|]; [|exact I]. destruct (Nat.eq_dec c i) as [->|]; [|right; now left].
      right. right. intros o1 d Ho1 _ ->. destruct (existsb _ _) eqn:X; [|reflexivity]. exfalso. apply N.
      apply existsb_exists in X. destruct X as (x & X1 & X2). split; [reflexivity|]. exists o1, x. auto. }
    eapply chk_bind with (P := served E P (w_heap w) i).
    + destruct rd as [ev|].
      * apply read_ok with o; auto. intros d ->. exact He.
      * cbn. now apply evo_refl.
    + intros [h1 b1] _ S1. cbn [fst snd]. destruct b1; [cbn; exact (@served_WWF P _ w h1 i _ HP HQ W S1)|].
      destruct wr as [rs|]; [|cbn; exact (@served_WWF P _ w h1 i _ HP HQ W S1)]. cbn in S1.
      destruct (ev_keep S1 i Hi) as (o1 & Hi1 & _).
      destruct (flush_ok HE i rs ro (ev_hok S1) Hi1) as (h2 & snt & dd & -> & S2). cbn [bind chk fst].
      apply (@served_WWF P); auto. unfold served in *. cbn [fst snd] in *. destruct dd.
      * destruct S2 as (A1 & o2 & A2 & A3 & A4). split.
        -- eapply evo_trans; [|exact A1]. constructor; try apply S1.
           ++ intros c p p' Nc Hp Hp' Cp. apply (ev_rd S1 c); auto. apply HQ. intros X. apply Nc.
              cbn in X. destruct rd as [[| | |d]|]; try destruct X. congruence.
           ++ intros c p p' Nc. apply (ev_cl S1). apply HP.
        -- destruct (ev_keep S1 i Hi) as (o3 & X & Y). rewrite A2 in X. injection X as <-. exists o. split; [exact Hi|]. split; [congruence|exact A4].
      * eapply evo_trans; [exact S1|]. eapply evo_weak; [|exact S2]. intros; exact I.
  - destruct (mem k (w_objs w)) eqn:Mi; cbn [negb]; [|exact SAME].
    apply mem_In in Mi. apply (ww_live W), live_some in Mi. destruct Mi as (o & Hi). rewrite (at_ok _ _ Hi). cbn [bind].
    destruct (console_b o) eqn:C; [|exact SAME]. apply console_b_cls in C.
    destruct (open_console_ok HE k ro HK Hi C) as (h1 & -> & A & _). cbn. now apply HEAP.
  - destruct (mem l (w_objs w)) eqn:Mi; cbn [negb]; [|exact SAME].
    apply mem_In in Mi. apply (ww_live W), live_some in Mi. destruct Mi as (o & Hi). rewrite (at_ok _ _ Hi). cbn [bind].
    destruct (log_b o) eqn:C; [|exact SAME].
    destruct (put_data_ok HE l m true (proj2 HK) Hi) as (h1 & -> & A & _). cbn. apply HEAP. now apply sim_evo.
  - destruct (mem l (w_objs w)) eqn:Mi; cbn [negb]; [|exact SAME].
    apply mem_In in Mi. apply (ww_live W), live_some in Mi. destruct Mi as (o & Hi). rewrite (at_ok _ _ Hi). cbn [bind].
    destruct (log_b o) eqn:C; [|exact SAME]. apply log_b_cls in C.
    assert (O1 : oinv E (set_ring o (close_fd (s_ring o)))).
    { apply (@ring_oinv E HE o OClose _ []); [exact (proj2 HK l o Hi)|exact I|intros; exact I|reflexivity]. }
    assert (C1 : cls_of (set_ring o (close_fd (s_ring o))) = ClLog) by exact C.
    destruct ok.
    + assert (O2 : oinv E (set_ring o (open_fd (close_fd (s_ring o))))).
      { apply (@ring_oinv E HE (set_ring o (close_fd (s_ring o))) OOpen _ []); [exact O1|exact I| |reflexivity].
        rewrite C1. discriminate. }
      set (h0 := upd (w_heap w) l _).
      assert (E0 : evo any (w_heap w) h0).
      { apply upd_evo with o; auto. intros _ X. congruence. }
      assert (Hl0 : h0 l = Some (set_ring o (open_fd (close_fd (s_ring o))))) by (unfold h0; now rewrite upd_same).
      destruct (put_data_ok HE l m false (proj2 (ev_hok E0)) Hl0) as (h1 & -> & S1 & _). cbn [bind].
      destruct (sim_some l S1 Hl0) as (o1 & Hl1 & G1).
      assert (CL1 : cls_of o1 = ClLog). { apply gn_parts in G1. destruct G1 as (G1 & _). rewrite G1. exact C. }
      rewrite (modify_ok _ _ _ Hl1). cbn [bind chk fst]. apply HEAP.
      eapply evo_trans; [exact E0|]. eapply evo_trans; [apply (sim_evo any (ev_hok E0) S1)|].
      assert (HK1 : HOK h1) by exact (sim_HOK S1 (ev_hok E0)).
      apply upd_evo with o1; auto.
      * unfold gn, cls_of in *. cbn. unfold set_line. cbn. now rewrite CL1.
      * destruct (proj2 HK1 l o1 Hl1) as (X1 & X2 & X3). split; [exact X1|]. split; [exact X2|].
        unfold cls_of. cbn. discriminate.
    + cbn [chk fst]. apply HEAP. apply upd_evo with o; auto. intros _ X. congruence.
Qed.

(** ** Start-up *)
Lemma link_new h k l ok ol : HOK h -> h k = Some ok -> h l = Some ol -> cls_of ok = ClCons -> cls_of ol = ClLog ->
  s_readers ok = [] -> s_writers ol = [] ->
  exists h', link_objs E h k l = Ok h' /\ HOK h' /\
    (forall i o, h i = Some o -> exists o', h' i = Some o' /\ cls_of o' = cls_of o) /\
    (forall i, h i = None -> h' i = None).
Proof.
  intros HK Hk Hl Ck Cl Rk Wl.
  assert (ML : may_link (G h) k l).
  { exists (gn ok), (gn ol). split; [now apply G_of|]. split; [now apply G_of|]. cbn.
    rewrite Ck, Cl, Rk, Wl. split; [reflexivity|]. split; [intros []|]. split; [intros []|]. split; discriminate. }
  destruct (link_objs_ok HE HK ML) as (h' & A & M & K'). exists h'. split; [exact A|]. split; [exact K'|].
  assert (EV : evo any h h').
  { eapply link_evo; [exact K'|exact M| |].
    - intros n Hn X. rewrite (G_of _ _ Hk) in Hn. injection Hn as <-. cbn in X. congruence.
    - intros n Hn X. rewrite (G_of _ _ Hl) in Hn. injection Hn as <-. cbn in X. congruence. }
  split; [intros i o Hi; exact (ev_keep EV i Hi)|exact (ev_new EV)].
Qed.

Definition booting (w : world) : Prop :=
  HOK (w_heap w) /\ (forall i, In i (w_objs w) <-> live (w_heap w) i) /\ NoDup (w_objs w) /\
  (forall i, In i (w_objs w) -> i < w_next w) /\ w_thr w = [] /\
  (forall i o, w_heap w i = Some o -> cls_of o <> ClClient).

Lemma booting_none w i : booting w -> w_next w <= i -> w_heap w i = None.
Proof.
  intros (_ & L & _ & F & _) Hi. destruct (w_heap w i) as [o|] eqn:X; [|reflexivity].
  assert (In i (w_objs w)) by (apply L, live_some; eauto). apply F in H. lia.
Qed.

Lemma iac0 : iac_ok (-1)%Z. Proof. unfold iac_ok. lia. Qed.

Lemma add_console_ok w c : booting w -> exists w', add_console E w c = Ok w' /\ booting w'.
Proof.
  intros B. pose proof B as (HK & L & ND & F & T & NC). destruct c as [t lg]. cbn [add_console]. set (k := w_next w).
  assert (Hk : w_heap w k = None) by (apply booting_none; [exact B|apply le_n]).
  assert (Hl : w_heap w (S k) = None) by (apply booting_none; [exact B|unfold k; lia]).
  destruct lg as [p|].
  - set (ok := new_console E t (Some (S k))). set (ol := new_log E p).
    assert (Ol : oinv E ol) by (eapply (@create_closed_oinv (KLogfile LineInit)); [discriminate|reflexivity|apply iac0]).
    assert (Ok_ : oinv E ok) by (eapply (@create_closed_oinv KConsole); [discriminate|reflexivity|apply iac0]).
    assert (H1 : HOK (upd (w_heap w) (S k) (Some ol))) by (apply add_HOK; auto; cbn; discriminate).
    assert (H2 : HOK (upd (upd (w_heap w) (S k) (Some ol)) k (Some ok))).
    { apply add_HOK; auto.
      - rewrite upd_other by lia. exact Hk.
      - cbn. intros l X. injection X as <-. exists ol. rewrite upd_same. auto. }
    set (h1 := upd (upd (w_heap w) k (Some ok)) (S k) (Some ol)).
    assert (H3 : HOK h1).
    { destruct H2 as [A1 A2]. assert (Q : forall i, upd (upd (w_heap w) (S k) (Some ol)) k (Some ok) i = h1 i).
      { intros i. unfold h1, upd. destruct (Nat.eqb_spec i k) as [->|]; [|reflexivity].
        destruct (Nat.eqb_spec k (S k)); [lia|reflexivity]. }
      split.
      - eapply WFg_geq; [|exact A1]. intros i. unfold G. now rewrite Q.
      - intros i o Ho. rewrite <- Q in Ho. now apply A2 in Ho. }
    assert (K1 : h1 k = Some ok) by (unfold h1; rewrite upd_other by lia; apply upd_same).
    assert (L1 : h1 (S k) = Some ol) by (unfold h1; apply upd_same).
    destruct (link_new k (S k) H3 K1 L1) as (h' & -> & K' & KEEP & NEW); try reflexivity.
    cbn [bind]. eexists. split; [reflexivity|].
    unfold booting. cbn [w_heap w_objs w_next w_thr]. split; [exact K'|]. split; [|split; [|split; [|split; [exact T|]]]].
    + intros i. rewrite in_app_iff, (L i), !live_some. cbn [In]. split.
      * intros [[o Ho]|[<-|[<-|[]]]].
        -- destruct (KEEP i o) as (o' & X & _); [|eauto]. unfold h1. rewrite !upd_other; [exact Ho| |]; congruence.
        -- destruct (KEEP k ok K1) as (o' & X & _). eauto.
        -- destruct (KEEP (S k) ol L1) as (o' & X & _). eauto.
      * intros [o Ho]. destruct (h1 i) as [o1|] eqn:X; [|rewrite (NEW i X) in Ho; discriminate].
        unfold h1, upd in X. destruct (Nat.eqb_spec i (S k)); [auto|]. destruct (Nat.eqb_spec i k); [auto|eauto].
    + apply NoDup_app; [exact ND| |].
      * constructor; [intros [X|[]]; lia|]. constructor; [intros []|constructor].
      * intros i Hi X. apply F in Hi. cbn in X. unfold k in X. lia.
    + intros i Hi. apply in_app_iff in Hi. cbn in Hi. destruct Hi as [Hi|Hi]; [apply F in Hi|]; unfold k in *; lia.
    + intros i o Ho. destruct (h1 i) as [o1|] eqn:X; [|rewrite (NEW i X) in Ho; discriminate].
      destruct (KEEP i o1 X) as (o2 & Y & Z). rewrite Ho in Y. injection Y as <-. rewrite Z.
      unfold h1, upd in X. destruct (Nat.eqb_spec i (S k)); [injection X as <-; discriminate|].
      destruct (Nat.eqb_spec i k); [injection X as <-; discriminate|]. now apply (NC i).
  - eexists. split; [reflexivity|]. unfold booting. cbn [w_heap w_objs w_next w_thr].
    assert (Ok_ : oinv E (new_console E t None)) by (eapply (@create_closed_oinv KConsole); [discriminate|reflexivity|apply iac0]).
    split; [apply add_HOK; auto; cbn; discriminate|]. split; [|split; [|split; [|split; [exact T|]]]].
    + intros i. rewrite in_app_iff, (L i), !live_some. cbn [In]. unfold upd. destruct (Nat.eqb_spec i k) as [->|]; split; eauto.
      intros [|[|[]]]; [assumption|]. congruence.
    + apply NoDup_app; [exact ND|constructor; [intros []|constructor]|].
      intros i Hi [<-|[]]. apply F in Hi. unfold k in Hi. lia.
    + intros i Hi. apply in_app_iff in Hi. cbn in Hi. destruct Hi as [Hi|[<-|[]]]; [apply F in Hi|]; unfold k in *; lia.
    + intros i o. unfold upd. destruct (Nat.eqb_spec i k); [intros X; injection X as <-; discriminate|apply NC].
Qed.

Lemma boot_from_ok cs : forall w, booting w -> exists w', boot_from E w cs = Ok w' /\ booting w'.
Proof.
  induction cs as [|c cs IH]; intros w B; cbn [boot_from]; [eauto|].
  destruct (add_console_ok c B) as (w1 & -> & B1). cbn [bind]. now apply IH.
Qed.

Lemma booting_WWF w : booting w -> WWF w.
Proof.
  intros (HK & L & ND & F & T & NC). constructor; auto; rewrite ?T.
  - intros t x Hx. destruct t; discriminate.
  - intros t t' c a b Hx. destruct t; discriminate.
  - intros c o Ho CB. apply client_b_cls in CB. now apply NC in Ho.
  - intros c o Ho CB. apply client_b_cls in CB. now apply NC in Ho.
Qed.

Theorem boot_ok cs : exists w, boot E cs = Ok w /\ WWF w.
Proof.
  destruct (@boot_from_ok cs (mkW (fun _ => None) 0 [] [])) as (w & A & B).
  - unfold booting. cbn. split; [|split; [|split; [|split; [|split]]]]; auto.
    + split; [constructor; discriminate|]. intros i o X. discriminate.
    + intros i. split; [intros []|]. intros X. now apply X.
    + constructor.
    + intros i [].
    + discriminate.
  - exists w. split; [exact A|now apply booting_WWF].
Qed.

(** ** Runs *)
Lemma run_WWF : forall es w w', WWF w -> Forall event_ok es -> run E w es = Ok w' -> WWF w'.
Proof.
  induction es as [|e es IH]; intros w w' W H R; cbn [run] in R.
  - injection R as <-. exact W.
  - inversion H; subst. apply bind_ok in R. destruct R as ([w1 s] & A & R).
    pose proof (step_ok e W H2) as S. rewrite A in S. cbn in S, R. destruct S as [S _]. eapply IH; eauto.
Qed.
End Env.
