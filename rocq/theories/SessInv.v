(** Invariants of the link graph and of the objects' buffers. *)
From Verif Require Import Base BaseProof RingModel RingSpec RingProof LogModel LogSpec LogProof
  TelnetModel TelnetSpec TelnetProof EscModel EscSpec EscProof SessModel SessSpec.
Set Implicit Arguments.

(** ** Partial-correctness triples: [P] holds of the result, or the failure is
    one of those admitted by [B]. *)
Definition chk {A} (r : res A) (P : A -> Prop) (B : Prop) : Prop :=
  match r with Ok a => P a | UB _ => B end.

Lemma chk_bind {A C} (r : res A) (f : A -> res C) (P : A -> Prop) (Q : C -> Prop) B :
  chk r P B -> (forall a, r = Ok a -> P a -> chk (f a) Q B) -> chk (bind r f) Q B.
Proof. destruct r; cbn; auto. Qed.

Lemma chk_mono {A} (r : res A) (P Q : A -> Prop) (B C : Prop) :
  chk r P B -> (forall a, P a -> Q a) -> (B -> C) -> chk r Q C.
Proof. destruct r; cbn; auto. Qed.

Lemma chk_ok {A} (r : res A) (P : A -> Prop) : chk r P False -> exists a, r = Ok a /\ P a.
Proof. destruct r; cbn; [eauto|tauto]. Qed.

(** ** The graph *)
Inductive cls := ClClient | ClLog | ClCons.
Definition kcls (k : kind) : cls :=
  match k with KClient _ _ => ClClient | KLogfile _ => ClLog | KConsole => ClCons end.
Definition cls_of (o : sobj) : cls := kcls (o_kind (s_ring o)).

Record gnode := mkG {
  g_cls : cls; g_rd : list nat; g_wr : list nat; g_bc : bool; g_log : option nat }.
Definition gn (o : sobj) : gnode :=
  mkG (cls_of o) (s_readers o) (s_writers o) (r_bcast (s_req o)) (s_log o).
Definition graph := nat -> option gnode.
Definition G (h : heap) : graph := fun i => option_map gn (h i).
Definition geq (g g' : graph) : Prop := forall i, g i = g' i.

Definition typed (a b : cls) : bool :=
  match a, b with
  | ClClient, ClCons | ClCons, ClClient | ClCons, ClLog => true
  | _, _ => false
  end.

Definition client_ok (n : gnode) : Prop :=
  if g_bc n then g_wr n = []
  else length (g_rd n) <= 1 /\ length (g_wr n) <= 1 /\
       forall k k', In k (g_rd n) -> In k' (g_wr n) -> k = k'.

Record WFg (g : graph) : Prop := mkWFg {
  wg_r : forall a na b, g a = Some na -> In b (g_rd na) ->
         exists nb, g b = Some nb /\ In a (g_wr nb) /\ typed (g_cls na) (g_cls nb) = true;
  wg_w : forall b nb a, g b = Some nb -> In a (g_wr nb) ->
         exists na, g a = Some na /\ In b (g_rd na);
  wg_nd : forall a n, g a = Some n -> NoDup (g_rd n) /\ NoDup (g_wr n);
  wg_cl : forall a n, g a = Some n -> g_cls n = ClClient -> client_ok n;
  wg_log : forall a n l, g a = Some n -> g_log n = Some l ->
           exists nl, g l = Some nl /\ g_cls nl = ClLog }.

Lemma geq_refl g : geq g g. Proof. intros i; reflexivity. Qed.
Lemma geq_sym g g' : geq g g' -> geq g' g. Proof. intros H i; now rewrite H. Qed.
Lemma geq_trans a b c : geq a b -> geq b c -> geq a c.
Proof. intros H K i; now rewrite H. Qed.

Lemma WFg_geq g g' : geq g g' -> WFg g -> WFg g'.
Proof.
  intros Q W. constructor.
  - intros a na b Ha Hb. rewrite <- Q in Ha. destruct (wg_r W a b Ha Hb) as (nb & X & Y).
    exists nb. now rewrite <- Q.
  - intros b nb a Hb Ha. rewrite <- Q in Hb. destruct (wg_w W b a Hb Ha) as (na & X & Y).
    exists na. now rewrite <- Q.
  - intros a n Ha. rewrite <- Q in Ha. eapply wg_nd; eauto.
  - intros a n Ha. rewrite <- Q in Ha. eapply wg_cl; eauto.
  - intros a n l Ha Hl. rewrite <- Q in Ha. destruct (wg_log W a Ha Hl) as (nl & X & Y).
    exists nl. now rewrite <- Q.
Qed.

(** ** Classes and the boolean tests *)
Lemma client_b_cls o : client_b o = true <-> cls_of o = ClClient.
Proof. unfold client_b, cls_of, kcls. destruct (o_kind (s_ring o)); split; congruence. Qed.
Lemma console_b_cls o : console_b o = true <-> cls_of o = ClCons.
Proof. unfold console_b, cls_of, kcls. destruct (o_kind (s_ring o)); split; congruence. Qed.
Lemma log_b_cls o : log_b o = true <-> cls_of o = ClLog.
Proof. unfold log_b, cls_of, kcls. destruct (o_kind (s_ring o)); split; congruence. Qed.
Lemma client_b_eq o : client_b o = match cls_of o with ClClient => true | _ => false end.
Proof. unfold client_b, cls_of, kcls. now destruct (o_kind (s_ring o)). Qed.
Lemma console_b_eq o : console_b o = match cls_of o with ClCons => true | _ => false end.
Proof. unfold console_b, cls_of, kcls. now destruct (o_kind (s_ring o)). Qed.
Lemma log_b_eq o : log_b o = match cls_of o with ClLog => true | _ => false end.
Proof. unfold log_b, cls_of, kcls. now destruct (o_kind (s_ring o)). Qed.

Lemma is_client_kcls (r : obj) : is_client r = match kcls (o_kind r) with ClClient => true | _ => false end.
Proof. unfold is_client, kcls. now destruct (o_kind r). Qed.

(** ** Heap access *)
Lemma upd_same h i o : upd h i o i = o. Proof. unfold upd. now rewrite Nat.eqb_refl. Qed.
Lemma upd_other h i o j : j <> i -> upd h i o j = h j.
Proof. intros N. unfold upd. destruct (Nat.eqb_spec j i); congruence. Qed.
Lemma at_ok h i o : h i = Some o -> at_ h i = Ok o. Proof. intros H; unfold at_; now rewrite H. Qed.
Lemma G_some h i n : G h i = Some n -> exists o, h i = Some o /\ gn o = n.
Proof. unfold G. destruct (h i) as [o|]; cbn; [|discriminate]. intros X; injection X as <-. eauto. Qed.
Lemma G_of h i o : h i = Some o -> G h i = Some (gn o).
Proof. unfold G. now intros ->. Qed.
Lemma G_upd h i o j : G (upd h i o) j = if j =? i then option_map gn o else G h j.
Proof. unfold G, upd. now destruct (j =? i). Qed.

Lemma mem_In x l : mem x l = true <-> In x l.
Proof.
  unfold mem. rewrite existsb_exists. split.
  - intros (y & H & E). apply Nat.eqb_eq in E. now subst.
  - intros H. exists x. now rewrite Nat.eqb_refl.
Qed.
Lemma mem_not x l : mem x l = false <-> ~ In x l.
Proof. rewrite <- mem_In. destruct (mem x l); split; congruence. Qed.
Lemma del_In x y l : In y (del x l) <-> In y l /\ y <> x.
Proof.
  unfold del. rewrite filter_In, negb_true_iff, Nat.eqb_neq. tauto.
Qed.
Lemma del_notin x l : ~ In x l -> del x l = l.
Proof.
  intros H. unfold del. induction l as [|y l IH]; cbn; [reflexivity|].
  destruct (Nat.eqb_spec y x) as [->|N]; cbn; [exfalso; apply H; now left|].
  f_equal. apply IH. intros K. apply H. now right.
Qed.
Lemma del_del x l : del x (del x l) = del x l.
Proof. apply del_notin. rewrite del_In. tauto. Qed.
Lemma del_comm x y l : del x (del y l) = del y (del x l).
Proof.
  unfold del. induction l as [|z l IH]; cbn; [reflexivity|].
  destruct (z =? x) eqn:A; destruct (z =? y) eqn:B; cbn; rewrite ?A, ?B; cbn; congruence.
Qed.
Lemma NoDup_del x l : NoDup l -> NoDup (del x l).
Proof. apply NoDup_filter. Qed.
Lemma del_length x l : length (del x l) <= length l.
Proof. unfold del. induction l as [|z l IH]; cbn; [lia|]. destruct (z =? x); cbn; lia. Qed.
Lemma del_head x l : NoDup (x :: l) -> del x (x :: l) = l.
Proof.
  intros H. inversion H; subst. unfold del. cbn. rewrite Nat.eqb_refl. cbn.
  now apply del_notin.
Qed.

(** ** Buffers *)
Section Env.
Variable E : env.
Hypothesis HE : env_ok E.
Let SZ := e_sz E.
Let dbg := e_dbg E.

Lemma HSZ : 1 < e_sz E. Proof. apply HE. Qed.

Definition oinv (o : sobj) : Prop :=
  Inv SZ (s_ring o) /\ iac_ok (s_iac o) /\
  (cls_of o = ClClient -> flush_scheduled (pending SZ (s_ring o)) (s_ring o)).
Definition RI (h : heap) : Prop := forall i o, h i = Some o -> oinv o.

(** Buffer operations keep the graph, the buffer invariants, and a client's end
    of file mark, and do not take pending output away from a client. *)
Definition kept (r r' : obj) : Prop :=
  (o_eof r = true -> o_eof r' = true) /\ (pending SZ r <> [] -> pending SZ r' <> []) /\
  (o_open r' = o_open r) /\ (o_pollin r' = o_pollin r).
Definition eofmono (h h' : heap) : Prop :=
  forall i o, h i = Some o -> cls_of o = ClClient ->
    exists o', h' i = Some o' /\ kept (s_ring o) (s_ring o').
Definition sim (h h' : heap) : Prop := geq (G h) (G h') /\ RI h' /\ eofmono h h'.

Lemma kept_refl r : kept r r. Proof. unfold kept. auto. Qed.
Lemma kept_trans a b c : kept a b -> kept b c -> kept a c.
Proof. unfold kept. intros (A1 & A2 & A3 & A4) (B1 & B2 & B3 & B4). repeat split; auto; congruence. Qed.
Lemma eofmono_refl h : eofmono h h. Proof. intros i o H _. exists o. split; [exact H|apply kept_refl]. Qed.
Lemma eofmono_trans a b c : (forall i oa ob, a i = Some oa -> b i = Some ob -> cls_of ob = cls_of oa) ->
  eofmono a b -> eofmono b c -> eofmono a c.
Proof.
  intros Q H K i o Hi Hc. destruct (H i o Hi Hc) as (o' & A & B).
  destruct (K i o' A) as (o'' & A2 & B2); [|eauto using kept_trans].
  rewrite (Q i o o' Hi A). exact Hc.
Qed.
Lemma geq_cls a b : geq (G a) (G b) -> forall i oa ob, a i = Some oa -> b i = Some ob -> cls_of ob = cls_of oa.
Proof.
  intros Q i oa ob Ha Hb. specialize (Q i). unfold G in Q. rewrite Ha, Hb in Q. cbn in Q.
  injection Q as Q _ _ _ _. congruence.
Qed.
Lemma sim_refl h : RI h -> sim h h.
Proof. intros H. split; [apply geq_refl|]. split; [exact H|apply eofmono_refl]. Qed.
Lemma sim_trans a b c : sim a b -> sim b c -> sim a c.
Proof.
  intros (A1 & A2 & A3) (B1 & B2 & B3). split; [eapply geq_trans; eauto|]. split; [exact B2|].
  eapply eofmono_trans; eauto. now apply geq_cls.
Qed.

Lemma RI_upd h i o : RI h -> oinv o -> RI (upd h i (Some o)).
Proof.
  intros H K j p. unfold upd. destruct (j =? i); [|apply H]. intros X; injection X as <-. exact K.
Qed.

(** Replacing an object by one with the same place in the graph. *)
Lemma sim_upd h i o o' : RI h -> h i = Some o -> gn o' = gn o -> oinv o' ->
  (cls_of o = ClClient -> kept (s_ring o) (s_ring o')) ->
  sim h (upd h i (Some o')).
Proof.
  intros HR Hi HG HO HF. split; [|split].
  - intros j. rewrite G_upd. destruct (Nat.eqb_spec j i) as [->|N]; [|reflexivity].
    cbn [option_map]. rewrite (G_of _ _ Hi). now rewrite HG.
  - now apply RI_upd.
  - intros j p Hj Hc. destruct (Nat.eqb_spec j i) as [->|N].
    + rewrite upd_same. rewrite Hi in Hj. injection Hj as <-. eauto.
    + rewrite upd_other by exact N. exists p. split; [exact Hj|apply kept_refl].
Qed.

Lemma sim_some h h' i o : sim h h' -> h i = Some o -> exists o', h' i = Some o' /\ gn o' = gn o.
Proof.
  intros (Q & _) H. specialize (Q i). rewrite (G_of _ _ H) in Q. symmetry in Q. now apply G_some in Q.
Qed.
Lemma sim_none h h' i : sim h h' -> h i = None -> h' i = None.
Proof. intros (Q & _) H. specialize (Q i). unfold G in Q. rewrite H in Q. destruct (h' i); [discriminate|reflexivity]. Qed.
Lemma sim_back h h' i o' : sim h h' -> h' i = Some o' -> exists o, h i = Some o /\ gn o' = gn o.
Proof.
  intros (Q & _) H. specialize (Q i). rewrite (G_of _ _ H) in Q. apply G_some in Q.
  destruct Q as (o & A & B). exists o. auto.
Qed.
Lemma sim_RI h h' : sim h h' -> RI h'. Proof. intros H; apply H. Qed.
Lemma sim_WF h h' : sim h h' -> WFg (G h) -> WFg (G h').
Proof. intros (Q & _). now apply WFg_geq. Qed.

Lemma gn_parts o o' : gn o' = gn o -> cls_of o' = cls_of o /\ s_readers o' = s_readers o /\
  s_writers o' = s_writers o /\ r_bcast (s_req o') = r_bcast (s_req o) /\ s_log o' = s_log o.
Proof. unfold gn. intros H. injection H as A B C D F. auto. Qed.

(** A fold of operations each of which is a [sim]. *)
Lemma fold_sim {A} (f : heap -> A -> res heap) (l : list A) h :
  RI h ->
  (forall a h1, In a l -> sim h h1 -> exists h2, f h1 a = Ok h2 /\ sim h1 h2) ->
  exists h', foldr_res f h l = Ok h' /\ sim h h'.
Proof.
  intros HR. assert (X : forall h0, sim h h0 ->
     (forall a h1, In a l -> sim h h1 -> exists h2, f h1 a = Ok h2 /\ sim h1 h2) ->
     exists h', foldr_res f h0 l = Ok h' /\ sim h0 h').
  { induction l as [|a l IH]; intros h0 S0 H; cbn [foldr_res].
    - exists h0. split; [reflexivity|]. apply sim_refl. now apply sim_RI in S0.
    - destruct (H a h0 (or_introl eq_refl) S0) as (h1 & A1 & A2). rewrite A1. cbn [bind].
      destruct (IH h1) as (h' & B1 & B2).
      + eapply sim_trans; eauto.
      + intros b h2 Hb. apply H. now right.
      + exists h'. split; [exact B1|]. eapply sim_trans; eauto. }
  intros H. apply X; [now apply sim_refl|exact H].
Qed.

(** write_obj_data *)
Lemma write_kind (o o' : obj) d i n : write_obj_data SZ o d i = Ok (n, o') ->
  kcls (o_kind o') = kcls (o_kind o) /\ o_open o' = o_open o /\ o_eof o' = o_eof o /\
  is_suspended o' = is_suspended o /\ is_quiet o' = is_quiet o /\ o_pollin o' = o_pollin o.
Proof.
  unfold write_obj_data. destruct d as [|b d]; [intros X; injection X as _ <-; auto 9|].
  destruct (o_eof o) eqn:Ee; [intros X; injection X as _ <-; rewrite ?Ee; auto 9|].
  destruct (i && is_client o && is_quiet o); [intros X; injection X as _ <-; rewrite Ee; auto 9|].
  intros H. repeat (apply bind_ok in H; destruct H as (? & ? & H)).
  destruct x2 as [b2 i2]. apply bind_ok in H; destruct H as (? & ? & H). injection H as _ <-.
  unfold set_pollout, is_suspended, is_quiet in *.
  destruct (o_kind o) as [q s|ls|] eqn:K; cbn in *; rewrite ?K in *; cbn in *;
    try destruct s; cbn; rewrite ?K, ?Ee; cbn; try destruct i; cbn; rewrite ?K; auto 8.
Qed.

Lemma write_keeps r r' d i : Inv SZ r -> abs SZ r' = fst (qstep (SZ - 1) (abs SZ r) (OWrite d i)) ->
  pending SZ r <> [] -> pending SZ r' <> [].
Proof.
  intros HI HA HP. apply (f_equal q_pending) in HA. cbn [qstep abs q_pending] in HA.
  pose proof HSZ as Hs. fold SZ in Hs.
  destruct (accepts _ _) in HA; cbn [fst q_pending abs] in HA; rewrite HA; [|exact HP].
  unfold enqueue. intros X. apply (f_equal (@length Z)) in X. rewrite lastn_length, app_length in X. cbn [length] in X.
  destruct (pending SZ r) as [|b p]; [congruence|]. cbn [length] in X. lia.
Qed.

Lemma ring_write o d i : oinv o -> exists n r, write_obj_data SZ (s_ring o) d i = Ok (n, r) /\
  gn (set_ring o r) = gn o /\ oinv (set_ring o r) /\ kept (s_ring o) r.
Proof.
  intros (HI & HT & HF). destruct (write_abs d i HSZ HI) as (n & r & A & HI' & HA).
  exists n, r. split; [exact A|]. destruct (write_kind _ _ _ A) as (K1 & K2 & K3 & K4 & K5 & K6).
  split; [unfold gn, cls_of; cbn; now rewrite K1|].
  split; [|unfold kept; rewrite K3; split; [auto|]; split; [|auto]; now apply write_keeps with (1 := HI) (2 := HA)].
  split; [exact HI'|]. split; [exact HT|]. unfold cls_of. cbn [s_ring set_ring]. rewrite K1. intros Hc.
  apply (@step_sched SZ (s_ring o) (OWrite d i) r [] HSZ HI I (HF Hc)).
  unfold RingModel.step. fold SZ in A. rewrite A. reflexivity.
Qed.

Lemma put_data_ok h i o d info : RI h -> h i = Some o ->
  exists h', put_data E h i d info = Ok h' /\ sim h h' /\
    exists n r, write_obj_data SZ (s_ring o) d info = Ok (n, r) /\ h' = upd h i (Some (set_ring o r)).
Proof.
  intros HR Hi. destruct (ring_write d info (HR i o Hi)) as (n & r & A & B & C & D).
  unfold put_data. rewrite (at_ok _ _ Hi). cbn [bind]. fold SZ. rewrite A. cbn [bind snd].
  eexists; split; [reflexivity|]. split; [|eauto]. apply sim_upd with o; auto.
Qed.

(** write_log_data *)
Lemma write_msgs_kind (ms : list (list Z)) : forall o, oinv o ->
  exists n r, write_msgs SZ (s_ring o) ms = Ok (n, r) /\ gn (set_ring o r) = gn o /\ oinv (set_ring o r).
Proof.
  induction ms as [|m ms IH]; intros o HO; cbn [write_msgs].
  - exists 0, (s_ring o). split; [reflexivity|]. destruct o; cbn. split; [reflexivity|exact HO].
  - destruct (ring_write m false HO) as (n & r & A & B & C & _). rewrite A. cbn [bind snd fst].
    destruct (IH (set_ring o r) C) as (n2 & r2 & A2 & B2 & C2). cbn [s_ring set_ring] in A2.
    rewrite A2. cbn [bind snd fst]. exists (n + n2), r2. split; [reflexivity|].
    split; [|exact C2]. transitivity (gn (set_ring o r)); [exact B2|exact B].
Qed.

Lemma put_log_ok h i o d : RI h -> h i = Some o -> cls_of o = ClLog -> bytes_ok d ->
  exists h', put_log E h i d = Ok h' /\ sim h h'.
Proof.
  intros HR Hi Hc Hb. unfold put_log. rewrite (at_ok _ _ Hi). cbn [bind].
  unfold write_log_data, line_state. unfold cls_of, kcls in Hc.
  destruct (o_kind (s_ring o)) as [q s|ls|] eqn:Hk; try discriminate. cbn [bind].
  assert (X : exists ms ls' k', log_format (e_sz E) (e_dbg E) (e_clock E i) (s_lopt o) (e_wbuf E) d ls (s_stamps o)
      = Ok (ms, ls', k')).
  { destruct HE as (_ & HM & _ & HW & _ & HC & _).
    destruct (got_processing (s_lopt o)) eqn:HG.
    - destruct (@format_ok (e_sz E) (e_dbg E) (e_clock E i) (s_lopt o) d (e_wbuf E) ls (s_stamps o) (s_stamps o))
        as (ms & j & A & _); [exact (HC i)|auto|auto|auto|auto|auto|]. eauto.
    - unfold log_format. destruct (Nat.leb_spec MINBUF (e_sz E - 1)); [|lia]. cbn [assert_ bind].
      rewrite HG. cbn. eauto. }
  destruct X as (ms & ls' & k' & ->). cbn [bind].
  destruct (write_msgs_kind ms (HR i o Hi)) as (n & r & A & B & C). fold SZ. rewrite A. cbn [bind snd fst].
  eexists; split; [reflexivity|].
  apply gn_parts in B. destruct B as (B & _). unfold cls_of in B. cbn [s_ring set_ring] in B. rewrite Hk in B. cbn in B.
  apply sim_upd with o; auto.
  - unfold gn, cls_of, set_line. cbn. now rewrite Hk.
  - destruct C as (C1 & C2 & C3). split; [exact C1|]. split; [exact C2|].
    unfold cls_of. cbn. discriminate.
  - unfold cls_of. rewrite Hk. discriminate.
Qed.
End Env.
