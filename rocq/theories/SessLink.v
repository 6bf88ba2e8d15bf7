(** The operations on links. *)
From Verif Require Import Base BaseProof RingModel RingSpec RingProof LogModel
  TelnetModel EscModel SessModel SessSpec SessInv.
Set Implicit Arguments.

Definition gmap (g : graph) (fr fw : nat -> list nat -> list nat) : graph :=
  fun i => match g i with
           | None => None
           | Some n => Some (mkG (g_cls n) (fr i (g_rd n)) (fw i (g_wr n)) (g_bc n) (g_log n))
           end.
Definition same (i : nat) (l : list nat) := l.
Definition at1 (x : nat) (f : list nat -> list nat) (i : nat) (l : list nat) :=
  if i =? x then f l else l.

(** The link from [s] to [d] removed. *)
Definition cutg (s d : nat) (g : graph) : graph := gmap g (at1 s (del d)) (at1 d (del s)).
(** ... added. *)
Definition joing (s d : nat) (g : graph) : graph :=
  gmap g (at1 s (fun l => l ++ [d])) (at1 d (fun l => l ++ [s])).
(** All links of the objects in [ws] removed. *)
Definition keep (ws l : list nat) : list nat := filter (fun y => negb (mem y ws)) l.
Definition drop (ws : list nat) (i : nat) (l : list nat) : list nat :=
  if mem i ws then [] else keep ws l.
Definition isos (ws : list nat) (g : graph) : graph := gmap g (drop ws) (drop ws).

Lemma gmap_some g fr fw i n : gmap g fr fw i = Some n -> exists m, g i = Some m /\
  n = mkG (g_cls m) (fr i (g_rd m)) (fw i (g_wr m)) (g_bc m) (g_log m).
Proof. unfold gmap. destruct (g i) as [m|]; [|discriminate]. intros X; injection X as <-. eauto. Qed.
Lemma gmap_of g fr fw i m : g i = Some m ->
  gmap g fr fw i = Some (mkG (g_cls m) (fr i (g_rd m)) (fw i (g_wr m)) (g_bc m) (g_log m)).
Proof. unfold gmap. now intros ->. Qed.
Lemma gmap_geq g g' fr fw : geq g g' -> geq (gmap g fr fw) (gmap g' fr fw).
Proof. intros H i. unfold gmap. now rewrite H. Qed.

Lemma keep_In ws y l : In y (keep ws l) <-> In y l /\ ~ In y ws.
Proof. unfold keep. rewrite filter_In, negb_true_iff, mem_not. tauto. Qed.
Lemma drop_In ws i y l : In y (drop ws i l) <-> In y l /\ ~ In y ws /\ ~ In i ws.
Proof.
  unfold drop. destruct (mem i ws) eqn:M.
  - apply mem_In in M. cbn. tauto.
  - apply mem_not in M. rewrite keep_In. tauto.
Qed.
Lemma keep_length ws l : length (keep ws l) <= length l.
Proof. unfold keep. induction l as [|z l IH]; cbn; [lia|]. destruct (negb (mem z ws)); cbn; lia. Qed.
Lemma drop_length ws i l : length (drop ws i l) <= length l.
Proof. unfold drop. destruct (mem i ws); [cbn; lia|apply keep_length]. Qed.

(** Removing links keeps a graph well formed. *)
Lemma WFg_sub g fr fw :
  (forall i l y, In y (fr i l) -> In y l) -> (forall i l y, In y (fw i l) -> In y l) ->
  (forall i l, NoDup l -> NoDup (fr i l)) -> (forall i l, NoDup l -> NoDup (fw i l)) ->
  (forall i l, length (fr i l) <= length l) -> (forall i l, length (fw i l) <= length l) ->
  (forall a b na nb, g a = Some na -> g b = Some nb -> In b (g_rd na) -> In a (g_wr nb) ->
     (In b (fr a (g_rd na)) <-> In a (fw b (g_wr nb)))) ->
  WFg g -> WFg (gmap g fr fw).
Proof.
  intros R1 R2 N1 N2 L1 L2 X W. constructor.
  - intros a na b Ha Hb. apply gmap_some in Ha. destruct Ha as (ma & Ha & ->). cbn in *.
    destruct (wg_r W a b Ha (R1 _ _ _ Hb)) as (mb & A & B & C).
    eexists; split; [apply gmap_of; exact A|]. cbn. split; [|exact C].
    apply (X a b ma mb Ha A (R1 _ _ _ Hb) B). exact Hb.
  - intros b nb a Hb Ha. apply gmap_some in Hb. destruct Hb as (mb & Hb & ->). cbn in *.
    destruct (wg_w W b a Hb (R2 _ _ _ Ha)) as (ma & A & B).
    eexists; split; [apply gmap_of; exact A|]. cbn. apply (X a b ma mb A Hb B (R2 _ _ _ Ha)). exact Ha.
  - intros a n Ha. apply gmap_some in Ha. destruct Ha as (ma & Ha & ->). cbn.
    destruct (wg_nd W a Ha). auto.
  - intros a n Ha Hc. apply gmap_some in Ha. destruct Ha as (ma & Ha & ->). cbn in Hc.
    pose proof (wg_cl W a Ha Hc) as K. unfold client_ok in *. cbn.
    destruct (g_bc ma).
    + specialize (L2 a (g_wr ma)). rewrite K in *. destruct (fw a []); [reflexivity|cbn in L2; lia].
    + destruct K as (K1 & K2 & K3). specialize (L1 a (g_rd ma)). specialize (L2 a (g_wr ma)).
      split; [lia|]. split; [lia|]. intros k k' A B. apply K3; eauto.
  - intros a n l Ha Hl. apply gmap_some in Ha. destruct Ha as (ma & Ha & ->). cbn in Hl.
    destruct (wg_log W a Ha Hl) as (nl & A & B). eexists; split; [apply gmap_of; exact A|]. exact B.
Qed.

Lemma WFg_cut s d g : WFg g -> WFg (cutg s d g).
Proof.
  apply WFg_sub; unfold at1.
  - intros i l y. destruct (i =? s); [rewrite del_In; tauto|auto].
  - intros i l y. destruct (i =? d); [rewrite del_In; tauto|auto].
  - intros i l. destruct (i =? s); auto using NoDup_del.
  - intros i l. destruct (i =? d); auto using NoDup_del.
  - intros i l. destruct (i =? s); auto using del_length.
  - intros i l. destruct (i =? d); auto using del_length.
  - intros a b na nb _ _ H1 H2. destruct (Nat.eqb_spec a s), (Nat.eqb_spec b d); rewrite ?del_In; subst; tauto.
Qed.

Lemma WFg_isos ws g : WFg g -> WFg (isos ws g).
Proof.
  apply WFg_sub.
  - intros i l y H. now apply drop_In in H.
  - intros i l y H. now apply drop_In in H.
  - intros i l H. unfold drop. destruct (mem i ws); [constructor|]. now apply NoDup_filter.
  - intros i l H. unfold drop. destruct (mem i ws); [constructor|]. now apply NoDup_filter.
  - intros; apply drop_length.
  - intros; apply drop_length.
  - intros a b na nb _ _ H1 H2. rewrite !drop_In. tauto.
Qed.

(** Adding a link. *)
Definition may_link (g : graph) (s d : nat) : Prop :=
  exists ns nd, g s = Some ns /\ g d = Some nd /\ typed (g_cls ns) (g_cls nd) = true /\
    ~ In d (g_rd ns) /\ ~ In s (g_wr nd) /\
    (g_cls ns = ClClient -> g_bc ns = false -> g_rd ns = [] /\ forall k, In k (g_wr ns) -> k = d) /\
    (g_cls nd = ClClient -> g_bc nd = false /\ g_wr nd = [] /\ forall k, In k (g_rd nd) -> k = s).

Lemma typed_neq a b : typed a b = true -> a <> b. Proof. destruct a, b; discriminate || congruence. Qed.

Lemma NoDup_snoc {A} (l : list A) x : NoDup l -> ~ In x l -> NoDup (l ++ [x]).
Proof.
  intros H N. induction H as [|y l Hy H IH]; cbn; [constructor; auto; constructor|].
  constructor.
  - rewrite in_app_iff. cbn in *. intros [K|[K|[]]]; [auto|]. apply N. now left.
  - apply IH. intros K. apply N. now right.
Qed.

Lemma WFg_join s d g : WFg g -> may_link g s d -> WFg (joing s d g).
Proof.
  intros W (ns & nd & Hs & Hd & HT & N1 & N2 & C1 & C2).
  assert (SD : s <> d). { intros ->. rewrite Hs in Hd. injection Hd as <-. now apply typed_neq in HT. }
  unfold joing. constructor.
  - intros a na b Ha Hb. apply gmap_some in Ha. destruct Ha as (ma & Ha & ->). cbn in *. unfold at1 in Hb.
    assert (Hb' : In b (g_rd ma) \/ (a = s /\ b = d)).
    { destruct (Nat.eqb_spec a s) as [->|]; [|auto]. apply in_app_iff in Hb. cbn in Hb.
      destruct Hb as [|[|[]]]; auto. }
    destruct Hb' as [Hb'|[-> ->]].
    + destruct (wg_r W a b Ha Hb') as (mb & A & B & C). eexists; split; [apply gmap_of; exact A|]. cbn.
      split; [|exact C]. unfold at1. destruct (b =? d); [apply in_app_iff|]; auto.
    + rewrite Hs in Ha. injection Ha as <-. eexists; split; [apply gmap_of; exact Hd|]. cbn.
      split; [|exact HT]. unfold at1. rewrite Nat.eqb_refl. apply in_app_iff. right. now left.
  - intros b nb a Hb Ha. apply gmap_some in Hb. destruct Hb as (mb & Hb & ->). cbn in *. unfold at1 in Ha.
    assert (Ha' : In a (g_wr mb) \/ (a = s /\ b = d)).
    { destruct (Nat.eqb_spec b d) as [->|]; [|auto]. apply in_app_iff in Ha. cbn in Ha.
      destruct Ha as [|[|[]]]; auto. }
    destruct Ha' as [Ha'|[-> ->]].
    + destruct (wg_w W b a Hb Ha') as (ma & A & B). eexists; split; [apply gmap_of; exact A|]. cbn.
      unfold at1. destruct (a =? s); [apply in_app_iff|]; auto.
    + eexists; split; [apply gmap_of; exact Hs|]. cbn. unfold at1. rewrite Nat.eqb_refl.
      apply in_app_iff. right. now left.
  - intros a n Ha. apply gmap_some in Ha. destruct Ha as (ma & Ha & ->). cbn.
    destruct (wg_nd W a Ha) as [D1 D2]. unfold at1.
    split.
    + destruct (Nat.eqb_spec a s) as [->|]; [|exact D1]. rewrite Hs in Ha; injection Ha as <-. now apply NoDup_snoc.
    + destruct (Nat.eqb_spec a d) as [->|]; [|exact D2]. rewrite Hd in Ha; injection Ha as <-. now apply NoDup_snoc.
  - intros a n Ha Hc. apply gmap_some in Ha. destruct Ha as (ma & Ha & ->). cbn in Hc.
    pose proof (wg_cl W a Ha Hc) as K. unfold client_ok in *. cbn. unfold at1.
    destruct (Nat.eq_dec a s) as [->|NS]; [|destruct (Nat.eq_dec a d) as [->|ND]].
    + rewrite Nat.eqb_refl. destruct (Nat.eqb_spec s d); [congruence|]. rewrite Hs in Ha. injection Ha as <-.
      destruct (g_bc ns) eqn:EB; [exact K|]. destruct (C1 Hc eq_refl) as [R1 R2]. rewrite R1. cbn.
      split; [lia|]. split; [apply K|]. intros k k' [<-|[]] A. symmetry. now apply R2.
    + rewrite Nat.eqb_refl. destruct (Nat.eqb_spec d s); [congruence|]. rewrite Hd in Ha. injection Ha as <-.
      destruct (C2 Hc) as (R0 & R1 & R2). rewrite R0 in *. rewrite R1. cbn.
      split; [apply K|]. split; [lia|]. intros k k' A [<-|[]]. now apply R2.
    + destruct (Nat.eqb_spec a s); [congruence|]. destruct (Nat.eqb_spec a d); [congruence|]. exact K.
  - intros a n l Ha Hl. apply gmap_some in Ha. destruct Ha as (ma & Ha & ->). cbn in Hl.
    destruct (wg_log W a Ha Hl) as (nl & A & B). eexists; split; [apply gmap_of; exact A|]. exact B.
Qed.

Section Env.
Variable E : env.
Hypothesis HE : env_ok E.
Let SZ := e_sz E.

Definition HOK (h : heap) : Prop := WFg (G h) /\ RI E h.

Lemma sim_HOK h h' : sim E h h' -> HOK h -> HOK h'.
Proof. intros S [W R]. split; [now apply (sim_WF S)|now apply (sim_RI S)]. Qed.

Lemma read_live h i o b : HOK h -> h i = Some o -> In b (s_readers o) ->
  exists ob, h b = Some ob /\ In i (s_writers ob) /\ typed (cls_of o) (cls_of ob) = true.
Proof.
  intros [W R] Hi Hb. destruct (wg_r W i b (G_of _ _ Hi)) as (nb & A & B & C); [exact Hb|].
  apply G_some in A. destruct A as (ob & A & <-). eauto.
Qed.
Lemma write_live h i o a : HOK h -> h i = Some o -> In a (s_writers o) ->
  exists oa, h a = Some oa /\ In i (s_readers oa) /\ typed (cls_of oa) (cls_of o) = true.
Proof.
  intros HK Hi Ha. assert (HK' := HK). destruct HK' as [W R].
  destruct (wg_w W i a (G_of _ _ Hi) Ha) as (na & A & B).
  apply G_some in A. destruct A as (oa & A & <-). cbn in B. exists oa. split; [exact A|]. split; [exact B|].
  destruct (read_live a i HK A B) as (o' & X & Y & Z). rewrite Hi in X. now injection X as <-.
Qed.

(** notify_console_objs *)
Lemma notify_ok h k c msg : HOK h -> h k = Some c -> cls_of c = ClCons ->
  exists h', notify E h k msg = Ok h' /\ sim E h h'.
Proof.
  intros HK Hk Hc. assert (HR : RI E h) by apply HK. unfold notify. rewrite (at_ok _ _ Hk). cbn [bind].
  rewrite (proj2 (console_b_cls c) Hc). cbn [assert_ bind].
  destruct msg as [|m0 msg]; [exists h; split; [reflexivity|now apply sim_refl]|].
  remember (m0 :: msg) as d eqn:Ed. clear Ed.
  destruct (@fold_sim E _ (fun h i => put_data E h i d true) (s_readers c) h HR) as (h1 & A1 & S1).
  { intros a h1 Ha S. destruct (read_live k a HK Hk Ha) as (oa & X & _).
    destruct (sim_some a S X) as (oa' & X' & _).
    destruct (put_data_ok HE a d true (sim_RI S) X') as (h2 & B1 & B2 & _). eauto. }
  rewrite A1. cbn [bind].
  destruct (@fold_sim E _ (fun h i => if mem i (s_readers c) then Ok h else put_data E h i d true)
              (s_writers c) h1 (sim_RI S1)) as (h2 & A2 & S2).
  { intros a h2 Ha S. destruct (mem a (s_readers c)); [exists h2; split; [reflexivity|]; apply sim_refl; eapply sim_RI; eauto|].
    destruct (write_live k a HK Hk Ha) as (oa & X & _).
    destruct (sim_some a (sim_trans S1 S) X) as (oa' & X' & _).
    destruct (put_data_ok HE a d true (sim_RI S) X') as (h3 & B1 & B2 & _). eauto. }
  exists h2. split; [exact A2|]. eapply sim_trans; eauto.
Qed.

(** validate_obj_links never fails *)
Lemma links_ok_w h x l : (forall i, In i l -> exists o, h i = Some o /\ In x (s_writers o)) ->
  links_ok h s_writers x l = Ok true.
Proof.
  induction l as [|i l IH]; intros H; cbn [links_ok]; [reflexivity|].
  destruct (H i (or_introl eq_refl)) as (o & A & B). rewrite (at_ok _ _ A). cbn [bind].
  rewrite IH by (intros; apply H; now right). cbn [bind]. apply mem_In in B. now rewrite B.
Qed.
Lemma links_ok_r h x l : (forall i, In i l -> exists o, h i = Some o /\ In x (s_readers o)) ->
  links_ok h s_readers x l = Ok true.
Proof.
  induction l as [|i l IH]; intros H; cbn [links_ok]; [reflexivity|].
  destruct (H i (or_introl eq_refl)) as (o & A & B). rewrite (at_ok _ _ A). cbn [bind].
  rewrite IH by (intros; apply H; now right). cbn [bind]. apply mem_In in B. now rewrite B.
Qed.
Lemma validate_ok h x o : HOK h -> h x = Some o -> validate E h x = Ok tt.
Proof.
  intros HK Hx. unfold validate. destruct (e_dbg E); [|reflexivity].
  unfold validate_obj_links. rewrite (at_ok _ _ Hx). cbn [bind].
  rewrite links_ok_w.
  - cbn [bind]. rewrite links_ok_r; [reflexivity|].
    intros i Hi. destruct (write_live x i HK Hx Hi) as (p & A & B & _). eauto.
  - intros i Hi. destruct (read_live x i HK Hx Hi) as (p & A & B & _). eauto.
Qed.

(** How a heap may change: the graph becomes [g'], and a client that loses its
    last link gets the end of file mark. *)
Definition unlinked (o : sobj) : Prop := s_readers o = [] /\ s_writers o = [].
Definition eofset (h h' : heap) : Prop :=
  forall i o o', h i = Some o -> h' i = Some o' -> cls_of o = ClClient -> unlinked o' ->
    unlinked o \/ o_eof (s_ring o') = true.
Definition mv (g' : graph) (h h' : heap) : Prop :=
  geq (G h') g' /\ RI E h' /\ eofmono E h h' /\ eofset h h'.
Definition gcls (g g' : graph) : Prop := forall i n n', g i = Some n -> g' i = Some n' -> g_cls n' = g_cls n.

Lemma gcls_heap h h' g' : geq (G h') g' -> gcls (G h) g' ->
  forall i oa ob, h i = Some oa -> h' i = Some ob -> cls_of ob = cls_of oa.
Proof.
  intros Q C i oa ob A B. apply (C i (gn oa) (gn ob)); [now apply G_of|]. rewrite <- Q. now apply G_of.
Qed.

Lemma gcls_gmap g fr fw : gcls g (gmap g fr fw).
Proof. intros i n n' A B. rewrite (gmap_of _ _ _ _ A) in B. now injection B as <-. Qed.
Lemma gcls_refl g : gcls g g. Proof. intros i n n' A B. congruence. Qed.
Lemma gcls_trans a b c : (forall i, a i <> None -> b i <> None) -> gcls a b -> gcls b c -> gcls a c.
Proof.
  intros L H K i n n' A B. destruct (b i) as [m|] eqn:X.
  - rewrite (K i m n' X B). eauto.
  - exfalso. apply (L i); [congruence|exact X].
Qed.

Lemma sim_mv h h' : sim E h h' -> mv (G h) h h'.
Proof.
  intros S. assert (S' := S). destruct S' as (A & B & C). split; [now apply geq_sym|]. split; [exact B|]. split; [exact C|].
  intros i o o' Hi Hi' _ U. left. destruct (sim_some i S Hi) as (p & X & Y). rewrite Hi' in X. injection X as <-.
  apply gn_parts in Y. unfold unlinked in *. destruct Y as (_ & <- & <- & _). exact U.
Qed.

Lemma mv_trans g1 g2 h h1 h2 : gcls (G h) g1 -> mv g1 h h1 -> mv g2 h1 h2 -> mv g2 h h2.
Proof.
  intros C (A1 & A2 & A3 & A4) (B1 & B2 & B3 & B4).
  pose proof (gcls_heap A1 C) as CH.
  split; [exact B1|]. split; [exact B2|]. split; [eapply eofmono_trans; eauto|].
  intros i o o2 Hi H2 Hc U2.
  destruct (A3 i o Hi Hc) as (o1 & H1 & _).
  assert (Hc1 : cls_of o1 = ClClient) by (rewrite (CH i o o1); auto).
  destruct (B4 i o1 o2 H1 H2 Hc1 U2) as [U1|]; [|auto].
  destruct (A4 i o o1 Hi H1 Hc U1) as [|X]; [auto|]. right.
  destruct (B3 i o1 H1 Hc1) as (o2' & Y & K & _). rewrite H2 in Y. injection Y as <-. auto.
Qed.

Lemma mv_geq g g' h h' : geq g g' -> mv g h h' -> mv g' h h'.
Proof. intros Q (A & B). split; [eapply geq_trans; eauto|exact B]. Qed.

Lemma mv_some g h h' i o : mv g h h' -> h i = Some o -> g i <> None -> exists o', h' i = Some o'.
Proof.
  intros (A & _) H N. specialize (A i). destruct (g i) as [n|]; [|congruence].
  apply G_some in A. destruct A as (o' & X & _). eauto.
Qed.

Lemma no_links_iff o : no_links o = true <-> unlinked o.
Proof. unfold no_links, unlinked. destruct (s_readers o), (s_writers o); split; try discriminate; intuition discriminate. Qed.

Lemma modify_ok h i o f : h i = Some o -> modify h i f = Ok (upd h i (Some (f o))).
Proof. intros H. unfold modify. now rewrite (at_ok _ _ H). Qed.

Lemma oinv_same o o' : s_ring o' = s_ring o -> s_iac o' = s_iac o -> oinv E o -> oinv E o'.
Proof. unfold oinv, cls_of. now intros -> ->. Qed.

(** gotEOF = 1 *)
Lemma eof_sim h i o : HOK h -> h i = Some o ->
  sim E h (upd h i (Some (set_ring o (set_eof (s_ring o))))).
Proof.
  intros [W R] Hi. apply sim_upd with o; auto.
  - destruct (R i o Hi) as (A & B & C). split; [exact A|]. split; [exact B|]. exact C.
  - intros _. unfold kept. cbn. auto.
Qed.

(** unlink_objs *)
Lemma unlink_objs_ok h s d os od : HOK h -> h s = Some os -> h d = Some od ->
  typed (cls_of os) (cls_of od) = true ->
  exists h', unlink_objs E h s d = Ok h' /\ mv (cutg s d (G h)) h h' /\ HOK h'.
Proof.
  intros HK Hs Hd HT. assert (HR : RI E h) by apply HK.
  assert (SD : s <> d). { intros ->. rewrite Hs in Hd. injection Hd as <-. now apply typed_neq in HT. }
  unfold unlink_objs. rewrite (modify_ok _ _ _ Hs). cbn [bind].
  set (os1 := set_readers os (del d (s_readers os))). set (h1 := upd h s (Some os1)).
  assert (Hd1 : h1 d = Some od) by (unfold h1; rewrite upd_other; congruence).
  rewrite (at_ok _ _ Hd1), (modify_ok _ _ _ Hd1). cbn [bind].
  set (od1 := set_writers od (del s (s_writers od))). set (h2 := upd h1 d (Some od1)).
  assert (Hs2 : h2 s = Some os1) by (unfold h2, h1; rewrite upd_other, upd_same; congruence).
  assert (Hd2 : h2 d = Some od1) by (unfold h2; now rewrite upd_same).
  rewrite (at_ok _ _ Hs2). cbn [bind].
  assert (Q2 : geq (G h2) (cutg s d (G h))).
  { intros i. unfold h2, h1, cutg, gmap, at1. rewrite !G_upd.
    destruct (Nat.eqb_spec i d) as [->|]; [rewrite (G_of _ _ Hd); destruct (Nat.eqb_spec d s); [congruence|reflexivity]|].
    destruct (Nat.eqb_spec i s) as [->|]; [rewrite (G_of _ _ Hs); reflexivity|]. unfold G.
    destruct (h i) as [o|]; reflexivity. }
  assert (R2 : RI E h2).
  { unfold h2, h1. apply RI_upd; [apply RI_upd; [exact HR|]|].
    - apply (@oinv_same os); auto. eapply HR; eauto.
    - apply (@oinv_same od); auto. eapply HR; eauto. }
  assert (W2 : WFg (G h2)). { eapply WFg_geq; [apply geq_sym; exact Q2|]. apply WFg_cut. apply HK. }
  assert (K2 : HOK h2) by (split; assumption).
  assert (M2 : eofmono E h h2).
  { intros i o Hi Hc. destruct (Nat.eq_dec i d) as [->|Nd].
    - exists od1. split; [exact Hd2|]. rewrite Hd in Hi. injection Hi as <-. apply kept_refl.
    - destruct (Nat.eq_dec i s) as [->|Ns].
      + exists os1. split; [exact Hs2|]. rewrite Hs in Hi. injection Hi as <-. apply kept_refl.
      + exists o. split; [|apply kept_refl]. unfold h2, h1. now rewrite !upd_other. }
  (* the departure message *)
  assert (X3 : exists h3, (if mem s (s_writers od) && client_b os1 && console_b od
            then notify E h2 d (e_txt E (NDeparted s d)) else Ok h2) = Ok h3 /\ sim E h2 h3).
  { destruct (mem s (s_writers od) && client_b os1 && console_b od) eqn:X.
    - apply notify_ok with od1; auto. apply andb_prop in X. destruct X as [_ X]. now apply console_b_cls in X.
    - exists h2. split; [reflexivity|now apply sim_refl]. }
  destruct X3 as (h3 & -> & S3). cbn [bind]. pose proof (sim_HOK S3 K2) as K3.
  destruct (sim_some s S3 Hs2) as (os3 & Hs3 & Gs3). destruct (sim_some d S3 Hd2) as (od3 & Hd3 & Gd3).
  rewrite (at_ok _ _ Hs3), (at_ok _ _ Hd3). cbn [bind].
  pose proof (gn_parts Gs3) as (Cs & Rs & Ws & _). pose proof (gn_parts Gd3) as (Cd & Rd & Wd & _).
  assert (Cs' : cls_of os3 = cls_of os) by (rewrite Cs; reflexivity).
  assert (Cd' : cls_of od3 = cls_of od) by (rewrite Cd; reflexivity).
  (* the end of file mark *)
  assert (X4 : exists h4, (if client_b os3 && no_links os3 then
              do _ <- assert_ (console_b od3);
              modify h3 s (fun o => set_ring o (set_eof (s_ring o)))
            else if client_b od3 && no_links od3 then
              do _ <- assert_ (console_b os3);
              modify h3 d (fun o => set_ring o (set_eof (s_ring o)))
            else Ok h3) = Ok h4 /\ sim E h3 h4 /\
       (client_b os3 && no_links os3 = true -> exists o, h4 s = Some o /\ o_eof (s_ring o) = true) /\
       (client_b od3 && no_links od3 = true -> exists o, h4 d = Some o /\ o_eof (s_ring o) = true)).
  { destruct (client_b os3 && no_links os3) eqn:X.
    - apply andb_prop in X. destruct X as [X1 X2]. apply client_b_cls in X1.
      assert (Y : cls_of od3 = ClCons).
      { rewrite Cs' in X1. rewrite Cd'. rewrite X1 in HT. destruct (cls_of od); cbn in HT; congruence. }
      rewrite (proj2 (console_b_cls od3) Y). cbn [assert_ bind]. rewrite (modify_ok _ _ _ Hs3).
      eexists; split; [reflexivity|]. split; [now apply eof_sim|]. split.
      + intros _. eexists. rewrite upd_same. split; [reflexivity|]. reflexivity.
      + intros Z. apply andb_prop in Z. destruct Z as [Z _]. apply client_b_cls in Z. congruence.
    - destruct (client_b od3 && no_links od3) eqn:Y.
      + apply andb_prop in Y. destruct Y as [Y1 Y2]. apply client_b_cls in Y1.
        assert (Z : cls_of os3 = ClCons).
        { rewrite Cd' in Y1. rewrite Cs'. rewrite Y1 in HT. destruct (cls_of os); cbn in HT; congruence. }
        rewrite (proj2 (console_b_cls os3) Z). cbn [assert_ bind]. rewrite (modify_ok _ _ _ Hd3).
        eexists; split; [reflexivity|]. split; [now apply eof_sim|]. split; [discriminate|].
        intros _. eexists. rewrite upd_same. split; [reflexivity|]. reflexivity.
      + exists h3. split; [reflexivity|]. split; [apply sim_refl; apply K3|]. split; discriminate. }
  destruct X4 as (h4 & -> & S4 & F1 & F2). cbn [bind].
  pose proof (sim_HOK S4 K3) as K4. pose proof (sim_trans S3 S4) as S24.
  destruct (sim_some s S24 Hs2) as (os4 & Hs4 & Gs4). destruct (sim_some d S24 Hd2) as (od4 & Hd4 & Gd4).
  rewrite (validate_ok s K4 Hs4), (validate_ok d K4 Hd4). cbn [bind].
  exists h4. split; [reflexivity|]. split; [|exact K4].
  split; [|split; [apply K4|split]].
  - eapply geq_trans; [|exact Q2]. apply geq_sym. apply S24.
  - eapply eofmono_trans; [|exact M2|apply S24].
    intros i oa ob Ha Hb. assert (gcls (G h) (cutg s d (G h))) by apply gcls_gmap.
    eapply gcls_heap; eauto.
  - intros i o o' Hi Hi' Hc U.
    destruct (Nat.eq_dec i s) as [->|Ns].
    { rewrite Hs in Hi. injection Hi as <-. right. rewrite Hs4 in Hi'. injection Hi' as <-.
      destruct F1 as (p & A & B); [|congruence].
      rewrite (proj2 (client_b_cls os3)) by congruence. cbn. apply no_links_iff.
      apply gn_parts in Gs4. unfold unlinked in *. destruct Gs4 as (_ & Y1 & Y2 & _). rewrite Rs, Ws, <- Y1, <- Y2. exact U. }
    destruct (Nat.eq_dec i d) as [->|Nd].
    { rewrite Hd in Hi. injection Hi as <-. right. rewrite Hd4 in Hi'. injection Hi' as <-.
      destruct F2 as (p & A & B); [|congruence].
      rewrite (proj2 (client_b_cls od3)) by congruence. cbn. apply no_links_iff.
      apply gn_parts in Gd4. unfold unlinked in *. destruct Gd4 as (_ & Y1 & Y2 & _). rewrite Rd, Wd, <- Y1, <- Y2. exact U. }
    left. assert (H2i : h2 i = Some o) by (unfold h2, h1; now rewrite !upd_other).
    destruct (sim_some i S24 H2i) as (p & A & B). rewrite Hi' in A. injection A as <-.
    apply gn_parts in B. unfold unlinked in *. destruct B as (_ & <- & <- & _). exact U.
Qed.

(** unlink_obj *)
Definition isoW (x : nat) (g : graph) : graph := gmap g (fun _ => del x) (at1 x (fun _ => [])).
Definition isoR (x : nat) (g : graph) : graph := gmap g (at1 x (fun _ => [])) (fun _ => del x).

Lemma keep_one x l : keep [x] l = del x l.
Proof. unfold keep, del. apply filter_ext. intros y. cbn. now rewrite orb_false_r. Qed.
Lemma isoRW x g : geq (isoR x (isoW x g)) (isos [x] g).
Proof.
  intros i. unfold isoR, isoW, isos, gmap, at1, drop. destruct (g i) as [n|]; [|reflexivity]. cbn.
  destruct (Nat.eqb_spec i x) as [->|]; cbn; [reflexivity|]. now rewrite !keep_one.
Qed.
Lemma isoW_cut w x g : geq (isoW x (cutg w x g)) (isoW x g).
Proof.
  intros i. unfold isoW, cutg, gmap, at1. destruct (g i) as [n|]; [|reflexivity]. cbn [g_cls g_rd g_wr g_bc g_log].
  destruct (i =? x); destruct (i =? w); rewrite ?del_del; reflexivity.
Qed.
Lemma isoR_cut r x g : geq (isoR x (cutg x r g)) (isoR x g).
Proof.
  intros i. unfold isoR, cutg, gmap, at1. destruct (g i) as [n|]; [|reflexivity]. cbn [g_cls g_rd g_wr g_bc g_log].
  destruct (i =? x); destruct (i =? r); rewrite ?del_del; reflexivity.
Qed.
Lemma gnode_eta n : mkG (g_cls n) (g_rd n) (g_wr n) (g_bc n) (g_log n) = n.
Proof. now destruct n. Qed.
Lemma isoW_none x g n : WFg g -> g x = Some n -> g_wr n = [] -> geq (isoW x g) g.
Proof.
  intros W Hx Hw i. unfold isoW, gmap, at1. destruct (g i) as [m|] eqn:X; [|reflexivity].
  rewrite del_notin.
  - destruct (Nat.eqb_spec i x) as [->|]; [|now rewrite gnode_eta].
    rewrite Hx in X. injection X as <-. rewrite <- Hw. now rewrite gnode_eta.
  - intros Y. destruct (wg_r W i x X Y) as (n' & A & B & _). rewrite Hx in A. injection A as <-.
    rewrite Hw in B. exact B.
Qed.
Lemma isoR_none x g n : WFg g -> g x = Some n -> g_rd n = [] -> geq (isoR x g) g.
Proof.
  intros W Hx Hw i. unfold isoR, gmap, at1. destruct (g i) as [m|] eqn:X; [|reflexivity].
  rewrite del_notin.
  - destruct (Nat.eqb_spec i x) as [->|]; [|now rewrite gnode_eta].
    rewrite Hx in X. injection X as <-. rewrite <- Hw. now rewrite gnode_eta.
  - intros Y. destruct (wg_w W i x X Y) as (n' & A & B). rewrite Hx in A. injection A as <-.
    rewrite Hw in B. exact B.
Qed.

Lemma cut_at s d h h' i o : geq (G h') (cutg s d (G h)) -> h i = Some o ->
  exists o', h' i = Some o' /\ s_readers o' = at1 s (del d) i (s_readers o) /\
    s_writers o' = at1 d (del s) i (s_writers o) /\ cls_of o' = cls_of o.
Proof.
  intros Q H. assert (X := Q i). unfold cutg in X. rewrite (gmap_of _ _ _ _ (G_of _ _ H)) in X. cbn in X.
  apply G_some in X. destruct X as (o' & A & B). exists o'. split; [exact A|].
  unfold gn in B. injection B as B1 B2 B3 B4 B5. auto.
Qed.

Lemma mv_refl h : RI E h -> mv (G h) h h.
Proof. intros R. apply sim_mv. now apply sim_refl. Qed.

Lemma unlink_writers_ok x : forall n h o, HOK h -> h x = Some o -> length (s_writers o) <= n ->
  exists h', unlink_writers E n h x = Ok h' /\ mv (isoW x (G h)) h h' /\ HOK h'.
Proof.
  induction n as [|n IH]; intros h o HK Hx HL; cbn [unlink_writers]; rewrite (at_ok _ _ Hx); cbn [bind].
  - destruct (s_writers o) eqn:X; [|cbn in HL; lia]. exists h. split; [reflexivity|]. split; [|exact HK].
    eapply mv_geq; [|apply mv_refl; apply HK]. apply geq_sym. eapply isoW_none; [apply HK|apply G_of, Hx|exact X].
  - destruct (s_writers o) as [|w ws] eqn:X.
    + exists h. split; [reflexivity|]. split; [|exact HK].
      eapply mv_geq; [|apply mv_refl; apply HK]. apply geq_sym. eapply isoW_none; [apply HK|apply G_of, Hx|exact X].
    + destruct (write_live x w HK Hx) as (ow & Hw & Y & T); [rewrite X; now left|].
      destruct (unlink_objs_ok w x HK Hw Hx T) as (h1 & -> & M1 & K1). cbn [bind].
      destruct (cut_at x (proj1 M1) Hx) as (o1 & Hx1 & R1 & W1 & _).
      unfold at1 in W1. rewrite Nat.eqb_refl, X in W1.
      assert (ND : NoDup (w :: ws)) by (rewrite <- X; apply (wg_nd (proj1 HK) x (G_of _ _ Hx))).
      rewrite (del_head ND) in W1.
      destruct (IH h1 o1 K1 Hx1) as (h2 & -> & M2 & K2); [rewrite W1; cbn in HL; lia|].
      exists h2. split; [reflexivity|]. split; [|exact K2].
      eapply mv_geq; [|eapply mv_trans; [|exact M1|exact M2]].
      * eapply geq_trans; [apply gmap_geq; apply (proj1 M1)|]. apply isoW_cut.
      * apply gcls_gmap.
Qed.

Lemma unlink_readers_ok x : forall n h o, HOK h -> h x = Some o -> length (s_readers o) <= n ->
  exists h', unlink_readers E n h x = Ok h' /\ mv (isoR x (G h)) h h' /\ HOK h'.
Proof.
  induction n as [|n IH]; intros h o HK Hx HL; cbn [unlink_readers]; rewrite (at_ok _ _ Hx); cbn [bind].
  - destruct (s_readers o) eqn:X; [|cbn in HL; lia]. exists h. split; [reflexivity|]. split; [|exact HK].
    eapply mv_geq; [|apply mv_refl; apply HK]. apply geq_sym. eapply isoR_none; [apply HK|apply G_of, Hx|exact X].
  - destruct (s_readers o) as [|w ws] eqn:X.
    + exists h. split; [reflexivity|]. split; [|exact HK].
      eapply mv_geq; [|apply mv_refl; apply HK]. apply geq_sym. eapply isoR_none; [apply HK|apply G_of, Hx|exact X].
    + destruct (read_live x w HK Hx) as (ow & Hw & Y & T); [rewrite X; now left|].
      destruct (unlink_objs_ok x w HK Hx Hw T) as (h1 & -> & M1 & K1). cbn [bind].
      destruct (cut_at x (proj1 M1) Hx) as (o1 & Hx1 & R1 & W1 & _).
      unfold at1 in R1. rewrite Nat.eqb_refl, X in R1.
      assert (ND : NoDup (w :: ws)) by (rewrite <- X; apply (wg_nd (proj1 HK) x (G_of _ _ Hx))).
      rewrite (del_head ND) in R1.
      destruct (IH h1 o1 K1 Hx1) as (h2 & -> & M2 & K2); [rewrite R1; cbn in HL; lia|].
      exists h2. split; [reflexivity|]. split; [|exact K2].
      eapply mv_geq; [|eapply mv_trans; [|exact M1|exact M2]].
      * eapply geq_trans; [apply gmap_geq; apply (proj1 M1)|]. apply isoR_cut.
      * apply gcls_gmap.
Qed.

Lemma unlink_obj_ok h x o : HOK h -> h x = Some o ->
  exists h', unlink_obj E h x = Ok h' /\ mv (isos [x] (G h)) h h' /\ HOK h'.
Proof.
  intros HK Hx. unfold unlink_obj. rewrite (at_ok _ _ Hx). cbn [bind].
  destruct (unlink_writers_ok x HK Hx (le_n _)) as (h1 & -> & M1 & K1). cbn [bind].
  destruct (@mv_some _ _ _ x o M1 Hx) as (o1 & Hx1).
  { unfold isoW. rewrite (gmap_of _ _ _ _ (G_of _ _ Hx)). discriminate. }
  rewrite (at_ok _ _ Hx1). cbn [bind].
  destruct (unlink_readers_ok x K1 Hx1 (le_n _)) as (h2 & -> & M2 & K2).
  exists h2. split; [reflexivity|]. split; [|exact K2].
  eapply mv_geq; [|eapply mv_trans; [|exact M1|exact M2]].
  - eapply geq_trans; [apply gmap_geq; apply (proj1 M1)|]. apply isoRW.
  - apply gcls_gmap.
Qed.

(** link_objs *)
Definition stealing (h : heap) (s d : nat) : bool :=
  match h s, h d with
  | Some os, Some od => client_b os && console_b od && (r_force (s_req os) && negb (length (s_writers od) =? 0))
  | _, _ => false
  end.
Definition base (h : heap) (s d : nat) : graph :=
  if stealing h s d then match h d with Some od => isos (s_writers od) (G h) | None => G h end else G h.
Definition linkg (h : heap) (s d : nat) : graph := joing s d (base h s d).

Lemma drop_app p q i l : drop q i (drop p i l) = drop (p ++ q) i l.
Proof.
  unfold drop. assert (MA : forall y, mem y (p ++ q) = mem y p || mem y q) by (intros; unfold mem; apply existsb_app).
  rewrite MA. destruct (mem i p); destruct (mem i q); cbn; try reflexivity.
  unfold keep. induction l as [|z l IH]; [reflexivity|]. cbn [filter]. rewrite MA.
  destruct (mem z p); cbn [negb orb filter]; [exact IH|]. destruct (mem z q); cbn [negb]; [exact IH|]. now rewrite IH.
Qed.
Lemma isos_app p q g : geq (isos q (isos p g)) (isos (p ++ q) g).
Proof.
  intros i. unfold isos, gmap. destruct (g i) as [n|]; [|reflexivity]. cbn [g_cls g_rd g_wr g_bc g_log]. now rewrite !drop_app.
Qed.
Lemma drop_nil i l : drop [] i l = l.
Proof. unfold drop, keep. cbn. induction l as [|z l IH]; cbn; [|rewrite IH]; reflexivity. Qed.
Lemma isos_nil g : geq (isos [] g) g.
Proof. intros i. unfold isos, gmap. destruct (g i) as [n|]; [|reflexivity]. rewrite !drop_nil. now rewrite gnode_eta. Qed.

Lemma isos_at ws h h' i o : geq (G h') (isos ws (G h)) -> h i = Some o ->
  exists o', h' i = Some o' /\ s_readers o' = drop ws i (s_readers o) /\
    s_writers o' = drop ws i (s_writers o) /\ cls_of o' = cls_of o.
Proof.
  intros Q H. assert (X := Q i). unfold isos in X. rewrite (gmap_of _ _ _ _ (G_of _ _ H)) in X. cbn in X.
  apply G_some in X. destruct X as (o' & A & B). exists o'. split; [exact A|].
  unfold gn in B. injection B as B1 B2 B3 B4 B5. auto.
Qed.

Lemma steal_ok h d od : HOK h -> h d = Some od ->
  forall q p h1, s_writers od = p ++ q -> HOK h1 -> mv (isos p (G h)) h h1 ->
  exists h2, foldr_res (fun h w => do d <- at_ h d;
                          if mem w (s_writers d) then unlink_obj E h w else Ok h) h1 q = Ok h2 /\
    HOK h2 /\ mv (isos (p ++ q) (G h)) h h2.
Proof.
  intros HK Hd. induction q as [|w q IH]; intros p h1 HW K1 M1.
  - exists h1. rewrite app_nil_r. auto.
  - cbn [foldr_res].
    destruct (isos_at d (proj1 M1) Hd) as (od1 & Hd1 & R1 & W1 & C1). rewrite (at_ok _ _ Hd1). cbn [bind].
    assert (ND : NoDup (p ++ w :: q)) by (rewrite <- HW; apply (wg_nd (proj1 HK) d (G_of _ _ Hd))).
    assert (Np : ~ In w p). { intros X. apply NoDup_remove_2 in ND. apply ND, in_app_iff. auto. }
    assert (LV : forall x, In x (s_writers od) -> exists ox, h x = Some ox /\ typed (cls_of ox) (cls_of od) = true).
    { intros x Hx. destruct (write_live d x HK Hd Hx) as (ox & A & _ & B). eauto. }
    assert (Dp : ~ In d p).
    { intros X. destruct (LV d) as (ox & A & B); [rewrite HW; apply in_app_iff; auto|]. rewrite Hd in A. injection A as <-.
      now apply typed_neq in B. }
    assert (MW : mem w (s_writers od1) = true).
    { apply mem_In. rewrite W1. apply drop_In. split; [rewrite HW; apply in_app_iff; right; now left|auto]. }
    rewrite MW. destruct (LV w) as (ow & Hw & _); [rewrite HW; apply in_app_iff; right; now left|].
    destruct (isos_at w (proj1 M1) Hw) as (ow1 & Hw1 & _).
    destruct (unlink_obj_ok w K1 Hw1) as (h2 & -> & M2 & K2). cbn [bind].
    destruct (IH (p ++ [w]) h2) as (h3 & A & B & C); [rewrite <- app_assoc; exact HW|exact K2| |].
    + eapply mv_geq; [|eapply mv_trans; [|exact M1|exact M2]].
      * eapply geq_trans; [apply gmap_geq; apply (proj1 M1)|]. apply isos_app.
      * apply gcls_gmap.
    + exists h3. split; [exact A|]. split; [exact B|]. rewrite <- app_assoc in C. exact C.
Qed.

Lemma may_link_isos g s d ws : may_link g s d -> ~ In s ws -> ~ In d ws -> may_link (isos ws g) s d.
Proof.
  intros (ns & nd & Hs & Hd & HT & N1 & N2 & C1 & C2) Ns Nd. unfold may_link, isos.
  do 2 eexists. split; [apply gmap_of, Hs|]. split; [apply gmap_of, Hd|]. cbn.
  split; [exact HT|]. split; [intros X; apply drop_In in X; tauto|]. split; [intros X; apply drop_In in X; tauto|].
  split.
  - intros A B. destruct (C1 A B) as [R1 R2]. rewrite R1. split; [unfold drop; destruct (mem s ws); reflexivity|].
    intros k X. apply drop_In in X. apply R2. tauto.
  - intros A. destruct (C2 A) as (R0 & R1 & R2). split; [exact R0|]. rewrite R1.
    split; [unfold drop; destruct (mem d ws); reflexivity|]. intros k X. apply drop_In in X. apply R2. tauto.
Qed.
Lemma may_link_geq g g' s d : geq g g' -> may_link g s d -> may_link g' s d.
Proof. intros Q (ns & nd & H). exists ns, nd. rewrite <- !Q. exact H. Qed.

Lemma base_steal h s d os od : HOK h -> may_link (G h) s d -> h s = Some os -> h d = Some od ->
  may_link (base h s d) s d /\ (forall i, G h i <> None -> base h s d i <> None) /\ gcls (G h) (base h s d).
Proof.
  intros HK M Hs Hd. unfold base. rewrite Hd. destruct (stealing h s d) eqn:ST.
  - split.
    + apply may_link_isos; [exact M| |].
      * destruct M as (ns & nd & A & B & C & N1 & N2 & _). rewrite (G_of _ _ Hd) in B. injection B as <-. exact N2.
      * intros X. destruct (write_live d d HK Hd X) as (oa & A & _ & B). rewrite Hd in A. injection A as <-.
        now apply typed_neq in B.
    + split; [|apply gcls_gmap]. intros i H. unfold isos, gmap. destruct (G h i); [discriminate|congruence].
  - split; [exact M|]. split; [auto|apply gcls_refl].
Qed.

Lemma mv_may g h h' s d : mv g h h' -> may_link g s d ->
  exists os od, h' s = Some os /\ h' d = Some od /\ ~ In d (s_readers os) /\ ~ In s (s_writers od) /\ s <> d.
Proof.
  intros M (ns & nd & A & B & C & D & F & _). rewrite <- (proj1 M) in A, B.
  apply G_some in A, B. destruct A as (os & A & <-). destruct B as (od & B & <-).
  exists os, od. cbn in *. repeat split; auto. intros ->. rewrite A in B. injection B as <-. now apply typed_neq in C.
Qed.

Lemma join_mv h g s d : HOK h -> geq (G h) g -> may_link g s d ->
  exists os od h4 h5, h s = Some os /\ h d = Some od /\
    mem d (s_readers os) = false /\
    modify h s (fun o => set_readers o (s_readers o ++ [d])) = Ok h4 /\
    h4 d = Some od /\ mem s (s_writers od) = false /\
    modify h4 d (fun o => set_writers o (s_writers o ++ [s])) = Ok h5 /\
    mv (joing s d g) h h5 /\ HOK h5.
Proof.
  intros HK Q M. assert (HR : RI E h) by apply HK.
  assert (M0 : mv (G h) h h) by now apply mv_refl.
  destruct (mv_may M0 (may_link_geq (geq_sym Q) M)) as (os & od & Hs & Hd & N1 & N2 & SD).
  exists os, od. set (os1 := set_readers os (s_readers os ++ [d])). set (h4 := upd h s (Some os1)).
  set (od1 := set_writers od (s_writers od ++ [s])). set (h5 := upd h4 d (Some od1)).
  assert (Hd4 : h4 d = Some od) by (unfold h4; rewrite upd_other; congruence).
  assert (Hs5 : h5 s = Some os1) by (unfold h5, h4; rewrite upd_other, upd_same; congruence).
  assert (Hd5 : h5 d = Some od1) by (unfold h5; now rewrite upd_same).
  exists h4, h5. split; [exact Hs|]. split; [exact Hd|]. split; [now apply mem_not|].
  split; [rewrite (modify_ok _ _ _ Hs); reflexivity|]. split; [exact Hd4|]. split; [now apply mem_not|].
  split; [rewrite (modify_ok _ _ _ Hd4); reflexivity|].
  assert (Q5 : geq (G h5) (joing s d g)).
  { intros i. unfold joing, gmap. rewrite <- (Q i). unfold h5, h4, at1. rewrite !G_upd.
    destruct (Nat.eqb_spec i d) as [->|]; [rewrite (G_of _ _ Hd); destruct (Nat.eqb_spec d s); [congruence|reflexivity]|].
    destruct (Nat.eqb_spec i s) as [->|]; [rewrite (G_of _ _ Hs); reflexivity|]. unfold G.
    destruct (h i) as [o|]; reflexivity. }
  assert (R5 : RI E h5).
  { unfold h5, h4. apply RI_upd; [apply RI_upd; [exact HR|]|].
    - apply (@oinv_same os); auto. eapply HR; eauto.
    - apply (@oinv_same od); auto. eapply HR; eauto. }
  assert (U : forall i o, h i = Some o -> i <> s -> i <> d -> h5 i = Some o).
  { intros i o Hi A B. unfold h5, h4. now rewrite !upd_other. }
  split.
  - split; [exact Q5|]. split; [exact R5|]. split.
    + intros i o Hi Hc. destruct (Nat.eq_dec i d) as [->|Nd].
      * exists od1. split; [exact Hd5|]. rewrite Hd in Hi. injection Hi as <-. apply kept_refl.
      * destruct (Nat.eq_dec i s) as [->|Ns].
        -- exists os1. split; [exact Hs5|]. rewrite Hs in Hi. injection Hi as <-. apply kept_refl.
        -- exists o. split; [auto|apply kept_refl].
    + intros i o o' Hi Hi' Hc [U1 U2]. destruct (Nat.eq_dec i d) as [->|Nd].
      * rewrite Hd5 in Hi'. injection Hi' as <-. cbn in U2. now apply app_eq_nil in U2.
      * destruct (Nat.eq_dec i s) as [->|Ns].
        -- rewrite Hs5 in Hi'. injection Hi' as <-. cbn in U1. now apply app_eq_nil in U1.
        -- rewrite (U i o Hi Ns Nd) in Hi'. injection Hi' as <-. left. split; assumption.
  - split; [|exact R5]. eapply WFg_geq; [apply geq_sym, Q5|]. apply WFg_join; [|exact M].
    eapply WFg_geq; [exact Q|apply HK].
Qed.

Lemma link_objs_ok h s d : HOK h -> may_link (G h) s d ->
  exists h', link_objs E h s d = Ok h' /\ mv (linkg h s d) h h' /\ HOK h'.
Proof.
  intros HK M. assert (HR : RI E h) by apply HK.
  destruct (mv_may (mv_refl HR) M) as (os & od & Hs & Hd & N1 & N2 & SD).
  unfold link_objs. rewrite (at_ok _ _ Hs), (at_ok _ _ Hd). cbn [bind].
  destruct (base_steal HK M Hs Hd) as (BM & BL & BC).
  match goal with |- context [bind ?e (fun h3 => bind (at_ h3 s) _)] => set (first_part := e) end.
  assert (X : exists h3, first_part = Ok h3 /\ mv (base h s d) h h3 /\ HOK h3).
  { unfold first_part. unfold base, stealing. rewrite Hs, Hd.
    destruct (client_b os && console_b od) eqn:CC; [|exists h; cbn [andb]; split; [reflexivity|]; split; [now apply mv_refl|exact HK]].
    apply andb_prop in CC. destruct CC as [Cs Cd]. apply client_b_cls in Cs. apply console_b_cls in Cd.
    cbv zeta. cbn [andb]. set (st := r_force (s_req os) && negb (length (s_writers od) =? 0)).
    destruct (@notify_ok h d od (e_txt E (NArrived s d st)) HK Hd Cd) as (h1 & -> & S1). cbn [bind].
    pose proof (sim_HOK S1 HK) as K1.
    destruct (@fold_sim E _ (fun h w => do x <- at_ h w;
        if client_b x then put_data E h s (e_txt E (NWith w d st)) true else UB NullDeref) (s_writers od) h1 (sim_RI S1))
      as (h2 & -> & S2).
    { intros w ha Hw Sa. pose proof (sim_trans S1 Sa) as Sa'.
      destruct (write_live d w HK Hd Hw) as (ow & A & _ & T).
      destruct (sim_some w Sa' A) as (ow' & A' & Gw). rewrite (at_ok _ _ A'). cbn [bind].
      apply gn_parts in Gw. destruct Gw as (Cw & _).
      assert (client_b ow' = true) as ->.
      { apply client_b_cls. rewrite Cw. rewrite Cd in T. destruct (cls_of ow); cbn in T; congruence. }
      destruct (sim_some s Sa' Hs) as (os' & B' & _).
      destruct (put_data_ok HE s (e_txt E (NWith w d st)) true (sim_RI Sa) B') as (hb & P1 & P2 & _). eauto. }
    cbn [bind]. pose proof (sim_trans S1 S2) as S12. pose proof (sim_HOK S12 HK) as K2.
    destruct st.
    - destruct (@steal_ok h d od HK Hd (s_writers od) [] h2 eq_refl K2) as (h3 & A & B & C).
      + eapply mv_geq; [apply geq_sym, isos_nil|]. now apply sim_mv.
      + exists h3. split; [exact A|]. split; [exact C|exact B].
    - exists h2. split; [reflexivity|]. split; [now apply sim_mv|exact K2]. }
  destruct X as (h3 & -> & M3 & K3). cbn [bind].
  destruct (join_mv K3 (proj1 M3) BM) as (os3 & od3 & h4 & h5 & Hs3 & Hd3 & Q1 & Q2 & Hd4 & Q3 & Q4 & M5 & K5).
  rewrite (at_ok _ _ Hs3). cbn [bind]. rewrite Q1. unfold assert_if, assert_. cbn [negb].
  assert (AT : (if e_dbg E then Ok tt else Ok tt) = Ok tt) by (destruct (e_dbg E); reflexivity).
  rewrite AT. cbn [bind]. rewrite Q2. cbn [bind]. rewrite (at_ok _ _ Hd4). cbn [bind]. rewrite Q3. cbn [negb].
  rewrite AT. cbn [bind]. rewrite Q4. cbn [bind].
  assert (L : forall i oi, h3 i = Some oi -> exists oi', h5 i = Some oi').
  { intros i oi Hi. apply (@mv_some _ _ _ i oi M5 Hi). unfold joing, gmap. rewrite <- (proj1 M3 i), (G_of _ _ Hi). discriminate. }
  destruct (L s os3 Hs3) as (os5 & Hs5). destruct (L d od3 Hd3) as (od5 & Hd5).
  rewrite (validate_ok s K5 Hs5), (validate_ok d K5 Hd5). cbn [bind].
  exists h5. split; [reflexivity|]. split; [|exact K5].
  eapply mv_trans; [exact BC|exact M3|exact M5].
Qed.
End Env.
