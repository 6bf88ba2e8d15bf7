(** Proofs about serial breaks. *)
From Verif Require Import Base BaseProof RingModel RingSpec RingProof LogModel LogSpec LogProof
  TelnetModel TelnetSpec TelnetProof EscModel EscSpec EscProof
  SessModel SessSpec SessInv SessLink SessStep SessWorld SessThread SessFacts SessMux SessMode
  BrkModel BrkSpec.
Set Implicit Arguments.

Section Env.
Variable E : env.
Hypothesis HE : env_ok E.
Variable dev : brk_dev.
Notation HOK := (HOK E).
Notation WWF := (WWF E).

(** The events one console gives rise to. *)
Definition evs (k : nat) (p : sobj) : list brk_event :=
  match s_type p with
  | TySerial => let ok := o_open (s_ring p) && bd_ok dev k in BLine k ok :: warn_unless ok k
  | TyTelnet => match break_bytes p with [] => [BWarn k] | _ => [] end
  | TyIpmi => let (ev, ok) := send_ipmi_break dev k in ev ++ warn_unless ok k
  | _ => []
  end.
Definition evs_at (h : heap) (k : nat) : list brk_event := match h k with Some p => evs k p | None => [] end.

Definition after_break (p p' : sobj) : Prop :=
  match break_bytes p with [] => p' = p | d => gets E d false p p' end.

Lemma break_dev_ok h k p : RI E h -> h k = Some p ->
  exists h' p', break_dev E dev h k = Ok (h', evs k p) /\ RI E h' /\ h' k = Some p' /\ after_break p p' /\
    forall j, j <> k -> h' j = h j.
Proof.
  intros HR Hk. unfold break_dev, evs, after_break, break_bytes. rewrite (at_ok _ _ Hk). cbn [bind].
  destruct (s_type p) eqn:T.
  - destruct (put_gets HE k [38; 66]%Z false HR Hk) as (p' & -> & G & O). cbn [bind].
    do 2 eexists. split; [reflexivity|]. split; [now apply RI_upd|]. split; [apply upd_same|]. split; [exact G|].
    intros j N. now apply upd_other.
  - exists h, p. auto 9.
  - assert (NIL : exists h' p', put_data E h k [] false = Ok h' /\ RI E h' /\ h' k = Some p' /\ p' = p /\ forall j, j <> k -> h' j = h j).
    { exists (upd h k (Some p)), p. unfold put_data. rewrite (at_ok _ _ Hk). cbn.
      split; [now destruct p|]. split; [apply RI_upd; [exact HR|exact (HR k p Hk)]|]. split; [apply upd_same|]. split; [reflexivity|].
      intros j N. now apply upd_other. }
    destruct NIL as (hn & pn & PN & RN & HN & EN & ON).
    unfold state_up. destruct (s_state p); cbn [andb]; rewrite ?andb_false_r;
      try (change (break_to_telnet false) with (@nil Z); rewrite PN; exists hn, pn; cbn; auto 9; fail).
    rewrite andb_true_r. destruct (o_open (s_ring p)).
    2:{ change (break_to_telnet false) with (@nil Z); rewrite PN; exists hn, pn; cbn; auto 9. }
    change (break_to_telnet true) with [255; 243]%Z.
    destruct (put_gets HE k [255; 243]%Z false HR Hk) as (p' & -> & G & O). cbn [bind].
    do 2 eexists. split; [reflexivity|]. split; [now apply RI_upd|]. split; [apply upd_same|]. split; [exact G|].
    intros j N. now apply upd_other.
  - exists h, p. auto 9.
  - destruct (send_ipmi_break dev k) as [ev ok]. exists h, p. auto 9.
  - exists h, p. auto 9.
Qed.

Lemma break_all_ok : forall l h, NoDup l -> RI E h -> (forall i, In i l -> exists o, h i = Some o) ->
  exists h', break_all E dev h l = Ok (h', flat_map (evs_at h) l) /\
    all_objs (fun i p p' => if mem i l then after_break p p' else p' = p) h h'.
Proof.
  induction l as [|a l IH]; intros h ND HR HL; cbn [break_all flat_map].
  - exists h. split; [reflexivity|]. split; [|auto]. intros i o Hi. exists o. cbn. auto.
  - inversion ND as [|? ? N1 N2]; subst. destruct (HL a (or_introl eq_refl)) as (oa & Ha).
    destruct (break_dev_ok a HR Ha) as (h1 & oa' & -> & R1 & H1 & G & O). cbn [bind fst snd].
    destruct (IH h1 N2 R1) as (h' & -> & A1 & A2).
    { intros i Hi. destruct (HL i (or_intror Hi)) as (o & Ho). exists o. rewrite O; [exact Ho|congruence]. }
    cbn [bind fst snd]. exists h'. split.
    { f_equal. f_equal. unfold evs_at at 2. rewrite Ha. f_equal. revert N1 O. clear. intros N1 O. induction l as [|i l IH]; [reflexivity|]. cbn [flat_map].
      rewrite IH; [|intros X; apply N1; now right]. f_equal. unfold evs_at. rewrite O; [reflexivity|]. intros ->. apply N1. now left. }
    split.
    + intros i o Hi. unfold mem. cbn [existsb]. destruct (Nat.eqb_spec i a) as [->|N].
      * cbn [orb]. rewrite Ha in Hi. injection Hi as <-. destruct (A1 a oa' H1) as (o' & X & Y). exists o'. split; [exact X|].
        apply mem_not in N1. rewrite N1 in Y. now subst o'.
      * cbn [orb]. apply A1. now rewrite O.
    + intros i Hi. apply A2. destruct (Nat.eq_dec i a) as [->|N]; [congruence|]. now rewrite O.
Qed.

Lemma calls_app k a b : calls_on k (a ++ b) = calls_on k a ++ calls_on k b.
Proof.
  induction a as [|e a IH]; [reflexivity|]. destruct e as [j d|j d|j|j]; cbn [app calls_on]; try exact IH;
    destruct (j =? k); cbn [app]; now rewrite ?IH.
Qed.
Lemma warn_app k a b : warnings_on k (a ++ b) = warnings_on k a + warnings_on k b.
Proof. unfold warnings_on. now rewrite filter_app, app_length. Qed.

Lemma evs_other k j p : j <> k -> calls_on k (evs j p) = [] /\ warnings_on k (evs j p) = 0.
Proof.
  intros N. assert (X : (j =? k) = false) by now apply Nat.eqb_neq.
  unfold evs, send_ipmi_break, warn_unless, warnings_on. destruct (s_type p); try (split; reflexivity).
  - destruct (o_open (s_ring p) && bd_ok dev j); cbn; rewrite ?X; auto.
  - destruct (break_bytes p); cbn; rewrite ?X; auto.
  - destruct (bd_ctx dev j), (bd_ok dev j); cbn; rewrite ?X; auto.
Qed.
Lemma evs_self k p : calls_on k (evs k p) = calls_due dev k p /\
  warnings_on k (evs k p) = match s_type p with
    | TySerial => if o_open (s_ring p) && bd_ok dev k then 0 else 1
    | TyTelnet => match break_bytes p with [] => 1 | _ => 0 end
    | TyIpmi => if bd_ctx dev k && bd_ok dev k then 0 else 1
    | _ => 0 end.
Proof.
  unfold evs, calls_due, send_ipmi_break, warn_unless, warnings_on. destruct (s_type p); try (split; reflexivity).
  - destruct (o_open (s_ring p) && bd_ok dev k); cbn; rewrite ?Nat.eqb_refl; auto.
  - destruct (break_bytes p); cbn; rewrite ?Nat.eqb_refl; auto.
  - destruct (bd_ctx dev k), (bd_ok dev k); cbn; rewrite ?Nat.eqb_refl; auto.
Qed.

Lemma evs_none h k : forall l, ~ In k l -> calls_on k (flat_map (evs_at h) l) = [] /\ warnings_on k (flat_map (evs_at h) l) = 0.
Proof.
  induction l as [|a l IH]; intros N; cbn [flat_map]; [split; reflexivity|]. rewrite calls_app, warn_app.
  destruct IH as [-> ->]; [intros X; apply N; now right|]. unfold evs_at.
  destruct (h a) as [p|]; [|split; reflexivity]. destruct (@evs_other k a p) as [-> ->]; [|split; reflexivity].
  intros ->. apply N. now left.
Qed.
Lemma evs_one h k p : forall l, NoDup l -> In k l -> h k = Some p ->
  calls_on k (flat_map (evs_at h) l) = calls_on k (evs k p) /\ warnings_on k (flat_map (evs_at h) l) = warnings_on k (evs k p).
Proof.
  induction l as [|a l IH]; intros ND IN Hk; [contradiction|]. inversion ND as [|? ? N1 N2]; subst. cbn [flat_map].
  rewrite calls_app, warn_app. destruct (Nat.eq_dec a k) as [->|N].
  - destruct (@evs_none h k l N1) as [-> ->]. unfold evs_at. rewrite Hk, app_nil_r. split; [reflexivity|lia].
  - destruct IN as [->|IN]; [contradiction|]. destruct (IH N2 IN Hk) as [-> ->]. unfold evs_at.
    destruct (h a) as [q|]; [|split; reflexivity]. now destruct (@evs_other k a q N) as [-> ->].
Qed.

(** The buffers change as SessModel says. *)
Lemma break_dev_heap h k : match break_dev E dev h k with Ok r => break_one E h k = Ok (fst r) | UB u => break_one E h k = UB u end.
Proof.
  unfold break_dev, break_one. destruct (at_ h k) as [o|u]; cbn [bind]; [|reflexivity].
  destruct (s_type o); try reflexivity.
  - destruct (put_data E h k [38; 66]%Z false); reflexivity.
  - cbv zeta. destruct (put_data E h k (break_to_telnet (o_open (s_ring o) && state_up o)) false); reflexivity.
  - destruct (send_ipmi_break dev k). reflexivity.
Qed.
Lemma break_all_heap : forall l h, match break_all E dev h l with
  | Ok r => foldr_res (break_one E) h l = Ok (fst r) | UB u => foldr_res (break_one E) h l = UB u end.
Proof.
  induction l as [|a l IH]; intros h; cbn [break_all foldr_res]; [reflexivity|]. pose proof (break_dev_heap h a) as X.
  destruct (break_dev E dev h a) as [[h1 t1]|u]; cbn [bind fst snd] in *; rewrite X; [|reflexivity]. cbn [bind].
  specialize (IH h1). destruct (break_all E dev h1 l) as [[h2 t2]|u]; cbn [bind fst snd] in *; exact IH.
Qed.

Lemma serial_break_ok h c o : HOK h -> h c = Some o -> cls_of o = ClClient ->
  exists h' tr, perform_serial_break E dev h c = Ok (h', tr) /\
    (forall rst, exec_cmd E rst h c SBreak = Ok h') /\
    forall k p, h k = Some p -> exists p', h' k = Some p' /\
      (if mem k (s_readers o) then after_break p p' /\ calls_on k tr = calls_on k (evs k p) /\ warnings_on k tr = warnings_on k (evs k p)
       else p' = p /\ calls_on k tr = [] /\ warnings_on k tr = 0).
Proof.
  intros HK Hc Cc. unfold perform_serial_break. cbn [exec_cmd]. rewrite (at_ok _ _ Hc). cbn [bind].
  destruct (wg_nd (proj1 HK) c (G_of _ _ Hc)) as [ND _]. cbn in ND.
  destruct (@break_all_ok (s_readers o) h ND (proj2 HK)) as (h' & A & B & _).
  { intros i Hi. destruct (read_live c i HK Hc Hi) as (p & X & _). eauto. }
  pose proof (break_all_heap (s_readers o) h) as P. rewrite A in P. cbn [fst] in P.
  exists h', (flat_map (evs_at h) (s_readers o)). split; [exact A|]. split; [intros _; exact P|].
  intros k p Hk. destruct (B k p Hk) as (p' & X & Y). exists p'. split; [exact X|].
  destruct (mem k (s_readers o)) eqn:M.
  - apply mem_In in M. destruct (@evs_one h k p _ ND M Hk) as [-> ->]. auto.
  - apply mem_not in M. destruct (@evs_none h k (s_readers o) M) as [-> ->]. auto.
Qed.
End Env.
