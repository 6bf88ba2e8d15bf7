(** Proofs for TelnetProps. *)
From Verif Require Import Base BaseProof EscProof TelnetModel TelnetSpec.
Local Open Scope Z_scope.

(** One byte, without the buffer. *)
Definition tstep (iac c : Z) : Z * list Z * list (list Z) :=
  if iac =? -1 then if c =? IAC then (c, [], []) else (iac, [c], [])
  else if iac =? IAC then
    if c =? IAC then (-1, [c], [])
    else if (c =? DONT) || (c =? DO) || (c =? WONT) || (c =? WILL) || (c =? SB) then (c, [], [])
    else if c =? SE then (-1, [], [])
    else (-1, [], process_telnet_cmd c (-1))
  else if (iac =? DONT) || (iac =? DO) || (iac =? WONT) || (iac =? WILL) then
    (-1, [], process_telnet_cmd iac c)
  else ((if c =? IAC then c else iac), [], []).

Fixpoint trun (iac : Z) (l : list Z) : Z * list Z * list (list Z) :=
  match l with
  | [] => (iac, [], [])
  | c :: t =>
      let '(i1, d1, r1) := tstep iac c in
      let '(i2, d2, r2) := trun i1 t in (i2, d1 ++ d2, r1 ++ r2)
  end.

Ltac zeqs := repeat match goal with
  | |- context [?a =? ?b] => destruct (Z.eqb_spec a b); try lia
  | H : context [?a =? ?b] |- _ => destruct (Z.eqb_spec a b); try lia
  end.

Lemma tstep_ok iac c : iac_ok iac -> iac_ok (fst (fst (tstep iac c))).
Proof.
  unfold iac_ok, tstep, IAC, DONT, DO, WONT, WILL, SB, SE. intros H.
  destruct (Z.eqb_spec iac (-1)). { destruct (Z.eqb_spec c 255); cbn; lia. }
  destruct (Z.eqb_spec iac 255).
  { destruct (Z.eqb_spec c 255); [cbn; lia|].
    destruct (_ || _) eqn:X.
    - cbn. rewrite !orb_true_iff, !Z.eqb_eq in X. lia.
    - destruct (c =? 240); cbn; lia. }
  destruct (_ || _); [cbn; lia|]. cbn. destruct (Z.eqb_spec c 255); lia.
Qed.

Lemma tel_loop_ok : forall rest out mid iac, iac_ok iac ->
  let '(i, d, rs) := trun iac rest in
  exists tl, tel_loop (length rest) (out ++ mid ++ rest) (length out + length mid) (length out) iac
    = Ok (out ++ d ++ tl, (length out + length d)%nat, i, rs).
Proof.
  induction rest as [|c rest IH]; intros out mid iac V.
  - cbn [trun length tel_loop app]. exists mid. rewrite app_nil_r, Nat.add_0_r. reflexivity.
  - cbn [length tel_loop trun].
    pose proof (tstep_ok iac c V) as V1.
    destruct (tstep iac c) as [[i1 d1] r1] eqn:T. cbn [fst] in V1.
    assert (G : get (out ++ mid ++ c :: rest) (length out + length mid) = Ok c).
    { rewrite app_assoc, <- app_length. apply get_mid. }
    rewrite G. cbn [bind].
    (* not stored *)
    assert (Q : forall i, iac_ok i -> let '(i2, d2, r2) := trun i rest in
      exists tl, tel_loop (length rest) (out ++ mid ++ c :: rest)
        (S (length out + length mid)) (length out) i =
        Ok (out ++ d2 ++ tl, (length out + length d2)%nat, i2, r2)).
    { intros i Vi. specialize (IH out (mid ++ [c]) i Vi).
      destruct (trun i rest) as [[i2 d2] r2]. destruct IH as [tl E]. exists tl.
      rewrite <- app_assoc in E. cbn [app] in E. rewrite app_length in E. cbn [length] in E.
      replace (S (length out + length mid)) with (length out + (length mid + 1))%nat by lia.
      exact E. }
    (* stored *)
    assert (R : forall i, iac_ok i -> let '(i2, d2, r2) := trun i rest in
      exists b1, put (out ++ mid ++ c :: rest) (length out) c = Ok b1 /\
      exists tl, tel_loop (length rest) b1 (S (length out + length mid)) (S (length out)) i =
        Ok (out ++ (c :: d2) ++ tl, (length out + length (c :: d2))%nat, i2, r2)).
    { intros i Vi. destruct (put_shift out mid c rest) as (mid' & E & L).
      specialize (IH (out ++ [c]) mid' i Vi).
      destruct (trun i rest) as [[i2 d2] r2]. destruct IH as [tl E2].
      exists ((out ++ [c]) ++ mid' ++ rest). split; [exact E|]. exists tl.
      rewrite app_length in E2. cbn [length] in E2.
      replace (S (length out + length mid)) with (length out + 1 + length mid')%nat by lia.
      replace (S (length out)) with (length out + 1)%nat by lia.
      rewrite E2. cbn [length]. rewrite <- app_assoc. cbn [app].
      replace (length out + 1 + length d2)%nat with (length out + S (length d2))%nat by lia.
      reflexivity. }
    unfold tstep in T.
    destruct (iac =? -1) eqn:C1.
    { destruct (c =? IAC) eqn:C2; injection T as <- <- <-.
      - specialize (Q c V1). destruct (trun c rest) as [[i2 d2] r2]. exact Q.
      - specialize (R iac V1). destruct (trun iac rest) as [[i2 d2] r2].
        destruct R as (b1 & E & R). rewrite E. cbn [bind]. exact R. }
    destruct (iac =? IAC) eqn:C2.
    { destruct (c =? IAC) eqn:C3.
      { injection T as <- <- <-. specialize (R (-1) V1). destruct (trun (-1) rest) as [[i2 d2] r2].
        destruct R as (b1 & E & R). rewrite E. cbn [bind]. exact R. }
      destruct (_ || _) eqn:C4.
      { injection T as <- <- <-. specialize (Q c V1). destruct (trun c rest) as [[i2 d2] r2]. exact Q. }
      destruct (c =? SE) eqn:C5.
      { injection T as <- <- <-. specialize (Q (-1) V1). destruct (trun (-1) rest) as [[i2 d2] r2]. exact Q. }
      injection T as <- <- <-. specialize (Q (-1) V1). destruct (trun (-1) rest) as [[i2 d2] r2].
      destruct Q as [tl E]. rewrite E. cbn [bind]. exists tl. reflexivity. }
    destruct ((iac =? DONT) || (iac =? DO) || (iac =? WONT) || (iac =? WILL)) eqn:C3.
    { injection T as <- <- <-. specialize (Q (-1) V1). destruct (trun (-1) rest) as [[i2 d2] r2].
      destruct Q as [tl E]. rewrite E. cbn [bind]. exists tl. reflexivity. }
    assert (S1 : iac =? SB = true).
    { clear - V C1 C2 C3. unfold iac_ok, IAC, DONT, DO, WONT, WILL, SB in *.
      rewrite !orb_false_iff, !Z.eqb_neq in C3. apply Z.eqb_neq in C1, C2. apply Z.eqb_eq. lia. }
    rewrite S1. injection T as <- <- <-.
    specialize (Q _ V1). destruct (trun _ rest) as [[i2 d2] r2]. exact Q.
Qed.

Lemma pte_ok iac src : iac_ok iac ->
  process_telnet_escapes iac src =
  (let '(i, d, rs) := trun iac src in Ok (d, i, rs)).
Proof.
  intros V. unfold process_telnet_escapes. pose proof (tel_loop_ok src [] [] iac V) as E.
  destruct (trun iac src) as [[i d] rs]. destruct E as [tl E].
  cbn [app length Nat.add] in E. rewrite E. cbn [bind].
  unfold slice. cbn [Nat.add skipn]. rewrite app_length.
  destruct (Nat.leb_spec (length d) (length d + length tl)); [|lia].
  cbn [bind]. rewrite firstn_app, Nat.sub_diag, firstn_all. cbn [firstn]. rewrite app_nil_r.
  reflexivity.
Qed.

Lemma trun_app : forall s t iac,
  trun iac (s ++ t) =
  (let '(i1, d1, r1) := trun iac s in
   let '(i2, d2, r2) := trun i1 t in (i2, d1 ++ d2, r1 ++ r2)).
Proof.
  induction s as [|c s IH]; intros t iac; cbn [trun app].
  - destruct (trun iac t) as [[i d] r]. reflexivity.
  - destruct (tstep iac c) as [[i1 d1] r1]. rewrite IH.
    destruct (trun i1 s) as [[i2 d2] r2]. destruct (trun i2 t) as [[i3 d3] r3].
    rewrite !app_assoc. reflexivity.
Qed.

Lemma trun_ok : forall s iac, iac_ok iac -> iac_ok (fst (fst (trun iac s))).
Proof.
  induction s as [|c s IH]; intros iac V; cbn [trun]; [exact V|].
  pose proof (tstep_ok iac c V) as V1. destruct (tstep iac c) as [[i1 d1] r1]. cbn [fst] in V1.
  specialize (IH i1 V1). destruct (trun i1 s) as [[i2 d2] r2]. exact IH.
Qed.

Lemma tel_read_all_ok : forall chunks iac, iac_ok iac ->
  tel_read_all iac chunks = Ok (trun iac (concat chunks)).
Proof.
  induction chunks as [|c cs IH]; intros iac V; cbn [tel_read_all concat trun]; [reflexivity|].
  rewrite pte_ok by auto. rewrite trun_app. pose proof (trun_ok c iac V) as V1.
  destruct (trun iac c) as [[i1 d1] r1]. cbn [bind fst] in *. rewrite IH by auto. cbn [bind].
  destruct (trun i1 (concat cs)) as [[i2 d2] r2]. reflexivity.
Qed.

Theorem chunks_irrelevant c1 c2 iac : iac_ok iac -> concat c1 = concat c2 ->
  tel_read_all iac c1 = tel_read_all iac c2 /\ exists x, tel_read_all iac c1 = Ok x.
Proof. intros V E. rewrite !tel_read_all_ok, E by auto. eauto. Qed.

(** ** Agreement with the RFC receiver *)
Definition rel (iac : Z) (s : tst) : Prop :=
  match s with
  | RData => iac = -1
  | RIac | RSubIac => iac = 255
  | ROpt c => iac = c /\ 251 <= c <= 254
  | RSub => iac = 250
  end.

Lemma ptc_cmd c : (251 <= c <= 254 -> False) -> forall o, process_telnet_cmd c o = [].
Proof.
  intros H o. unfold process_telnet_cmd, telcmd_ok, TELCMD_FIRST, IAC, DONT, DO, WONT, WILL.
  destruct (negb _); [reflexivity|]. zeqs; reflexivity.
Qed.

Lemma ptc_neg c o : 251 <= c <= 254 -> process_telnet_cmd c o = refusal c o.
Proof.
  intros H. assert (X : c = 251 \/ c = 252 \/ c = 253 \/ c = 254) by lia.
  unfold process_telnet_cmd, refusal, we_support, peer_may, TELOPT_BINARY, TELOPT_ECHO, TELOPT_SGA.
  destruct X as [->|[->|[->| ->]]]; cbn - [Z.eqb].
  - cbn [telcmd_ok andb Z.leb Z.compare]. 
    change (251 =? DONT) with false; change (251 =? DO) with false; change (251 =? WONT) with false;
    change (251 =? WILL) with true. cbn iota.
    destruct (o =? 0), (o =? 1), (o =? 3); reflexivity.
  - reflexivity.
  - change (253 =? DONT) with false; change (253 =? DO) with true. cbn iota.
    destruct (o =? 0), (o =? 3); reflexivity.
  - reflexivity.
Qed.

Lemma step_rel iac s c : rel iac s -> (s = RSubIac -> c = 240) ->
  let '(s1, e) := rfc_step s c in
  exists i1, tstep iac c = (i1, flat_map ev_data e, flat_map ev_reply e) /\ rel i1 s1.
Proof.
  intros R P. unfold tstep, IAC, DONT, DO, WONT, WILL, SB, SE.
  destruct s; cbn [rfc_step rel] in *.
  - subst iac. change (-1 =? -1) with true. cbn iota.
    destruct (Z.eqb_spec c 255); cbn; eexists; (split; [reflexivity|cbn; lia]).
  - subst iac. change (255 =? -1) with false. change (255 =? 255) with true. cbn iota.
    destruct (Z.eqb_spec c 255) as [->|]; [cbn; eexists; split; [reflexivity|reflexivity]|].
    destruct (Z.leb_spec 251 c); destruct (Z.leb_spec c 254); cbn [andb].
    + replace ((c =? 254) || (c =? 253) || (c =? 252) || (c =? 251) || (c =? 250)) with true
        by (symmetry; rewrite !orb_true_iff, !Z.eqb_eq; lia).
      cbn. eexists; split; [reflexivity|cbn; lia].
    + replace ((c =? 254) || (c =? 253) || (c =? 252) || (c =? 251) || (c =? 250)) with false
        by (symmetry; rewrite !orb_false_iff, !Z.eqb_neq; lia).
      destruct (Z.eqb_spec c 250); [lia|]. destruct (Z.eqb_spec c 240); [lia|].
      cbn [flat_map ev_data ev_reply app]. eexists; split; [|reflexivity].
      rewrite ptc_cmd by lia. reflexivity.
    + destruct (Z.eqb_spec c 250) as [->|].
      { cbn. eexists; split; reflexivity. }
      replace ((c =? 254) || (c =? 253) || (c =? 252) || (c =? 251) || false) with false
        by (symmetry; rewrite !orb_false_iff, !Z.eqb_neq; lia).
      destruct (Z.eqb_spec c 240) as [->|].
      { cbn. eexists; split; reflexivity. }
      cbn [flat_map ev_data ev_reply app]. eexists; split; [|reflexivity].
      rewrite ptc_cmd by lia. reflexivity.
    + lia.
  - destruct R as [-> B].
    destruct (Z.eqb_spec c0 (-1)); [lia|]. destruct (Z.eqb_spec c0 255); [lia|].
    replace ((c0 =? 254) || (c0 =? 253) || (c0 =? 252) || (c0 =? 251)) with true
        by (symmetry; rewrite !orb_true_iff, !Z.eqb_eq; lia).
    cbn [flat_map ev_data ev_reply app]. rewrite app_nil_r. eexists; split; [|reflexivity].
    rewrite ptc_neg by lia. reflexivity.
  - subst iac. cbn [Z.eqb Pos.eqb orb]. destruct (Z.eqb_spec c 255) as [->|]; cbn; eexists; split; reflexivity.
  - subst iac. rewrite P by reflexivity. cbn. eexists; split; reflexivity.
Qed.

Lemma run_rel : forall l iac s, rel iac s -> plain_subs s l ->
  exists i, trun iac l = (i, flat_map ev_data (snd (rfc_run s l)), flat_map ev_reply (snd (rfc_run s l)))
    /\ rel i (fst (rfc_run s l)).
Proof.
  induction l as [|c l IH]; intros iac s R P; cbn [trun rfc_run].
  - eexists; split; [reflexivity|exact R].
  - cbn [plain_subs] in P. destruct P as [P1 P2].
    pose proof (step_rel iac s c R P1) as X. destruct (rfc_step s c) as [s1 e1]. cbn [fst] in P2.
    destruct X as (i1 & T & R1). rewrite T.
    destruct (IH i1 s1 R1 P2) as (i2 & T2 & R2). rewrite T2.
    destruct (rfc_run s1 l) as [s2 e2]. cbn [fst snd] in *.
    rewrite !flat_map_app. eauto.
Qed.

Theorem telnet_rx chunks : plain_subs RData (concat chunks) ->
  exists i, tel_read_all iac_init chunks =
    Ok (i, rfc_data (concat chunks), flat_map ev_reply (rfc_events (concat chunks))).
Proof.
  intros P. rewrite tel_read_all_ok by (left; reflexivity).
  destruct (run_rel (concat chunks) iac_init RData eq_refl P) as (i & T & _).
  rewrite T. eauto.
Qed.

(** ** The wire format *)
Lemma rfc_run_app s t st :
  rfc_run st (s ++ t) =
  (let '(s1, e1) := rfc_run st s in let '(s2, e2) := rfc_run s1 t in (s2, e1 ++ e2)).
Proof.
  revert st. induction s as [|c s IH]; intros st; cbn [rfc_run app].
  - destruct (rfc_run st t); reflexivity.
  - destruct (rfc_step st c) as [s1 e1]. rewrite IH. destruct (rfc_run s1 s) as [s2 e2].
    destruct (rfc_run s2 t) as [s3 e3]. rewrite app_assoc. reflexivity.
Qed.

Lemma rfc_dbl_data d : rfc_run RData (flat_map dbl d) = (RData, map TData d).
Proof.
  induction d as [|b d IH]; [reflexivity|]. cbn [flat_map map]. rewrite rfc_run_app.
  unfold dbl at 1. destruct (Z.eqb_spec b 255) as [->|N].
  - cbn. rewrite IH. reflexivity.
  - cbn [rfc_run rfc_step]. destruct (Z.eqb_spec b 255); [lia|]. rewrite IH. reflexivity.
Qed.

Lemma rfc_dbl_sub d : rfc_run RSub (flat_map dbl d) = (RSub, []).
Proof.
  induction d as [|b d IH]; [reflexivity|]. cbn [flat_map]. rewrite rfc_run_app.
  unfold dbl at 1. destruct (Z.eqb_spec b 255) as [->|N].
  - cbn. rewrite IH. reflexivity.
  - cbn [rfc_run rfc_step]. destruct (Z.eqb_spec b 255); [lia|]. rewrite IH. reflexivity.
Qed.

Definition seg_ev (g : seg) : list tev :=
  match g with GData d => map TData d | GNeg c o => [TNeg c o] | GCmd c => [TCmd c] | GSub _ => [] end.

Lemma rfc_wire g : seg_ok g -> rfc_run RData (wire g) = (RData, seg_ev g).
Proof.
  destruct g; cbn [seg_ok wire seg_ev]; intros H.
  - apply rfc_dbl_data.
  - cbn [rfc_run rfc_step]. change (255 =? 255) with true. cbn [rfc_run rfc_step].
    destruct (Z.eqb_spec c 255); [lia|].
    destruct (Z.leb_spec 251 c); [|lia]. destruct (Z.leb_spec c 254); [|lia]. reflexivity.
  - cbn [rfc_run rfc_step]. change (255 =? 255) with true. cbn [rfc_run rfc_step].
    destruct (Z.eqb_spec c 255); [lia|].
    destruct (Z.leb_spec 251 c); [lia|]. cbn [andb]. destruct (Z.eqb_spec c 250); [lia|]. reflexivity.
  - rewrite rfc_run_app. change (rfc_run RData [255; 250]) with (RSub, @nil tev). cbv beta iota.
    rewrite rfc_run_app, rfc_dbl_sub. reflexivity.
Qed.

Lemma rfc_wires gs : Forall seg_ok gs ->
  rfc_run RData (flat_map wire gs) = (RData, flat_map seg_ev gs).
Proof.
  induction 1 as [|g gs H F IH]; [reflexivity|]. cbn [flat_map].
  rewrite rfc_run_app, rfc_wire by auto. rewrite IH. reflexivity.
Qed.

Lemma seg_ev_data gs : flat_map ev_data (flat_map seg_ev gs) = flat_map seg_data gs.
Proof.
  induction gs as [|g gs IH]; [reflexivity|]. cbn [flat_map]. rewrite flat_map_app, IH. f_equal.
  destruct g; cbn; auto. induction d; cbn; congruence.
Qed.
Lemma seg_ev_reply gs : flat_map ev_reply (flat_map seg_ev gs) = flat_map seg_reply gs.
Proof.
  induction gs as [|g gs IH]; [reflexivity|]. cbn [flat_map]. rewrite flat_map_app, IH. f_equal.
  destruct g; cbn; rewrite ?app_nil_r; auto. induction d; cbn; congruence.
Qed.

Lemma plain_subs_app s t st : plain_subs st s -> plain_subs (fst (rfc_run st s)) t -> plain_subs st (s ++ t).
Proof.
  revert st. induction s as [|c s IH]; intros st A B; cbn [app plain_subs rfc_run] in *; [exact B|].
  destruct A as [A1 A2]. split; [exact A1|]. apply IH; [exact A2|].
  destruct (rfc_step st c) as [s1 e1]. cbn [fst] in *. destruct (rfc_run s1 s). exact B.
Qed.

Lemma plain_subs_wire g : seg_ok g -> plain_sub_seg g -> plain_subs RData (wire g).
Proof.
  destruct g; cbn [seg_ok plain_sub_seg wire]; intros H P.
  - clear. induction d as [|b d IH]; [exact I|]. cbn [flat_map]. unfold dbl at 1.
    destruct (Z.eqb_spec b 255) as [->|N].
    + cbn. repeat split; try discriminate. exact IH.
    + cbn [app plain_subs rfc_step]. destruct (Z.eqb_spec b 255); [lia|].
      split; [discriminate|]. exact IH.
  - cbn [plain_subs rfc_step]. change (255 =? 255) with true. cbn [fst rfc_step].
    destruct (Z.eqb_spec c 255); [lia|].
    destruct (Z.leb_spec 251 c); [|lia]. destruct (Z.leb_spec c 254); [|lia].
    repeat split; discriminate.
  - cbn [plain_subs rfc_step]. change (255 =? 255) with true. cbn [fst rfc_step].
    repeat split; discriminate.
  - apply plain_subs_app. { cbn. repeat split; discriminate. }
    change (rfc_run RData [255; 250]) with (RSub, @nil tev). cbn [fst].
    apply plain_subs_app.
    + induction payload as [|b d IH]; [exact I|]. cbn [flat_map]. unfold dbl at 1.
      destruct (Z.eqb_spec b 255) as [->|N]; [exfalso; apply P; left; reflexivity|].
      cbn [app plain_subs rfc_step]. destruct (Z.eqb_spec b 255); [lia|].
      split; [discriminate|]. apply IH. intro; apply P; right; auto.
    + rewrite rfc_dbl_sub. cbn. repeat split; auto; discriminate.
Qed.

Lemma plain_subs_wires gs : Forall seg_ok gs -> Forall plain_sub_seg gs ->
  plain_subs RData (flat_map wire gs).
Proof.
  induction 1 as [|g gs H F IH]; intros P; [exact I|]. inversion P; subst. cbn [flat_map].
  apply plain_subs_app; [apply plain_subs_wire; auto|]. rewrite rfc_wire by auto. apply IH. auto.
Qed.

Theorem telnet_segments gs chunks : Forall seg_ok gs -> Forall plain_sub_seg gs ->
  concat chunks = flat_map wire gs ->
  tel_read_all iac_init chunks = Ok (iac_init, flat_map seg_data gs, flat_map seg_reply gs).
Proof.
  intros A B E.
  rewrite tel_read_all_ok by (left; reflexivity). rewrite E.
  destruct (run_rel (flat_map wire gs) iac_init RData eq_refl (plain_subs_wires gs A B)) as (i & T & R).
  rewrite rfc_wires in T, R by auto. cbn [fst snd] in *. rewrite seg_ev_data, seg_ev_reply in T.
  cbn in R. rewrite T, R. reflexivity.
Qed.

(** ** Negotiation *)
Lemma reply_shape c o : Forall (fun r => exists o', r = [255; 252; o'] \/ r = [255; 254; o']) (refusal c o).
Proof.
  unfold refusal.
  assert (A : forall b r, (exists o', r = [255; 252; o'] \/ r = [255; 254; o']) ->
     Forall (fun r => exists o', r = [255; 252; o'] \/ r = [255; 254; o']) (if b : bool then [] else [r])).
  { intros [|] r H; auto. }
  destruct (Z.eq_dec c 253) as [->|]; [apply A; eauto|].
  destruct (Z.eq_dec c 251) as [->|]; [apply A; eauto|].
  replace (match c with 253 => _ | 251 => _ | _ => _ end) with (@nil (list Z)) by (zbits c).
  auto.
Qed.

Lemma tstep_reply iac c : Forall (fun r => exists o', r = [255; 252; o'] \/ r = [255; 254; o'])
  (snd (tstep iac c)) /\ (length (snd (tstep iac c)) <= 1)%nat /\
  (snd (tstep iac c) <> [] -> iac = 253 \/ iac = 251).
Proof.
  assert (P : forall c o, Forall (fun r => exists o', r = [255; 252; o'] \/ r = [255; 254; o'])
      (process_telnet_cmd c o) /\ (length (process_telnet_cmd c o) <= 1)%nat
      /\ (process_telnet_cmd c o <> [] -> c = 253 \/ c = 251)).
  { intros x o. destruct (Z_le_dec 251 x); [destruct (Z_le_dec x 254)|].
    - rewrite ptc_neg by lia. split; [apply reply_shape|].
      assert (x = 251 \/ x = 252 \/ x = 253 \/ x = 254) as [->|[->|[->| ->]]] by lia; cbn;
        try (destruct (_ || _); cbn); repeat split; auto; try congruence; try lia;
        match goal with |- context [if ?b then _ else _] => destruct b end; cbn; lia.
    - rewrite ptc_cmd by lia. cbn; repeat split; auto; try lia; congruence.
    - rewrite ptc_cmd by lia. cbn; repeat split; auto; try lia; congruence. }
  unfold tstep.
  destruct (iac =? -1). { destruct (c =? IAC); cbn; repeat split; auto; try lia; congruence. }
  destruct (iac =? IAC).
  { destruct (c =? IAC); [cbn; repeat split; auto; try lia; congruence|].
    destruct (_ || _) eqn:D; [cbn; repeat split; auto; try lia; congruence|].
    destruct (c =? SE); [cbn; repeat split; auto; try lia; congruence|].
    cbn [snd]. destruct (P c (-1)) as (A & B & C). repeat split; auto.
    intros H. apply C in H. exfalso. unfold DONT, DO, WONT, WILL, SB in D.
    rewrite !orb_false_iff, !Z.eqb_neq in D. lia. }
  destruct (_ || _); [cbn [snd]; apply P|]. cbn; repeat split; auto; try lia; congruence.
Qed.

(** Number of bytes that follow IAC DO or IAC WILL according to the model state. *)
Fixpoint requests (iac : Z) (l : list Z) : nat :=
  match l with
  | [] => 0
  | c :: t => (if (iac =? 253) || (iac =? 251) then 1 else 0) + requests (fst (fst (tstep iac c))) t
  end.

Lemma trun_replies : forall l iac,
  Forall (fun r => exists o', r = [255; 252; o'] \/ r = [255; 254; o']) (snd (trun iac l)).
Proof.
  induction l as [|c l IH]; intros iac; cbn [trun]; [constructor|].
  destruct (tstep_reply iac c) as (A & _). destruct (tstep iac c) as [[i1 d1] r1].
  specialize (IH i1). destruct (trun i1 l) as [[i2 d2] r2]. cbn [snd] in *.
  apply Forall_app; auto.
Qed.

Lemma trun_wont rs : Forall (fun r => exists o', r = [255; 252; o'] \/ r = [255; 254; o']) rs ->
  trun (-1) (concat rs) = (-1, [], []).
Proof.
  induction 1 as [|r rs (o & [->| ->]) F IH]; [reflexivity| |]; cbn [concat]; rewrite trun_app;
    cbn; unfold process_telnet_cmd; cbn; rewrite IH; reflexivity.
Qed.

Theorem no_answer_to_answers iac chunks chunks' i d rs : iac_ok iac ->
  tel_read_all iac chunks = Ok (i, d, rs) -> concat chunks' = concat rs ->
  tel_read_all iac_init chunks' = Ok (iac_init, [], []).
Proof.
  intros V T E. rewrite tel_read_all_ok in T by auto. injection T as T.
  pose proof (trun_replies (concat chunks) iac) as A. rewrite T in A. cbn [snd] in A.
  rewrite tel_read_all_ok by (left; reflexivity). rewrite E.
  rewrite trun_wont by exact A. reflexivity.
Qed.

(** ** Bytes sent to the console *)
Theorem sent_without_iac d : ~ In 255 d -> rfc_data (data_to_telnet d) = d.
Proof.
  unfold data_to_telnet. intros H. unfold rfc_data.
  replace d with (flat_map dbl d) at 1.
  - rewrite rfc_dbl_data. cbn [snd]. clear. induction d; cbn; congruence.
  - induction d as [|b d IH]; [reflexivity|]. cbn [flat_map]. rewrite IH by (intro; apply H; right; auto).
    unfold dbl. destruct (Z.eqb_spec b 255); [subst; exfalso; apply H; left; reflexivity|reflexivity].
Qed.
