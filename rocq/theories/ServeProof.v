(** Proofs about serving a client. *)
From Coq Require Import String Permutation.
From Verif Require Import Base BaseProof Mem Chars Fmt LexModel LexSpec LexProof LexProps StrModel StrSpec StrProof
  FileModel FileSpec FileProof FileProps ProtoModel ProtoSpec ProtoProof QueryModel QuerySpec QueryProof QueryProps ServeModel ServeSpec.
From Coq Require Import ZifyNat.
Local Open Scope Z_scope.
Local Notation len := (@List.length Z).
Local Notation MSL := ProtoModel.MAX_SOCK_LINE.

(** ** Output in pieces *)
Definition piece (ws : list io_ev) (out out' line : list Z) : Prop :=
  exists p, out' = out ++ p /\ prefix p line /\ (~ In Fail ws -> p = line).
Definition pieces (ws : list io_ev) (out out' : list Z) (lines : list (list Z)) : Prop :=
  exists parts, out' = out ++ concat parts /\ Forall2 prefix parts lines /\ (~ In Fail ws -> parts = lines).
Lemma prefix_refl {A} (a : list A) : prefix a a. Proof. exists []. rewrite app_nil_r. reflexivity. Qed.
Lemma prefix_firstn {A} k (a : list A) : prefix (firstn k a) a. Proof. exists (skipn k a). rewrite firstn_skipn. reflexivity. Qed.
Lemma suffix_in {A} (x : A) s1 s : suffix s1 s -> In x s1 -> In x s.
Proof. intros [u ->] I. apply in_or_app. auto. Qed.
Lemma piece_whole ws out line : piece ws out (out ++ line) line.
Proof. exists line. split; auto. split; [apply prefix_refl|auto]. Qed.
Lemma piece_part ws out k line : In Fail ws -> piece ws out (out ++ firstn k line) line.
Proof. intros F. exists (firstn k line). split; auto. split; [apply prefix_firstn|tauto]. Qed.
Lemma pieces_nil ws out : pieces ws out out [].
Proof. exists []. cbn [concat]. rewrite app_nil_r. auto. Qed.
Lemma pieces_cons ws ws1 out o1 o2 line lines : suffix ws1 ws -> piece ws out o1 line -> pieces ws1 o1 o2 lines -> pieces ws out o2 (line :: lines).
Proof.
  intros S (p & -> & P & E) (parts & -> & F & G). exists (p :: parts). cbn [concat]. rewrite app_assoc. split; auto. split; [auto|].
  intros N. rewrite E, G; auto. intros I. apply N. eapply suffix_in; eauto.
Qed.
Lemma pieces_none ws out lines : In Fail ws -> pieces ws out out lines.
Proof.
  intros F. exists (map (fun _ => []) lines). split; [|split; [|tauto]].
  - induction lines as [|l lines IH]; cbn [map concat List.app]; [rewrite app_nil_r; auto|exact IH].
  - induction lines as [|l lines IH]; cbn [map]; constructor; auto. exists l. reflexivity.
Qed.
Lemma pieces_one ws out out' line : piece ws out out' line -> pieces ws out out' [line].
Proof. intros P. eapply pieces_cons; [apply suffix_refl|exact P|apply pieces_nil]. Qed.
Lemma pieces_weak ws ws1 out out' lines : suffix ws1 ws -> pieces ws1 out out' lines -> pieces ws out out' lines.
Proof. intros S (parts & E & F & G). exists parts. split; auto. split; auto. intros N. apply G. intros I. apply N. eapply suffix_in; eauto. Qed.
Lemma pieces_app ws ws1 out o1 o2 l1 l2 : suffix ws1 ws -> pieces ws out o1 l1 -> pieces ws1 o1 o2 l2 -> pieces ws out o2 (l1 ++ l2).
Proof.
  intros S (p1 & -> & F1 & G1) (p2 & -> & F2 & G2). exists (p1 ++ p2). rewrite concat_app, app_assoc. split; auto. split; [apply Forall2_app; auto|].
  intros N. rewrite G1, G2; auto. intros I. apply N. eapply suffix_in; eauto.
Qed.
Lemma suffix_trans {A} (a b c : list A) : suffix a b -> suffix b c -> suffix a c.
Proof. intros [u ->] [v ->]. exists (v ++ u). rewrite app_assoc. reflexivity. Qed.

Lemma write_piece ws out buf s : holds buf s -> exists out' ok ws1, write_str ws out buf = Ok (out', ok, ws1) /\ suffix ws1 ws /\ piece ws out out' s /\ (ok = false -> In Fail ws).
Proof.
  intros H. destruct (write_str_ok ws out buf s H) as (out' & ok & s1 & E & S & X). exists out', ok, s1. split; auto. split; auto.
  destruct X as [[-> ->]|(-> & F & k & _ & ->)]; [split; [apply piece_whole|discriminate]|split; [apply piece_part; auto|auto]].
Qed.
(** Error answers that fit. *)
Lemma err_piece dbg ws out reset names code msg : 0 < code <= INT_MAX -> can dbg msg -> (len msg < MAX_LINE)%nat ->
  exists out' rv ws1, send_rsp dbg ws out reset names code (Some msg) = Ok (out', rv, ws1) /\ suffix ws1 ws /\ piece ws out out' (error_line code msg).
Proof.
  intros R C L. destruct (send_err_ok dbg ws out reset names code (Some msg) msg R C eq_refl) as (out' & rv & s1 & E & S & X).
  exists out', rv, s1. split; auto. split; auto. destruct X as [(_ & -> & _)|[(_ & _ & X)|(_ & F & k & _ & ->)]]; [apply piece_whole|lia|apply piece_part; auto].
Qed.

(** ** Buffers *)
Lemma vsn_any M buf t : len buf = M -> chars_ok t -> (len t < M)%nat ->
  exists b, vsnprintf buf 0 M t = Ok (b, len t) /\ holds b t /\ len b = M.
Proof.
  intros LB C L. unfold vsnprintf. destruct (Nat.eqb_spec M 0); [lia|]. rewrite firstn_all2 by lia.
  set (k := S (len t)). rewrite <- (firstn_skipn k buf).
  pose proof (blit_eq [] (firstn k buf) (skipn k buf) (t ++ [NUL]) 0) as E. cbn [List.app] in E.
  rewrite E; [|reflexivity|rewrite firstn_length, app_length; unfold k in *; cbn [List.length]; lia].
  cbn [bind]. eexists. split; [reflexivity|]. split.
  - split; auto. exists (skipn k buf). rewrite <- app_assoc. reflexivity.
  - rewrite !app_length, skipn_length. cbn [List.length]. unfold k. lia.
Qed.
Lemma copy_name buf s : len buf = MSL -> chars_ok s -> (len s < MAX_LINE)%nat ->
  exists b1 b2 n1 n2, strlcpy buf 0 (s ++ [NUL]) MSL = Ok (b1, n1) /\ strlcat b1 [LF; NUL] MSL = Ok (b2, n2) /\ holds b2 (s ++ [LF]) /\ len b2 = MSL.
Proof.
  intros LB C L. pose proof ML_M. assert (POS : (0 < MSL)%nat) by lia. assert (LM : (len s <= MSL - 1)%nat) by lia.
  pose proof (strlcpy_ok [] buf [] (s ++ [NUL]) s MSL) as E. cbn [List.app List.length] in E. rewrite app_nil_r in E.
  assert (H1 : holds (s ++ [NUL]) s) by (split; [auto|exists []; auto]).
  specialize (E H1 LB POS). rewrite app_nil_r in E.
  assert (EC : copied buf s = s ++ NUL :: skipn (S (len s)) buf).
  { clear E. unfold copied. rewrite LB, firstn_all2 by exact LM. rewrite Nat.min_l by exact LM. reflexivity. }
  rewrite EC in E. clear EC. set (b := skipn (S (len s)) buf) in *.
  assert (LL : len b = (MSL - S (len s))%nat) by (unfold b; rewrite skipn_length; lia). clearbody b.
  assert (H2 : holds [LF; NUL] [LF]) by (split; [repeat constructor; unfold char_ok, LF; lia|exists []; auto]).
  assert (L3 : len (s ++ NUL :: b) = MSL) by (rewrite app_length; cbn [List.length]; lia).
  pose proof (strlcat_ok s b [LF; NUL] [LF] MSL H2 C L3) as E2.
  exists (s ++ NUL :: b), (s ++ copied (NUL :: b) [LF]), (len s), (len s + len [LF])%nat.
  split; [exact E|]. split; [exact E2|]. clear E E2. destruct b as [|b0 b]; [cbn [List.length] in LL; lia|].
  assert (EC : copied (NUL :: b0 :: b) [LF] = LF :: NUL :: b).
  { unfold copied. cbn [List.length]. replace (S (S (len b)) - 1)%nat with (S (len b)) by lia. cbn [firstn]. rewrite firstn_nil.
    replace (Nat.min 1 (S (len b))) with 1%nat by lia. reflexivity. }
  rewrite EC. split.
  - split; [apply Forall_app; split; [auto|repeat constructor; unfold char_ok, LF; lia]|]. exists b. rewrite <- app_assoc. reflexivity.
  - rewrite app_length in *. cbn [List.length] in *. lia.
Qed.
Lemma busy_text_eq nm o w : busy_text (nm o) w = writer_text nm o w.
Proof. unfold busy_text, writer_text. destruct w as [? ? ? b ?]; cbn; destruct b; destruct w_tty, w_idle; cbn [List.concat app]; rewrite ?app_nil_r, <- ?app_assoc; reflexivity. Qed.
Lemma busy_chars c w : chars_ok c -> who_ok w -> chars_ok (busy_text c w).
Proof.
  intros C (U & H & T & D). unfold busy_text. repeat (apply Forall_app; split); auto; try zc.
  - destruct (w_bcast w); zc.
  - destruct (w_tty w) as [t|]; [|constructor]. apply Forall_app. split; [zc|]. exact (T t eq_refl).
  - destruct (w_idle w) as [d|]; [exact (D d eq_refl)|zc].
Qed.
Lemma busy_buf_ok nm buf o w : len buf = MAX_LINE -> chars_ok (nm o) -> who_ok w ->
  exists b, busy_buf buf (nm o) w = Ok b /\ holds b (writer_line nm o w) /\ len b = MAX_LINE.
Proof.
  intros LB C W. unfold busy_buf, writer_line. rewrite <- busy_text_eq. pose proof (busy_chars _ _ C W) as CT. set (t := busy_text (nm o) w) in *. clearbody t.
  pose proof ML_300 as M3. unfold vsnprintf. destruct (Nat.eqb_spec MAX_LINE 0); [lia|].
  set (x := firstn (MAX_LINE - 1) t ++ [NUL]).
  assert (LX : (len x <= MAX_LINE)%nat) by (unfold x; rewrite app_length, firstn_length; cbn [List.length]; lia).
  rewrite <- (firstn_skipn (len x) buf).
  pose proof (blit_eq [] (firstn (len x) buf) (skipn (len x) buf) x 0) as E. cbn [List.app] in E.
  rewrite E; [|reflexivity|rewrite firstn_length; lia]. clear E. cbn [bind fst].
  set (r := x ++ skipn (len x) buf).
  assert (LR : len r = MAX_LINE) by (unfold r; rewrite app_length, skipn_length; lia).
  (* split r at the last two places *)
  destruct (split_at r (MAX_LINE - 2)) as (r1 & a & r2 & ER & L1); [lia|].
  destruct r2 as [|b0 r2]; [rewrite ER, app_length in LR; cbn [List.length] in LR; lia|].
  destruct r2 as [|c0 r2]; [|rewrite ER, app_length in LR; cbn [List.length] in LR; lia].
  rewrite ER. rewrite (put_eq r1 a [b0]) by lia. cbn [bind].
  pose proof (put_eq (r1 ++ [LF]) b0 [] NUL (MAX_LINE - 1)) as E. rewrite <- !app_assoc in E. cbn [List.app] in E.
  rewrite E by (rewrite app_length; cbn [List.length]; lia). clear E. eexists. split; [reflexivity|]. split.
  2:{ rewrite app_length. cbn [List.length]. lia. }
  destruct (Nat.ltb_spec (len t) (MAX_LINE - 2)) as [S|S].
  - (* the NUL comes before *)
    assert (EX : x = t ++ [NUL]) by (unfold x; rewrite firstn_all2 by lia; reflexivity).
    split; auto. assert (ER1 : r1 = firstn (MAX_LINE - 2) r) by (rewrite ER, firstn_app, L1, Nat.sub_diag, firstn_all2 by lia; cbn [firstn]; rewrite app_nil_r; auto).
    unfold r in ER1. rewrite EX, <- app_assoc in ER1. rewrite firstn_app, firstn_all2 in ER1 by lia.
    destruct (MAX_LINE - 2 - len t)%nat as [|k] eqn:K; [lia|]. cbn [firstn List.app] in ER1.
    rewrite ER1, <- app_assoc. cbn [List.app]. eauto.
  - assert (ER1 : r1 = firstn (MAX_LINE - 2) t).
    { assert (X : r1 = firstn (MAX_LINE - 2) r) by (rewrite ER, firstn_app, L1, Nat.sub_diag, firstn_all2 by lia; cbn [firstn]; rewrite app_nil_r; auto).
      rewrite X. unfold r, x. rewrite <- app_assoc. rewrite firstn_app, firstn_firstn, firstn_length, Nat.min_l by lia.
      replace (MAX_LINE - 2 - Nat.min (MAX_LINE - 1) (len t))%nat with 0%nat by lia. cbn [firstn]. apply app_nil_r. }
    rewrite ER1. split.
    + apply Forall_app. split; [|zc]. rewrite <- (firstn_skipn (MAX_LINE - 2) t) in CT. apply Forall_app in CT. apply CT.
    + exists []. rewrite <- app_assoc. reflexivity.
Qed.

(** ** The listings *)
Section Listings.
Variables (dbg : bool) (nm : nat -> list Z) (writers : nat -> list who).
Lemma list_names_ok l : Forall (fun o => chars_ok (nm o) /\ (len (nm o) < MAX_LINE)%nat) l -> forall ws out buf, len buf = MSL ->
  exists out', list_names nm ws out buf l = Ok out' /\ pieces ws out out' (map (fun o => nm o ++ [LF]) l).
Proof.
  induction 1 as [|o l [C L] F IH]; intros ws out buf LB; cbn [list_names map].
  - exists out. split; auto. apply pieces_nil.
  - destruct (copy_name buf (nm o) LB C L) as (b1 & b2 & n1 & n2 & -> & E2 & H & L2). cbn [bind fst]. rewrite E2. cbn [bind fst].
    destruct (write_piece ws out b2 _ H) as (o1 & ok & ws1 & -> & S & P & FA). cbn [bind]. destruct ok.
    + destruct (IH ws1 o1 b2 L2) as (o2 & -> & P2). exists o2. split; auto. eapply pieces_cons; eauto.
    + exists o1. split; auto. destruct P as (p & -> & PP & PE). specialize (FA eq_refl). eapply pieces_cons; [apply suffix_refl|exists p; split; [reflexivity|auto]|].
      apply pieces_none; auto.
Qed.
Lemma list_writers_ok o l : chars_ok (nm o) -> Forall who_ok l -> forall ws out buf, len buf = MAX_LINE ->
  exists out' buf' ws1, list_writers ws out buf (nm o) l = Ok (out', buf', ws1) /\ len buf' = MAX_LINE /\ suffix ws1 ws /\ pieces ws out out' (map (writer_line nm o) l).
Proof.
  intros C. induction 1 as [|w l W F IH]; intros ws out buf LB; cbn [list_writers map].
  - exists out, buf, ws. repeat split; auto; [apply suffix_refl|apply pieces_nil].
  - destruct (busy_buf_ok nm buf o w LB C W) as (b & -> & H & L2). cbn [bind].
    destruct (write_piece ws out b _ H) as (o1 & ok & ws1 & -> & S & P & FA). cbn [bind]. destruct ok.
    + destruct (IH ws1 o1 b L2) as (o2 & b2 & ws2 & -> & L3 & S2 & P2). exists o2, b2, ws2. split; auto. split; auto. split; [eapply suffix_trans; eauto|]. eapply pieces_cons; eauto.
    + exists o1, b, ws1. split; auto. split; auto. split; auto. destruct P as (p & -> & PP & PE). specialize (FA eq_refl).
      eapply pieces_cons; [apply suffix_refl|exists p; split; [reflexivity|auto]|]. apply pieces_none; auto.
Qed.
Lemma list_busy_ok l : Forall (fun o => chars_ok (nm o) /\ Forall who_ok (writers o)) l -> forall ws out buf, len buf = MAX_LINE ->
  exists out', list_busy nm writers ws out buf l = Ok out' /\ pieces ws out out' (flat_map (fun o => map (writer_line nm o) (writers o)) l).
Proof.
  induction 1 as [|o l [C W] F IH]; intros ws out buf LB; cbn [list_busy flat_map].
  - exists out. split; auto. apply pieces_nil.
  - destruct (list_writers_ok o (writers o) C W ws out buf LB) as (o1 & b1 & ws1 & -> & L1 & S & P). cbn [bind].
    destruct (IH ws1 o1 b1 L1) as (o2 & -> & P2). exists o2. split; auto. eapply pieces_app; eauto.
Qed.
End Listings.

(** ** The answer *)
Section Answer.
Variables (dbg sgn : bool) (isc : nat -> bool) (nm : nat -> list Z) (fnm : list Z -> list Z -> bool).
Variables (regex : list Z -> option (list Z -> option (nat * nat))) (regerr : list Z -> list Z).
Variables (objs : list nat) (writers : nat -> list who) (resets : bool).

Lemma query_in rx query bcast pats sel b ok : NoDup objs -> query_consoles sgn isc nm fnm regex rx query bcast objs pats = Ok (sel, b, ok) ->
  NoDup sel /\ forall o, In o sel -> In o objs /\ isc o = true.
Proof using sgn isc nm fnm regex objs writers.
  intros ND. unfold query_consoles.
  assert (G : forall m, NoDup m -> (forall o, In o m -> In o objs /\ isc o = true) -> forall k,
     (do sorted <- sort_r (fun a b => compare_objs sgn (nm a) (nm b)) [] m; Ok (sorted, if (length sorted =? 1)%nat then false else bcast, k)) = Ok (sel, b, ok) ->
     NoDup sel /\ forall o, In o sel -> In o objs /\ isc o = true).
  { intros m N A k. destruct (sort_r _ _ _) as [s|] eqn:Q; [|discriminate]. cbn [bind]. intros E. injection E; intros _ _ ES. subst s.
    apply sort_r_perm in Q. cbn [app] in Q. split; [eapply Permutation_NoDup; eauto|]. intros o I. apply A. eapply Permutation_in; [apply Permutation_sym; exact Q|exact I]. }
  assert (GG : NoDup (via_globbing isc nm fnm objs pats) /\ forall o, In o (via_globbing isc nm fnm objs pats) -> In o objs /\ isc o = true).
  { unfold via_globbing. cbv zeta. split; [apply via_glob_nodup; constructor|]. intros o I. apply via_glob_in in I. destruct I as [[]|(A & B & _)]. auto. }
  assert (GR : forall m, via_regex isc nm regex objs pats = Some m -> NoDup m /\ forall o, In o m -> In o objs /\ isc o = true).
  { unfold via_regex. intros m. cbv zeta. destruct (regex _) as [r|]; [|discriminate]. intros E. injection E as <-. split; [apply filter_nodup; auto|].
    intros o I. apply filter_In in I. destruct I as [I1 I2]. apply andb_true_iff in I2. tauto. }
  assert (GE : NoDup (@nil nat) /\ forall o, In o (@nil nat) -> In o objs /\ isc o = true) by (split; [constructor|intros o []]).
  destruct pats as [|p ps].
  - destruct query.
    + destruct rx; [destruct (via_regex isc nm regex objs []) as [m|] eqn:V|]; [apply G; apply (GR _ eq_refl)|apply G; apply GE|apply G; apply GG].
    + intros E. injection E; intros _ _ <-. exact GE.
  - destruct rx; [destruct (via_regex isc nm regex objs (p :: ps)) as [m|] eqn:V|]; [apply G; apply (GR _ eq_refl)|apply G; apply GE|apply G; apply GG].
Qed.

Lemma nat_chars n : Z.of_nat n <= INT_MAX -> chars_ok (fmt_d (Z.of_nat n)) /\ (forall c, In c (fmt_d (Z.of_nat n)) -> c < 128) /\ (len (fmt_d (Z.of_nat n)) <= 10)%nat.
Proof.
  intros L. destruct (code_digits (Z.of_nat n) ltac:(lia)) as (D & _ & K). split; [apply digit_char; auto|]. split; auto.
  intros c I. rewrite Forall_forall in D. specialize (D c I). unfold isdigit in D. lia.
Qed.
Lemma found_can n post : Z.of_nat n <= INT_MAX -> forallb (fun c => (1 <=? c) && (c <? 128)) (zs post) = true -> (len (zs post) <= 100)%nat ->
  can dbg (zs "Found " ++ fmt_d (Z.of_nat n) ++ zs post) /\ (len (zs "Found " ++ fmt_d (Z.of_nat n) ++ zs post) < 300)%nat.
Proof.
  intros L P K. destruct (nat_chars n L) as (C & S & D). destruct (can_b dbg _ P) as [P1 P2]. destruct (can_b dbg (zs "Found ") eq_refl) as [F1 F2]. split.
  - split; [repeat (apply Forall_app; split); auto|]. intros X. repeat (apply Forall_app; split); auto. apply Forall_forall. auto.
  - rewrite !app_length. assert (len (zs "Found ") = 6%nat) as -> by reflexivity. lia.
Qed.

Definition good_sel (sel : list nat) : Prop := Forall (fun o => can dbg (nm o) /\ (len (nm o) < MAX_LINE)%nat) sel /\ Z.of_nat (List.length sel) <= INT_MAX.

Lemma too_many_ok ws out jbuf q sel : sel <> [] -> good_sel sel -> len jbuf = MSL -> q_cmd q <> CmdNone ->
  if too_many q sel
  then exists out', check_too_many_consoles dbg nm ws out jbuf q sel = Ok (Some out') /\
         pieces ws out out' (error_line 6 (zs "Found " ++ decimal (List.length sel) ++ zs " matching consoles") :: map (fun o => nm o ++ [LF]) sel)
  else check_too_many_consoles dbg nm ws out jbuf q sel = Ok None.
Proof.
  intros NE [F LS] LJ NC. unfold check_too_many_consoles, too_many, one_only, decimal.
  destruct (found_can (List.length sel) " matching consoles" LS eq_refl ltac:(vm_compute; lia)) as [CM LM]. cbv zeta.
  set (msg := zs "Found " ++ fmt_d (Z.of_nat (List.length sel)) ++ zs " matching consoles") in *. clearbody msg. pose proof ML_M. pose proof ML_300.
  destruct (vsn_any MSL jbuf msg LJ (proj1 CM)) as (b & EV & (HC & j & ->) & LB); [lia|]. rewrite EV. cbn [bind fst]. rewrite (cstr_ok msg j HC). cbn [bind].
  assert (G : exists out', (do s <- send_rsp dbg ws out (q_reset q) (map nm sel) 6 (Some msg);
     let '(out1, _, ws1) := s in do o <- list_names nm ws1 out1 (msg ++ NUL :: j) sel; Ok (Some o)) = Ok (Some out') /\ pieces ws out out' (error_line 6 msg :: map (fun o => nm o ++ [LF]) sel)).
  { destruct (err_piece dbg ws out (q_reset q) (map nm sel) 6 msg ltac:(unfold INT_MAX; lia) CM ltac:(lia)) as (o1 & rv & ws1 & -> & S & P). cbn [bind].
    destruct (list_names_ok nm sel) with (ws := ws1) (out := o1) (buf := msg ++ NUL :: j) as (o2 & -> & P2); auto.
    { eapply Forall_impl; [|exact F]. intros a [[A _] B]. auto. }
    cbn [bind]. exists o2. split; auto. eapply pieces_cons; eauto. }
  destruct (Nat.ltb_spec 1 (List.length sel)) as [L1|L1]; destruct (Nat.eqb_spec (List.length sel) 1) as [E1|E1]; try lia.
  - destruct (q_cmd q); try congruence; cbn [andb]; auto. destruct (q_bcast q); cbn [negb andb]; auto.
  - rewrite andb_false_r. destruct (q_cmd q); auto.
  - destruct sel; [congruence|cbn [List.length] in *; lia].
Qed.

Lemma has_writers (l : list who) : match l with [] => false | _ => true end = negb (List.length l =? 0)%nat.
Proof. destruct l; reflexivity. Qed.
Definition busy_lines (b : list nat) : list (list Z) :=
  match b with
  | [] => []
  | [o] => error_line 7 (zs "Found console already in use") :: map (writer_line nm o) (writers o)
  | b => error_line 7 (zs "Found " ++ decimal (List.length b) ++ zs " consoles already in use") :: flat_map (fun o => map (writer_line nm o) (writers o)) b
  end.
Lemma busy_ok ws out jbuf q sel : good_sel sel -> (forall o, Forall who_ok (writers o)) -> len jbuf = MAX_LINE -> q_cmd q <> CmdNone ->
  match occupied writers q sel with
  | [] => check_busy_consoles dbg nm writers ws out jbuf q sel = Ok None
  | b => exists out', check_busy_consoles dbg nm writers ws out jbuf q sel = Ok (Some out') /\ pieces ws out out' (busy_lines b)
  end.
Proof.
  intros [F LS] W LJ NC. unfold check_busy_consoles, occupied. pose proof ML_300.
  destruct (q_cmd q); auto; try congruence. destruct (q_force q || q_join q); auto.
  rewrite (filter_ext (fun o => match writers o with [] => false | _ => true end) (fun o => negb (List.length (writers o) =? 0)%nat)) by (intros; apply has_writers).
  assert (FB : incl (filter (fun o => negb (List.length (writers o) =? 0)%nat) sel) sel) by (intros o I; apply filter_In in I; tauto).
  assert (LB : (List.length (filter (fun o => negb (List.length (writers o) =? 0)%nat) sel) <= List.length sel)%nat) by (clear; induction sel as [|a l IH]; cbn [filter List.length]; [lia|]; destruct (negb _); cbn [List.length]; lia).
  set (busy := filter _ sel) in *. clearbody busy. destruct busy as [|o b] eqn:EB; auto. rewrite <- EB in *. cbv zeta.
  set (msg := if (List.length busy =? 1)%nat then zs "Found console already in use" else zs "Found " ++ fmt_d (Z.of_nat (List.length busy)) ++ zs " consoles already in use").
  assert (CM : can dbg msg /\ (len msg < 300)%nat).
  { unfold msg. destruct (Nat.eqb_spec (List.length busy) 1); [split; [apply can_b; reflexivity|vm_compute; lia]|]. apply found_can; [lia|reflexivity|vm_compute; lia]. }
  assert (EL : busy_lines busy = error_line 7 msg :: flat_map (fun o => map (writer_line nm o) (writers o)) busy).
  { unfold busy_lines, msg, decimal. rewrite EB. destruct b as [|o2 b]; [|reflexivity]. cbn [List.length flat_map]. rewrite app_nil_r. reflexivity. }
  rewrite EL. clear EL. clearbody msg. destruct CM as [CM LM].
  destruct (vsn_any MAX_LINE jbuf msg LJ (proj1 CM)) as (bb & EV & (HC & j & ->) & LBB); [lia|]. rewrite EV. cbn [bind fst]. rewrite (cstr_ok msg j HC). cbn [bind].
  destruct (err_piece dbg ws out (q_reset q) (map nm sel) 7 msg ltac:(unfold INT_MAX; lia) CM ltac:(lia)) as (o1 & rv & ws1 & -> & S & P). cbn [bind].
  destruct (list_busy_ok nm writers busy) with (ws := ws1) (out := o1) (buf := msg ++ NUL :: j) as (o2 & -> & P2); auto.
  { apply Forall_forall. intros a A. rewrite Forall_forall in F. destruct (F a (FB a A)) as [[X _] _]. auto. }
  cbn [bind]. exists o2. split; auto. eapply pieces_cons; eauto.
Qed.

(** What validation comes to. *)
Lemma validate_ok ws out j1 j2 q sel : good_sel sel -> (forall o, Forall who_ok (writers o)) -> len j1 = MSL -> len j2 = MAX_LINE -> (q_cmd q = CmdNone -> sel = []) ->
  (granted writers q sel /\ validate_req dbg nm writers ws out j1 j2 q sel = Ok None /\ reply nm writers resets q sel = [ok_line resets (map nm sel)]) \/
  (~ granted writers q sel /\ exists out', validate_req dbg nm writers ws out j1 j2 q sel = Ok (Some out') /\ pieces ws out out' (reply nm writers resets q sel)).
Proof.
  intros G W L1 L2 NC. unfold granted, validate_req, reply. destruct sel as [|s0 sel0] eqn:ES.
  - right. split; [tauto|]. destruct (err_piece dbg ws out (q_reset q) [] 5 (zs "Found no matching consoles") ltac:(unfold INT_MAX; lia) (can_b dbg (zs "Found no matching consoles") eq_refl)) as (o1 & rv & ws1 & -> & S & P).
    { pose proof ML_300. assert (len (zs "Found no matching consoles") <= 100)%nat by (vm_compute; lia). lia. }
    cbn [bind]. exists o1. split; auto. apply pieces_one. auto.
  - rewrite <- ES in *. assert (NE : sel <> []) by (rewrite ES; discriminate). assert (NC2 : q_cmd q <> CmdNone) by (intros X; apply NE, NC, X).
    pose proof (too_many_ok ws out j1 q sel NE G L1 NC2) as T. destruct (too_many q sel) eqn:TM.
    + right. split; [intros (_ & X & _); discriminate|]. destruct T as (o & -> & P). cbn [bind]. eauto.
    + rewrite T. cbn [bind]. pose proof (busy_ok ws out j2 q sel G W L2 NC2) as B. destruct (occupied writers q sel) as [|o b] eqn:OC.
      * left. repeat split; auto.
      * right. split; [intros (_ & _ & X); discriminate|]. destruct B as (o' & -> & P). exists o'. split; auto. destruct b; exact P.
Qed.

Lemma sel_good rx query bcast pats sel b ok : consoles_ok dbg isc nm objs -> query_consoles sgn isc nm fnm regex rx query bcast objs pats = Ok (sel, b, ok) -> good_sel sel.
Proof.
  intros (ND & LO & N) E. destruct (query_in rx query bcast pats sel b ok ND E) as [NS I]. split.
  - apply Forall_forall. intros o O. destruct (I o O) as [I1 I2]. destruct (N o I1 I2) as (A & B & C & _). split; [split; auto|auto].
  - assert (List.length sel <= List.length objs)%nat by (apply NoDup_incl_length; [auto|intros o O; apply I; auto]). lia.
Qed.
Lemma none_sel rx bcast pats sel b ok : pats = [] -> query_consoles sgn isc nm fnm regex rx false bcast objs pats = Ok (sel, b, ok) -> sel = [].
Proof. intros -> E. cbn in E. congruence. Qed.

Lemma ok_fits ws out reset names : Forall (can dbg) names ->
  exists out' rv s1, send_rsp dbg ws out reset names 0 None = Ok (out', rv, s1) /\ suffix s1 ws /\
   (rv = 0 /\ out' = out ++ ok_line reset names /\ (len (ok_line reset names) < MSL)%nat /\ Forall (fun n => (len n < MAX_LINE)%nat) names \/
    rv = -1 /\ out' = out /\ ((MSL <= len (ok_line reset names))%nat \/ exists n, In n names /\ (MAX_LINE <= len n)%nat) \/
    rv = -1 /\ In Fail ws /\ (len (ok_line reset names) < MSL)%nat /\ exists k, out' = out ++ firstn k (ok_line reset names)).
Proof.
  intros F. unfold send_rsp. destruct (rsp_ok_buf dbg reset names None F) as (o & -> & R). cbn [bind]. destruct o as [b|].
  - destruct R as (H & L & FN). pose proof (holds_len _ _ H L). destruct (write_str_ok ws out b _ H) as (out' & ok & s1 & -> & S1 & W). cbn [bind].
    eexists _, _, s1. split; [reflexivity|]. split; auto. destruct W as [(-> & W)|(-> & FA & k & K & W)]; [left; auto|right; right; eauto 6].
  - eexists _, _, ws. split; [reflexivity|]. split; [apply suffix_refl|]. right. left. auto.
Qed.

(** What becomes of a request that has been read: the selection, the lines, the session. *)
Definition outcome (ws : list io_ev) (out : list Z) (q : req) (v : served) : Prop :=
  exists sel bc ok lines,
    query_consoles sgn isc nm fnm regex (q_regex q) (match q_cmd q with CmdQuery => true | _ => false end) (q_bcast q) objs (q_cons q) = Ok (sel, bc, ok) /\
    pieces ws out (v_out v) lines /\
    let q3 := set_bc q bc in let names := map nm sel in
    (ok = false /\ (exists m, lines = [error_line 3 m]) /\ v_conn v = closed /\ v_sess v = None \/
     ok = true /\ ~ granted writers q3 sel /\ lines = reply nm writers resets q3 sel /\ v_conn v = closed /\ v_sess v = None \/
     ok = true /\ granted writers q3 sel /\ (len (ok_line resets names) < MSL)%nat /\ lines = reply nm writers resets q3 sel /\ lines = [ok_line resets names] /\
       (q_cmd q <> CmdQuery /\ v_out v = out ++ ok_line resets names /\ v_conn v = kept /\ v_sess v = Some (set_rst q3 resets, sel) \/
        (q_cmd q = CmdQuery \/ In Fail ws) /\ v_conn v = closed /\ v_sess v = None) \/
     ok = true /\ granted writers q3 sel /\ (MSL <= len (ok_line resets names))%nat /\ lines = [] /\ v_conn v = closed /\ v_sess v = None).

Lemma answer_ok ws out rest j1 j2 q : consoles_ok dbg isc nm objs -> (forall o, Forall who_ok (writers o)) -> regerr_ok dbg regerr ->
  q_reset q = false -> (q_cmd q = CmdNone -> q_cons q = []) -> len j1 = MSL -> len j2 = MAX_LINE ->
  exists v, answer_req dbg sgn isc nm fnm regex regerr objs writers resets true ws out rest j1 j2 q = Ok v /\ v_rest v = rest /\ outcome ws out q v.
Proof.
  intros CO WO RO QR QN L1 L2. unfold answer_req, outcome. cbv zeta.
  destruct (C54_sorted sgn isc nm fnm regex (q_regex q) (match q_cmd q with CmdQuery => true | _ => false end) (q_bcast q) objs (q_cons q)) as (sel & bc & ok & EQ & _).
  { intros o I1 I2. apply CO; auto. }
  rewrite EQ. cbn [bind]. pose proof (sel_good _ _ _ _ _ _ _ CO EQ) as G.
  assert (QS : q_cmd (set_bc q bc) = CmdNone -> sel = []).
  { change (q_cmd (set_bc q bc)) with (q_cmd q). intros X. rewrite X in EQ. eapply none_sel; [|exact EQ]. auto. }
  destruct ok; cbn [negb].
  - destruct (validate_ok ws out j1 j2 (set_bc q bc) sel G WO L1 L2 QS) as [(GR & -> & RE)|(GR & o & -> & P)]; cbn [bind].
    + change (q_cmd (set_rst (set_bc q bc) resets)) with (q_cmd (if resets then set_reset (set_bc q bc) else set_bc q bc)).
      assert (EC : q_cmd (if resets then set_reset (set_bc q bc) else set_bc q bc) = q_cmd q) by (destruct resets; reflexivity). rewrite EC. clear EC.
      assert (ER : q_reset (set_rst (set_bc q bc) resets) = resets) by (unfold set_rst; destruct resets; [reflexivity|exact QR]). rewrite ER. clear ER.
      assert (NC : q_cmd q <> CmdNone) by (intros X; destruct GR as (NE & _); apply NE, QS, X).
      assert (FC : Forall (can dbg) (map nm sel)) by (apply Forall_map; eapply Forall_impl; [|apply G]; intros a [A _]; exact A).
      assert (FL : ~ exists n, In n (map nm sel) /\ (MAX_LINE <= len n)%nat).
      { intros (n & I & X). apply in_map_iff in I. destruct I as (o & <- & I). destruct G as [G _]. rewrite Forall_forall in G. destruct (G o I). lia. }
      destruct (ok_fits ws out resets (map nm sel) FC) as (o & rv & ws1 & ES & SU & R).
      assert (EM : forall (A B : res served), match q_cmd q with CmdNone => A | _ => B end = B) by (intros; destruct (q_cmd q); congruence).
      rewrite EM, ES. cbn [bind]. destruct R as [(-> & -> & LO & _)|[(-> & -> & [LO|X])|(-> & FA & LT & k & ->)]]; [| |tauto|].
      * change (0 <? 0) with false. cbv iota. destruct (q_cmd q) eqn:QC; try congruence.
        -- eexists. split; [reflexivity|]. split; [reflexivity|]. exists sel, bc, true, [ok_line resets (map nm sel)]. split; auto. cbn [v_out v_conn v_sess].
           split; [apply pieces_one, piece_whole|]. right. right. left. repeat split; auto; try apply GR. left. repeat split; auto. discriminate.
        -- eexists. split; [reflexivity|]. split; [reflexivity|]. exists sel, bc, true, [ok_line resets (map nm sel)]. split; auto. cbn [v_out v_conn v_sess].
           split; [apply pieces_one, piece_whole|]. right. right. left. repeat split; auto; try apply GR. left. repeat split; auto. discriminate.
        -- cbn [destroy_req c_req c_sock bind]. eexists. split; [reflexivity|]. split; [reflexivity|]. exists sel, bc, true, [ok_line resets (map nm sel)]. split; auto. cbn [v_out v_conn v_sess].
           split; [apply pieces_one, piece_whole|]. right. right. left. repeat split; auto; try apply GR.
      * change (-1 <? 0) with true. cbv iota. cbn [destroy_req c_req c_sock bind]. eexists. split; [reflexivity|]. split; [reflexivity|]. exists sel, bc, true, []. split; auto. cbn [v_out v_conn v_sess].
        split; [apply pieces_nil|]. right. right. right. repeat split; auto; try apply GR.
      * change (-1 <? 0) with true. cbv iota. cbn [destroy_req c_req c_sock bind]. eexists. split; [reflexivity|]. split; [reflexivity|].
        exists sel, bc, true, [ok_line resets (map nm sel)]. split; auto. cbn [v_out v_conn v_sess].
        split; [apply pieces_one, piece_part; auto|]. right. right. left. repeat split; auto; try apply GR.
    + cbn [destroy_req c_req c_sock bind]. eexists. split; [reflexivity|]. split; [reflexivity|]. exists sel, bc, true, (reply nm writers resets (set_bc q bc) sel). split; auto. cbn [v_out v_conn v_sess].
      split; auto. right. left. auto.
  - set (p := firstn _ _). destruct (RO p) as (R1 & R2 & R3).
    destruct (err_piece dbg ws out (q_reset (set_bc q bc)) [] 3 (regerr p) ltac:(unfold INT_MAX; lia) (conj R1 R2) R3) as (o & rv & ws1 & -> & S & P).
    cbn [bind destroy_req c_req c_sock]. eexists. split; [reflexivity|]. split; [reflexivity|]. exists sel, bc, false, [error_line 3 (regerr p)]. split; auto. cbn [v_out v_conn v_sess].
    split; [apply pieces_one; auto|]. left. repeat split; auto. eauto.
Qed.
End Answer.

(** ** Reading *)
Definition blank (q : req) : Prop := set_tty (set_user q None) None = create_req.
Lemma blank_user q u : blank q -> blank (set_user q u). Proof. unfold blank. intros <-. reflexivity. Qed.
Lemma blank_tty q t : blank q -> blank (set_tty q t). Proof. unfold blank. intros <-. reflexivity. Qed.
Lemma greeting_blank : total blank never (greeting_body false).
Proof.
  intros k l r q A I. left. unfold greeting_body. destruct (k =? TOK_USER).
  { destruct (value_any LEX_STR l r A) as (l' & o & rest & -> & A1 & L1 & T). cbn [bind fst snd].
    eexists _, _, _, rest. split; [reflexivity|]. split; auto. split; auto. destruct (nonempty o); [apply blank_user; auto|auto]. }
  destruct (k =? TOK_TTY).
  { destruct (value_any LEX_STR l r A) as (l' & o & rest & -> & A1 & L1 & T). cbn [bind fst snd].
    eexists _, _, _, rest. split; [reflexivity|]. split; auto. split; auto. destruct (nonempty o); [apply blank_tty; auto|auto]. }
  eexists _, _, _, r. split; [reflexivity|]. auto.
Qed.
Lemma hello_blank : total blank never (hello_body false).
Proof.
  intros k l r q A I. unfold hello_body. destruct (k =? TOK_HELLO).
  - destruct (loop_total blank never (greeting_body false) greeting_blank (fuel_of l) l r q A (lat_fuel _ _ A) I) as [(l' & st' & r' & -> & A1 & L1 & I1)|(e & -> & [])].
    left. cbn [bind]. eexists _, _, _, r'. split; [reflexivity|]. auto.
  - left. eexists _, _, _, r. split; [reflexivity|]. auto.
Qed.
Definition asked (u t : option (list Z)) (q : req) : Prop :=
  q_user q = u /\ q_tty q = t /\ q_reset q = false /\ (q_cmd q = CmdNone -> q_cons q = []).
Definition asking (u t : option (list Z)) (q : req) : Prop := q_user q = u /\ q_tty q = t /\ q_reset q = false /\ q_cmd q <> CmdNone.
Lemma opts_asking u t : total (asking u t) never (opts_body false).
Proof.
  intros k l r q A I. left. unfold opts_body. destruct (k =? TOK_CONSOLE).
  { destruct (value_any LEX_STR l r A) as (l' & o & rest & -> & A1 & L1 & T). cbn [bind fst snd].
    eexists _, _, _, rest. split; [reflexivity|]. split; auto. split; auto. destruct (nonempty o); exact I. }
  destruct (k =? TOK_OPTION).
  { destruct (option_any l r A) as (l' & o & rest & -> & A1 & L1). cbn [bind fst snd].
    eexists _, _, _, rest. split; [reflexivity|]. split; auto. split; auto. destruct o as [z|]; auto.
    destruct (z =? TOK_BROADCAST); [exact I|]. destruct (z =? TOK_FORCE); [exact I|].
    destruct (z =? TOK_JOIN); [exact I|]. destruct (z =? TOK_QUIET); [exact I|]. destruct (z =? TOK_REGEX); exact I. }
  eexists _, _, _, r. split; [reflexivity|]. auto.
Qed.
Lemma req_asked u t : total (asked u t) never (req_body false).
Proof.
  intros k l r q A I.
  assert (G : forall c, c <> CmdNone -> (exists l' st' d r', parse_cmd_opts false l (set_cmd q c) = Ok (l', st', d) /\ lat l' r' /\ (len r' <= len r)%nat /\ asked u t st') \/
    (exists e, parse_cmd_opts false l (set_cmd q c) = UB e /\ never e)).
  { intros c NC. unfold parse_cmd_opts.
    destruct (loop_total (asking u t) never (opts_body false) (opts_asking u t) (fuel_of l) l r (set_cmd q c) A (lat_fuel _ _ A)) as [(l' & st' & r' & -> & A1 & L1 & I1)|(e & -> & [])].
    - destruct I as (I1 & I2 & I3 & _). repeat split; auto.
    - left. cbn [bind]. eexists _, _, _, r'. split; [reflexivity|]. split; auto. split; auto. destruct I1 as (J1 & J2 & J3 & J4). repeat split; auto. intros; contradiction. }
  unfold req_body. destruct (k =? TOK_CONNECT); [apply G; discriminate|]. destruct (k =? TOK_MONITOR); [apply G; discriminate|]. destruct (k =? TOK_QUERY); [apply G; discriminate|].
  left. eexists _, _, _, r. split; [reflexivity|]. auto.
Qed.

Lemma skip_skip {A} i j (l : list A) : exists k, skipn i (skipn j l) = skipn k l.
Proof. exists (j + i)%nat. revert l. induction j as [|j IH]; intros l; cbn [skipn plus]; auto. destruct l; [destruct i; reflexivity|apply IH]. Qed.

(** Every way the greeting can go. *)
Lemma greeting_any dbg rs stream junk ws : bytes_ok stream -> len junk = MSL ->
  exists q1 rv rs1 i out1 ws1, recv_greeting dbg false rs stream junk ws [] create_req = Ok (q1, rv, rs1, skipn i stream, (out1, ws1)) /\ suffix ws1 ws /\
    (rv = 0 /\ blank q1 /\ (exists u, q_user q1 = Some u) /\ out1 = ok_line false [] \/
     rv = -1 /\ (out1 = [] \/ pieces ws [] out1 [error_line 2 (zs "Invalid greeting: no user specified")] \/ In Fail ws /\ pieces ws [] out1 [ok_line false []])).
Proof.
  intros B LJ. unfold recv_greeting.
  destruct (read_any rs stream junk B LJ) as (buf & n & s1 & k & -> & K & S1 & X). cbn [bind].
  destruct (Z.leb_spec n 0) as [N|N].
  - eexists _, _, _, k, _, _. split; [reflexivity|]. split; [apply suffix_refl|]. right. auto.
  - destruct X as [X|(_ & r & A)]; [lia|].
    destruct (loop_total blank never (hello_body false) hello_blank _ _ _ create_req A (lat_fuel _ _ A) eq_refl) as [(l' & q1 & r' & E & _ & _ & I1)|(e & _ & [])].
    rewrite E. cbn [bind snd]. destruct (q_user q1) as [u|] eqn:QU.
    + assert (ER : q_reset q1 = false) by (unfold blank in I1; change (q_reset q1) with (q_reset (set_tty (set_user q1 None) None)); rewrite I1; reflexivity). rewrite ER.
      destruct (ok_fits dbg ws [] false [] (Forall_nil _)) as (o & rv & w1 & -> & SU & R). cbn [bind].
      eexists _, _, _, k, _, _. split; [reflexivity|]. split; auto.
      destruct R as [(-> & -> & _)|[(_ & _ & [X|(n0 & [] & _)])|(-> & FA & _ & k0 & ->)]].
      * left. cbn [List.app]. eauto 6.
      * exfalso. assert (len (ok_line false []) = 3%nat) by reflexivity. pose proof ML_M. lia.
      * right. split; auto. right. right. split; auto. apply pieces_one. apply (piece_part ws [] k0 (ok_line false [])). auto.
    + destruct (err_piece dbg ws [] (q_reset q1) [] 2 (zs "Invalid greeting: no user specified") ltac:(unfold INT_MAX; lia)
        (can_b dbg (zs "Invalid greeting: no user specified") eq_refl)) as (o & rv & w1 & -> & SU & R).
      { pose proof ML_300. assert (len (zs "Invalid greeting: no user specified") <= 100)%nat by (vm_compute; lia). lia. }
      cbn [bind]. eexists _, _, _, k, _, _. split; [reflexivity|]. split; auto. right. split; auto. right. left. apply pieces_one. auto.
Qed.
Lemma request_any rs stream junk q1 : bytes_ok stream -> len junk = MSL -> blank q1 ->
  exists q rv rs1 i, recv_req false rs stream junk q1 = Ok (q, rv, rs1, skipn i stream) /\ (rv = 0 /\ asked (q_user q1) (q_tty q1) q \/ rv = -1).
Proof.
  intros B LJ BL. unfold recv_req. destruct (read_any rs stream junk B LJ) as (buf & n & s1 & k & -> & K & S1 & X). cbn [bind].
  destruct (Z.leb_spec n 0) as [N|N].
  - eexists _, _, _, k. split; [reflexivity|]. auto.
  - destruct X as [X|(_ & r & A)]; [lia|].
    assert (I0 : asked (q_user q1) (q_tty q1) q1).
    { unfold blank in BL. repeat split; auto; [change (q_reset q1) with (q_reset (set_tty (set_user q1 None) None))|change (q_cons q1) with (q_cons (set_tty (set_user q1 None) None)); intros _]; rewrite BL; reflexivity. }
    destruct (loop_total _ never (req_body false) (req_asked (q_user q1) (q_tty q1)) _ _ _ q1 A (lat_fuel _ _ A) I0) as [(l' & q & r' & E & _ & _ & I1)|(e & _ & [])].
    rewrite E. cbn [bind snd]. eexists _, _, _, k. split; [reflexivity|]. auto.
Qed.

Section Whole.
Variables (dbg sgn : bool) (isc : nat -> bool) (nm : nat -> list Z) (fnm : list Z -> list Z -> bool).
Variables (regex : list Z -> option (list Z -> option (nat * nat))) (regerr : list Z -> list Z).
Variables (objs : list nat) (writers : nat -> list who) (resets : bool).
Lemma process_ok allow rs ws stream k1 k2 j1 j2 : consoles_ok dbg isc nm objs -> (forall o, Forall who_ok (writers o)) -> regerr_ok dbg regerr ->
  bytes_ok stream -> len k1 = MSL -> len k2 = MSL -> len j1 = MSL -> len j2 = MAX_LINE ->
  exists v, process_client dbg false sgn isc nm fnm regex regerr objs writers resets true allow true rs ws stream k1 k2 j1 j2 = Ok v /\
    (exists i, v_rest v = skipn i stream) /\
    (v_conn v = closed /\ v_sess v = None /\
       (v_out v = [] \/ pieces ws [] (v_out v) [error_line 2 (zs "Invalid greeting: no user specified")] \/ pieces ws [] (v_out v) [ok_line false []]) \/
     exists ws1 q, suffix ws1 ws /\ (exists u, q_user q = Some u) /\ (q_cmd q = CmdNone -> q_cons q = []) /\ outcome sgn isc nm fnm regex objs writers resets ws1 (ok_line false []) q v).
Proof.
  intros CO WO RO B L1 L2 L3 L4. unfold process_client. cbn [negb]. cbv zeta. destruct allow; cbn [negb].
  2:{ cbn [destroy_req c_req c_sock bind]. eexists. split; [reflexivity|]. split; [exists 0%nat; reflexivity|]. left. cbn. auto. }
  destruct (greeting_any dbg rs stream k1 ws B L1) as (q1 & rv & rs1 & i & out1 & ws1 & -> & SU & R). cbn [bind].
  destruct R as [(-> & BL & U & ->)|(-> & R)].
  2:{ change (-1 <? 0) with true. cbv iota. cbn [destroy_req c_req c_sock bind]. eexists. split; [reflexivity|]. split; [exists i; reflexivity|]. left. cbn [v_out v_conn v_sess].
      split; auto. split; auto. destruct R as [-> |[R|[_ R]]]; auto. }
  change (0 <? 0) with false. cbv iota.
  assert (B2 : bytes_ok (skipn i stream)). { rewrite <- (firstn_skipn i stream) in B. apply Forall_app in B. apply B. }
  destruct (request_any rs1 (skipn i stream) k2 q1 B2 L2 BL) as (q & rv & rs2 & j & -> & R). cbn [bind].
  destruct (skip_skip j i stream) as (k & EK). rewrite EK. destruct R as [(-> & A1 & A2 & A3 & A4)| -> ].
  - change (0 <? 0) with false. cbv iota.
    destruct (answer_ok dbg sgn isc nm fnm regex regerr objs writers resets ws1 (ok_line false []) (skipn k stream) j1 j2 q CO WO RO A3 A4 L3 L4) as (v & -> & ER & O).
    exists v. split; auto. split; [exists k; auto|]. right. exists ws1, q. split; auto. split; [destruct U as [u U]; exists u; congruence|auto].
  - change (-1 <? 0) with true. cbv iota. cbn [destroy_req c_req c_sock bind]. eexists. split; [reflexivity|]. split; [exists k; reflexivity|]. left. cbn [v_out v_conn v_sess].
    split; auto. split; auto. right. right. apply pieces_one. apply (piece_whole ws [] (ok_line false [])).
Qed.
End Whole.
