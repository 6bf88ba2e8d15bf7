(** C89, C90: serving a client. *)
From Coq Require Import String Permutation.
From Verif Require Import Base BaseProof Mem Chars Fmt LexModel LexSpec LexProof LexProps StrModel StrSpec StrProof
  FileModel FileSpec FileProof FileProps ProtoModel ProtoSpec ProtoProof ProtoProps QueryModel QuerySpec QueryProof QueryProps ServeModel ServeSpec ServeProof.
From Coq Require Import ZifyNat.
Local Open Scope Z_scope.
Local Notation len := (@List.length Z).
Local Notation MSL := ProtoModel.MAX_SOCK_LINE.

(** ** C89 *)
(** The greeting of a user, then. *)
Lemma greeting_bytes user tty : name_ok user -> (forall t, tty = Some t -> name_ok t) -> bytes_ok (greeting_line user tty).
Proof.
  intros [NU _] NT. apply (Forall_impl (P := char_ok) byte_ok); [unfold char_ok, byte_ok; lia|].
  unfold greeting_line. repeat (apply Forall_app; split); try zc.
  - apply sendable_enc_chars. auto.
  - destruct tty as [t|]; [|constructor]. destruct (NT t eq_refl) as [S _]. apply field_chars; [zc|]. apply sendable_enc_chars. auto.
Qed.
Lemma greeting_size user tty : name_ok user -> (forall t, tty = Some t -> name_ok t) -> (len (greeting_line user tty) < MSL)%nat.
Proof.
  intros [[_ NU] _] NT. rewrite <- ML_eq in NU. unfold greeting_line, quoted_field, enc. pose proof ML_M. pose proof ML_M2. pose proof ML_300.
  destruct tty as [t|].
  - destruct (NT t eq_refl) as [[_ N2] _]. rewrite <- ML_eq in N2. rewrite !app_length, !map_length.
    assert (len (zs "HELLO") = 5%nat) as -> by reflexivity. assert (len (zs (" " ++ "USER" ++ "='")) = 7%nat) as -> by reflexivity.
    assert (len (zs (" " ++ "TTY" ++ "='")) = 6%nat) as -> by reflexivity. assert (len (zs "'") = 1%nat) as -> by reflexivity. cbn [List.length]. lia.
  - rewrite !app_length, !map_length.
    assert (len (zs "HELLO") = 5%nat) as -> by reflexivity. assert (len (zs (" " ++ "USER" ++ "='")) = 7%nat) as -> by reflexivity.
    assert (len (zs "'") = 1%nat) as -> by reflexivity. cbn [List.length]. lia.
Qed.
(** A well-formed greeting has been read; a line follows. *)
Lemma after_greeting dbg rs ws more k1 user tty : name_ok user -> (forall t, tty = Some t -> name_ok t) -> len k1 = MSL -> ~ In Fail rs -> ~ In Fail ws -> bytes_ok more ->
  exists rs1 ws1, recv_greeting dbg false rs (greeting_line user tty ++ more) k1 ws [] create_req =
      Ok (mkReq (Some user) tty CmdNone false false false false false false [], 0, rs1, more, (ok_line false [], ws1)) /\ ~ In Fail rs1 /\ ~ In Fail ws1.
Proof.
  intros NU NT LJ NR NW BM.
  destruct (recv_greeting_ok dbg rs user tty more k1 ws [] create_req NU NT (greeting_size user tty NU NT) LJ NR NW) as (rs1 & ws1 & E & S).
  destruct (greeting_any dbg rs (greeting_line user tty ++ more) k1 ws) as (q1 & rv & rs2 & i & o2 & ws2 & E2 & SU & _); auto.
  { apply Forall_app. split; [apply greeting_bytes; auto|auto]. }
  rewrite E in E2. injection E2 as _ _ _ _ _ EW. subst ws2. exists rs1, ws1. rewrite E. split; [destruct tty; reflexivity|].
  split; [intros I; apply NR; eapply suffix_in; eauto|intros I; apply NW; eapply suffix_in; eauto].
Qed.
Lemma pieces_exact ws out out' lines : ~ In Fail ws -> pieces ws out out' lines -> out' = out ++ concat lines.
Proof. intros N (parts & -> & _ & G). rewrite (G N). reflexivity. Qed.

Section C89.
Variables (dbg sgn : bool) (isc : nat -> bool) (nm : nat -> list Z) (fnm : list Z -> list Z -> bool).
Variables (regex : list Z -> option (list Z -> option (nat * nat))) (regerr : list Z -> list Z).
Variables (objs : list nat) (writers : nat -> list who) (resets : bool).

Lemma pieces_written ws out lines : pieces ws [] out lines -> written (In Fail ws) out lines.
Proof. intros (parts & E & F & G). exists parts. auto. Qed.
Lemma granted_rst q sel : granted writers (set_rst q resets) sel <-> granted writers q sel.
Proof. unfold set_rst. destruct resets; reflexivity. Qed.

(** Whatever bytes a client sends, however reads and writes end, and whatever the stack
    holds: the daemon goes on, has read no more than it was sent, has said the lines of one
    of the conversations (all of them, if no write has failed), and has closed the
    connection and released the request once - unless it has granted a session: then the
    connection is kept, the client has been told so in full, and the session is one of a
    named user with consoles that the request may have. *)
Theorem C89_any_client_partial allow rs ws stream junk1 junk2 jbuf1 jbuf2 :
  consoles_ok dbg isc nm objs -> (forall o, Forall who_ok (writers o)) -> regerr_ok dbg regerr ->
  bytes_ok stream -> len junk1 = MSL -> len junk2 = MSL -> len jbuf1 = MSL -> len jbuf2 = MAX_LINE ->
  exists v lines, process_client dbg false sgn isc nm fnm regex regerr objs writers resets true allow true rs ws stream junk1 junk2 jbuf1 jbuf2 = Ok v /\
    (exists i, v_rest v = skipn i stream) /\
    talk nm writers resets lines /\ written (In Fail ws) (v_out v) lines /\
    match v_sess v with
    | None => v_conn v = closed
    | Some (q, sel) => v_conn v = kept /\ v_out v = ok_line false [] ++ ok_line resets (map nm sel) /\
        allow = true /\ granted writers q sel /\ (q_cmd q = CmdConnect \/ q_cmd q = CmdMonitor) /\ (exists u, q_user q = Some u) /\
        forall o, In o sel -> In o objs /\ isc o = true
    end.
Proof.
  intros CO WO RO B L1 L2 L3 L4.
  destruct (process_ok dbg sgn isc nm fnm regex regerr objs writers resets allow rs ws stream junk1 junk2 jbuf1 jbuf2 CO WO RO B L1 L2 L3 L4) as (v & E & RE & X).
  assert (AL : allow = true \/ v_sess v = None).
  { destruct allow; auto. right. cbn in E. injection E as <-. reflexivity. }
  exists v. destruct X as [(C & S & X)|(ws1 & q & SU & (u & U) & QN & sel & bc & ok & lines & EQ & P & X)].
  - rewrite S. destruct X as [X|[X|X]].
    + exists []. split; auto. split; auto. split; [constructor|]. split; auto. rewrite X. apply pieces_written, pieces_nil.
    + exists [error_line 2 (zs "Invalid greeting: no user specified")]. split; auto. split; auto. split; [apply Talk_no_user|]. split; [exact (pieces_written _ _ _ X)|exact C].
    + exists [ok_line false []]. split; auto. split; auto. split; [apply Talk_greeted|]. split; [exact (pieces_written _ _ _ X)|exact C].
  - assert (PW : written (In Fail ws) (v_out v) (ok_line false [] :: lines)).
    { apply pieces_written. eapply pieces_cons; [exact SU|apply (piece_whole ws [] (ok_line false []))|exact P]. }
    exists (ok_line false [] :: lines). split; auto. split; auto. cbv zeta in X.
    destruct X as [(-> & (m & ->) & C & S)|[(-> & NG & -> & C & S)|[(-> & GR & LT & EL & E1 & X)|(-> & GR & LE & -> & C & S)]]].
    + rewrite S. split; [constructor|auto].
    + rewrite S. split; [constructor|auto].
    + split; [rewrite EL; constructor|]. split; auto. destruct X as [(NQ & EO & C & S)|(_ & C & S)]; rewrite S; auto.
      destruct AL as [AL|AL]; [|congruence].
      split; auto. split; auto. split; auto. split; [apply granted_rst; auto|].
      assert (EC : q_cmd (set_rst (set_bc q bc) resets) = q_cmd q) by (unfold set_rst; destruct resets; reflexivity).
      assert (EU : q_user (set_rst (set_bc q bc) resets) = q_user q) by (unfold set_rst; destruct resets; reflexivity).
      rewrite EC, EU. split; [|split; [eauto|]].
      * destruct (q_cmd q) eqn:QC; auto; try congruence. exfalso. destruct GR as (NE & _). apply NE. eapply none_sel; [apply QN; reflexivity|exact EQ].
      * intros o O. destruct CO as (ND & _). destruct (query_in _ _ _ _ _ _ writers _ _ _ _ _ _ _ ND EQ) as [_ Q]. apply Q; auto.
    + rewrite S. split; [constructor|auto].
Qed.

(** Every request is answered: whatever line follows the greeting of a user, if nothing
    fails, the client gets the OK for its greeting and then exactly one answer - to some
    request that the line may be taken for; only an OK that does not fit into the daemon's
    buffer is not said. *)
Theorem C89_answered rs ws user tty line more junk1 junk2 jbuf1 jbuf2 :
  consoles_ok dbg isc nm objs -> (forall o, Forall who_ok (writers o)) -> regerr_ok dbg regerr -> name_ok user -> (forall t, tty = Some t -> name_ok t) ->
  len junk1 = MSL -> len junk2 = MSL -> len jbuf1 = MSL -> len jbuf2 = MAX_LINE -> ~ In Fail rs -> ~ In Fail ws ->
  bytes_ok line -> ~ In LF line -> (S (len line) < MSL)%nat -> bytes_ok more ->
  exists v q, process_client dbg false sgn isc nm fnm regex regerr objs writers resets true true true rs ws (greeting_line user tty ++ line ++ LF :: more) junk1 junk2 jbuf1 jbuf2 = Ok v /\
    v_rest v = more /\ q_user q = Some user /\ q_tty q = tty /\
    ((exists m, v_out v = ok_line false [] ++ error_line 3 m /\ v_conn v = closed /\ v_sess v = None) \/
     (exists sel, v_out v = ok_line false [] ++ concat (reply nm writers resets q sel) /\ (granted writers q sel \/ v_conn v = closed /\ v_sess v = None)) \/
     (exists sel, granted writers q sel /\ (MSL <= len (ok_line resets (map nm sel)))%nat /\ v_out v = ok_line false [] /\ v_conn v = closed /\ v_sess v = None)).
Proof.
  intros CO WO RO NU NT L1 L2 L3 L4 NR NW BL NL LL BM.
  set (q0 := mkReq (Some user) tty CmdNone false false false false false false []).
  assert (BB : bytes_ok (line ++ LF :: more)) by (apply Forall_app; split; [auto|constructor; [unfold byte_ok, LF; lia|auto]]).
  assert (G : forall rs1, ~ In Fail rs1 -> exists q s1, recv_req false rs1 (line ++ LF :: more) junk2 q0 = Ok (q, 0, s1, more) /\ asked (Some user) tty q).
  { intros rs1 N1. destruct (request_any rs1 (line ++ LF :: more) junk2 q0 BB L2 eq_refl) as (q & rv & s1 & i & E & X).
    destruct (read_whole rs1 line more junk2 NL LL L2 N1) as (s2 & post & E2 & _). rewrite <- app_assoc in E2. cbn [List.app] in E2.
    assert (ER : skipn i (line ++ LF :: more) = more /\ rv = 0).
    { revert E. unfold recv_req. rewrite E2. cbn [bind]. destruct (Z.leb_spec (Z.of_nat (S (len line))) 0); [lia|]. cbv zeta.
      destruct (parse_loop _ _ _ _ _) as [[l1 q1]|]; [|discriminate]. cbn [bind]. intros E. injection E as _ <- _ E. auto. }
    destruct ER as [ER ->]. rewrite ER in E. exists q, s1. split; auto. destruct X as [(_ & X)|X]; [exact X|discriminate]. }
  (* the request does not depend on the schedule, but it is simplest to follow the run *)
  unfold process_client. cbn [negb]. cbv zeta.
  destruct (after_greeting dbg rs ws (line ++ LF :: more) junk1 user tty NU NT L1 NR NW BB) as (rs1 & ws1 & -> & N1 & N2). cbn [bind]. change (0 <? 0) with false. cbv iota.
  fold q0. destruct (G rs1 N1) as (q & s1 & -> & A1 & A2 & A3 & A4). cbn [bind]. change (0 <? 0) with false. cbv iota.
  destruct (answer_ok dbg sgn isc nm fnm regex regerr objs writers resets ws1 (ok_line false []) more jbuf1 jbuf2 q CO WO RO A3 A4 L3 L4) as (v & -> & E & O).
  destruct O as (sel & bc & ok & lines & EQ & P & X). apply (pieces_exact _ _ _ _ N2) in P. cbv zeta in X.
  exists v, (set_bc q bc). split; auto. split; auto. split; auto. split; auto.
  destruct X as [(_ & (m & ->) & C & S)|[(_ & NG & -> & C & S)|[(_ & GR & _ & EL & _ & _)|(_ & GR & LE & -> & C & S)]]].
  - left. exists m. cbn [concat] in P. rewrite app_nil_r in P. auto.
  - right. left. exists sel. auto.
  - right. left. exists sel. rewrite <- EL. auto.
  - right. right. exists sel. cbn [concat] in P. rewrite app_nil_r in P. auto.
Qed.
End C89.

(** A client that has gone before its thread asks for its address ends the daemon. *)
Theorem C89_gone_client_refuted : forall dbg iso sgn isc nm fnm regex regerr objs writers resets allow closes rs ws stream junk1 junk2 jbuf1 jbuf2,
  process_client dbg iso sgn isc nm fnm regex regerr objs writers resets false allow closes rs ws stream junk1 junk2 jbuf1 jbuf2 = UB Fatal.
Proof. reflexivity. Qed.
(** As many clients as there are descriptors left, and one more, end the daemon: the error
    EMFILE of accept() is fatal. *)
Theorem C89_many_clients_refuted : forall limit used, (used <= limit)%nat ->
  visits limit used (repeat Arrive (limit - used)) = Ok limit /\ visits limit used (repeat Arrive (S (limit - used))) = UB Fatal.
Proof.
  intros limit used L. remember (limit - used)%nat as n eqn:E. revert used L E. induction n as [|n IH]; intros used L E.
  - replace used with limit by lia. split; [reflexivity|]. cbn [repeat visits]. destruct (Nat.ltb_spec limit limit); [lia|]. reflexivity.
  - destruct (IH (S used) ltac:(lia) ltac:(lia)) as [A B]. split.
    + cbn [repeat visits]. destruct (Nat.ltb_spec used limit); [|lia]. cbn [accept_client accept_loop bind andb negb]. exact A.
    + change (repeat Arrive (S (S n))) with (Arrive :: repeat Arrive (S n)). cbn [visits]. destruct (Nat.ltb_spec used limit); [|lia]. cbn [accept_client accept_loop bind andb negb]. exact B.
Qed.
(** Interruptions, connections that are already gone and spurious wakeups are survived: the
    next client is accepted, if there is one. *)
Theorem C89_accept_partial : forall keepalive l, ~ In EOther l ->
  exists b, accept_client keepalive true true l = Ok b /\ (b = true <-> exists n l', l = repeat EIntr n ++ Conn :: l').
Proof.
  intros ka. unfold accept_client. induction l as [|a l IH]; intros N.
  - exists false. split; [reflexivity|]. split; [discriminate|]. intros ([|n] & l' & E); discriminate.
  - destruct a; cbn [accept_loop bind].
    + exists true. rewrite andb_false_r. split; auto. split; auto. intros _. exists 0%nat, l. reflexivity.
    + destruct IH as (b & E & H); [intros I; apply N; right; auto|]. exists b. split; auto. rewrite H. split.
      * intros (n & l' & ->). exists (S n), l'. reflexivity.
      * intros ([|n] & l' & X); [discriminate|]. injection X as ->. eauto.
    + exists false. split; auto. split; [discriminate|]. intros ([|n] & l' & E); discriminate.
    + exists false. split; auto. split; [discriminate|]. intros ([|n] & l' & E); discriminate.
    + exfalso. apply N. left. auto.
Qed.
(** The line about a writer may be followed by an empty one: buf[1022] is set to LF even if
    the text ends just there. *)
Theorem C89_blank_line_refuted : exists w out b s, list_writers [] [] (repeat 1 MAX_LINE) (zs "c") [w] = Ok (out, b, s) /\
  exists t, out = t ++ [LF; LF].
Proof.
  exists (mkWho (repeat 117 (Z.to_nat 979)) (zs "host") None false (Some (zs "1m"))). do 3 eexists. split; [vm_compute; reflexivity|].
  match goal with |- exists t, ?o = _ => exists (firstn (Z.to_nat 1021) o) end. vm_compute. reflexivity.
Qed.
Example C89_example : exists v, process_client true false true (fun o => (o <? 3)%nat) (fun o => [99; 48 + Z.of_nat o]) (fun p n => list_eqb p n) (fun _ => None) (fun _ => []) [0%nat; 1%nat; 2%nat; 7%nat]
    (fun o => if (o =? 1)%nat then [mkWho (zs "ann") (zs "h") (Some (zs "pts/1")) false None] else []) true true true true [] []
    (zs "HELLO USER='joe'" ++ [LF] ++ zs "CONNECT CONSOLE='c1'" ++ [LF] ++ zs "more") (repeat 1 MSL) (repeat 1 MSL) (repeat 1 MSL) (repeat 1 MAX_LINE) = Ok v /\
  v_out v = zs "OK" ++ [LF] ++ zs "ERROR CODE=7 MESSAGE='Found console already in use'" ++ [LF] ++ zs "Console [c1] open R/W by <ann@h> on pts/1 (idle ???)." ++ [LF] /\
  v_rest v = zs "more" /\ v_conn v = closed /\ v_sess v = None.
Proof. eexists. split; [vm_compute; reflexivity|]. repeat split; reflexivity. Qed.

(** ** C90 *)
Lemma grantedb_ok writers q sel : grantedb writers q sel = true <-> granted writers q sel.
Proof.
  unfold grantedb, granted. rewrite !andb_true_iff, !negb_true_iff, Nat.eqb_neq, Nat.eqb_eq. split.
  - intros ((A & B) & C). split; [intros ->; apply A; reflexivity|]. split; auto. destruct (occupied writers q sel); [auto|discriminate].
  - intros (A & B & C). rewrite C. split; [split; [|auto]|auto]. destruct sel; [congruence|discriminate].
Qed.
Lemma chars_bytes s : chars_ok s -> bytes_ok s.
Proof. intros C. eapply Forall_impl; [|exact C]. unfold char_ok, byte_ok. lia. Qed.

Section C90.
Variables (dbg sgn : bool) (isc : nat -> bool) (nm : nat -> list Z) (fnm : list Z -> list Z -> bool).
Variables (regex : list Z -> option (list Z -> option (nat * nat))) (regerr : list Z -> list Z).
Variables (objs : list nat) (writers : nat -> list who) (resets : bool).

(** Both ends together: what a client sends for a user and a request, the daemon takes for
    just that; it answers with the consoles that the request selects or with the reason why
    not; the session, if one is to start, is for these consoles and this request; and what
    the client has sent after the request is still to be read.  Whatever partial writes,
    interruptions and stack contents. *)
Theorem C90_served user tty q cws1 cws2 : consoles_ok dbg isc nm objs -> (forall o, Forall who_ok (writers o)) -> regerr_ok dbg regerr ->
  name_ok user -> (forall t, tty = Some t -> name_ok t) -> q_cmd q <> CmdNone -> Forall name_ok (q_cons q) -> (len (request_line q) < MSL)%nat ->
  ~ In Fail cws1 -> ~ In Fail cws2 ->
  exists s1 s2, send_greeting dbg cws1 [] user tty = Ok (greeting_line user tty, 0, s1) /\ send_req dbg cws2 (greeting_line user tty) q = Ok (greeting_line user tty ++ request_line q, 0, s2, set_cons q []) /\
  forall rs ws more junk1 junk2 jbuf1 jbuf2 sel bc, ~ In Fail rs -> ~ In Fail ws -> bytes_ok more -> len junk1 = MSL -> len junk2 = MSL -> len jbuf1 = MSL -> len jbuf2 = MAX_LINE ->
    query_consoles sgn isc nm fnm regex (q_regex q) (is_query (q_cmd q)) (is_connect (q_cmd q) && q_bcast q) objs (q_cons q) = Ok (sel, bc, true) ->
    let r := seen user tty resets q bc in
    exists v, process_client dbg false sgn isc nm fnm regex regerr objs writers resets true true true rs ws (greeting_line user tty ++ request_line q ++ more) junk1 junk2 jbuf1 jbuf2 = Ok v /\ v_rest v = more /\
      if grantedb writers r sel && (MSL <=? len (ok_line resets (map nm sel)))%nat then v_out v = ok_line false [] /\ v_conn v = closed /\ v_sess v = None
      else v_out v = ok_line false [] ++ concat (reply nm writers resets r sel) /\
           if grantedb writers r sel && negb (is_query (q_cmd q)) then v_conn v = kept /\ v_sess v = Some (r, sel) else v_conn v = closed /\ v_sess v = None.
Proof.
  intros CO WO RO NU NT NC FC LR N1 N2.
  destruct (send_greeting_ok dbg cws1 [] user tty) as ([[o1 rv1] s1] & E1 & _ & X1).
  { apply sendable_can, NU. } { intros t T. apply sendable_can, NT. auto. }
  destruct X1 as [(-> & -> & _)|[(_ & _ & X)|(_ & X & _)]]; [|exfalso; exact (Nat.lt_irrefl _ (Nat.le_lt_trans _ _ _ X (greeting_size user tty NU NT)))|tauto]. cbn [List.app] in E1.
  destruct (send_req_ok dbg cws2 (greeting_line user tty) q NC) as (o2 & rv2 & s2 & E2 & _ & X2).
  { eapply Forall_impl; [|exact FC]. intros a [A _]. apply sendable_can. auto. }
  destruct X2 as [(-> & -> & _)|[(_ & _ & X)|(_ & X & _)]]; [|exfalso; exact (Nat.lt_irrefl _ (Nat.le_lt_trans _ _ _ X LR))|tauto].
  exists s1, s2. split; auto. split; auto.
  intros rs ws more k1 k2 j1 j2 sel bc NR NW BM L1 L2 L3 L4 EQ r.
  assert (BB : bytes_ok (request_line q ++ more)) by (apply Forall_app; split; [apply chars_bytes, request_chars; auto|auto]).
  unfold process_client. cbn [negb]. cbv zeta.
  destruct (after_greeting dbg rs ws (request_line q ++ more) k1 user tty NU NT L1 NR NW BB) as (rs1 & ws1 & -> & M1 & M2). cbn [bind]. change (0 <? 0) with false. cbv iota.
  destruct (recv_req_ok rs1 q (mkReq (Some user) tty CmdNone false false false false false false []) more k2 NC FC LR L2 M1 eq_refl eq_refl eq_refl eq_refl eq_refl eq_refl) as (rs2 & -> & _).
  cbn [bind]. change (0 <? 0) with false. cbv iota. set (u := understood q _).
  destruct (answer_ok dbg sgn isc nm fnm regex regerr objs writers resets ws1 (ok_line false []) more j1 j2 u CO WO RO eq_refl ltac:(intros X; contradiction) L3 L4) as (v & -> & ER & O).
  exists v. split; auto. split; auto.
  destruct O as (sel' & bc' & ok' & lines & EQ' & P & X). apply (pieces_exact _ _ _ _ M2) in P. cbv zeta in X.
  change (match q_cmd u with CmdQuery => true | _ => false end) with (is_query (q_cmd q)) in EQ'. change (q_regex u) with (q_regex q) in EQ'. change (q_cons u) with (q_cons q) in EQ'.
  change (q_bcast u) with (is_connect (q_cmd q) && q_bcast q) in EQ'. rewrite EQ in EQ'. injection EQ' as <- <- <-.
  assert (EU : set_rst (set_bc u bc) resets = r) by (unfold r, u, set_rst, set_bc, understood, seen; destruct resets; reflexivity).
  assert (EG : granted writers (set_bc u bc) sel <-> granted writers r sel) by (rewrite <- EU; symmetry; apply granted_rst).
  assert (EP : reply nm writers resets (set_bc u bc) sel = reply nm writers resets r sel) by (rewrite <- EU; unfold set_rst; destruct resets; reflexivity).
  rewrite EP in X. rewrite EU in X. change (q_cmd u) with (q_cmd q) in X.
  destruct (grantedb writers r sel) eqn:GB.
  - apply grantedb_ok in GB. apply (proj2 EG) in GB.
    destruct X as [(D & _)|[(_ & NG & _)|[(_ & _ & LT & EL & EO & X)|(_ & _ & LE & -> & C & S)]]]; [discriminate|tauto| |].
    + destruct (Nat.leb_spec MSL (len (ok_line resets (map nm sel)))); [lia|]. cbn [andb]. rewrite <- EL, <- P. split; auto.
      destruct X as [(NQ & _ & C & S)|(Q & C & S)].
      * assert (is_query (q_cmd q) = false) as -> by (destruct (q_cmd q); try reflexivity; congruence). cbn [negb]. split; [exact C|exact S].
      * destruct Q as [Q|Q]; [|tauto]. rewrite Q. cbn [is_query negb]. split; [exact C|exact S].
    + destruct (Nat.leb_spec MSL (len (ok_line resets (map nm sel)))); [|lia]. cbn [andb]. cbn [concat] in P. rewrite app_nil_r in P. auto.
  - assert (NG : ~ granted writers (set_bc u bc) sel). { intros Y. apply (proj1 EG) in Y. apply (proj2 (grantedb_ok _ _ _)) in Y. rewrite GB in Y. discriminate. }
    cbn [andb]. destruct X as [(D & _)|[(_ & _ & -> & C & S)|[(_ & Y & _)|(_ & Y & _)]]]; [discriminate|auto|tauto|tauto].
Qed.

(** And what the client makes of the answer: the names of the consoles and whether it may
    reset them, or the code and message of the refusal, followed by the lines to show. *)
Theorem C90_told r sel crs1 crs2 junk1 junk2 k : (forall o, In o sel -> sendable (nm o)) -> Z.of_nat (List.length sel) <= INT_MAX -> (grantedb writers r sel = true -> (len (ok_line resets (map nm sel)) < MSL)%nat) ->
  ~ In Fail crs1 -> ~ In Fail crs2 -> len junk1 = MSL -> len junk2 = MSL ->
  exists s1 s2, recv_rsp false crs1 (ok_line false [] ++ concat (reply nm writers resets r sel)) junk1 k = Ok (k, 0, s1, concat (reply nm writers resets r sel)) /\
  recv_rsp false crs2 (concat (reply nm writers resets r sel)) junk2 k =
    if grantedb writers r sel then Ok (mkClient (k_cons k ++ map nm sel) (k_reset k || resets) (k_err k) (k_msg k), 0, s2, [])
    else Ok (mkClient (k_cons k) (k_reset k) (fst (refusal writers r sel)) (Text (snd (refusal writers r sel))), -1, s2, concat (tl (reply nm writers resets r sel))).
Proof.
  intros SN LS LO N1 N2 L1 L2.
  destruct (recv_ok crs1 false [] (concat (reply nm writers resets r sel)) junk1 k (Forall_nil _)) as (s1 & E1 & _); auto.
  { assert (len (ok_line false []) = 3%nat) as -> by reflexivity. pose proof ML_M. lia. }
  cbn [andb] in E1. rewrite app_nil_r, orb_false_r in E1. exists s1.
  destruct (grantedb writers r sel) eqn:GB.
  - specialize (LO eq_refl). apply grantedb_ok in GB. destruct GB as (NE & TM & OC).
    assert (EP : reply nm writers resets r sel = [ok_line resets (map nm sel)]) by (unfold reply; rewrite TM, OC; destruct sel; [congruence|reflexivity]).
    destruct (recv_ok crs2 resets (map nm sel) [] junk2 k) as (s2 & E2 & _); auto.
    { apply Forall_forall. intros n I. apply in_map_iff in I. destruct I as (o & <- & I). auto. }
    exists s2. split; [rewrite E1; destruct k; reflexivity|]. rewrite EP. cbn [concat]. rewrite app_nil_r. rewrite app_nil_r in E2. rewrite E2.
    assert (EH : has (map nm sel) = true) by (destruct sel; [congruence|reflexivity]). rewrite EH, andb_true_r. reflexivity.
  - assert (EP : reply nm writers resets r sel = error_line (fst (refusal writers r sel)) (snd (refusal writers r sel)) :: tl (reply nm writers resets r sel) /\
      0 < fst (refusal writers r sel) <= INT_MAX /\ sendable (snd (refusal writers r sel)) /\ snd (refusal writers r sel) <> []).
    { assert (PF : forall s, forallb (fun c => (32 <=? c) && (c <? 128)) (zs s) = true -> Forall (fun c => 1 <= c < 128 /\ c <> CR /\ c <> LF) (zs s)).
      { intros s PS. apply Forall_forall. intros c I. rewrite forallb_forall in PS. specialize (PS c I). unfold CR, LF. lia. }
      assert (FS : forall n s, Z.of_nat n <= INT_MAX -> forallb (fun c => (32 <=? c) && (c <? 128)) (zs s) = true -> (len (zs s) <= 100)%nat -> sendable (zs "Found " ++ decimal n ++ zs s)).
      { intros n s LN PS KS. unfold decimal. destruct (code_digits (Z.of_nat n) ltac:(lia)) as (DD & _ & K). split.
        - repeat (apply Forall_app; split).
          + apply PF; reflexivity.
          + apply Forall_forall. intros c I. rewrite Forall_forall in DD. specialize (DD c I). unfold isdigit in DD. unfold CR, LF. lia.
          + apply PF; auto.
        - rewrite !app_length. assert (len (zs "Found ") = 6%nat) as -> by reflexivity. pose proof ML_300 as M. rewrite ML_eq in M. lia. }
      assert (SS : forall s, forallb (fun c => (32 <=? c) && (c <? 128)) (zs s) = true -> (len (zs s) <= 100)%nat -> sendable (zs s)).
      { intros s PS KS. split; [apply PF; auto|pose proof ML_300 as M; rewrite ML_eq in M; lia]. }
      unfold reply, refusal. destruct sel as [|o sel0] eqn:ES.
      - cbn [fst snd tl]. split; auto. split; [unfold INT_MAX; lia|]. split; [|discriminate]. apply SS; [reflexivity|vm_compute; lia].
      - rewrite <- ES in *. unfold grantedb in GB. destruct (too_many r sel) eqn:TM.
        + cbn [fst snd tl]. split; auto. split; [unfold INT_MAX; lia|]. split; [|discriminate]. apply FS; [auto|reflexivity|vm_compute; lia].
        + assert (LB : (List.length (occupied writers r sel) <= List.length sel)%nat).
          { unfold occupied. destruct (q_cmd r); cbn [List.length]; try lia. destruct (q_force r || q_join r); cbn [List.length]; [lia|]. clear. induction sel as [|a l IH]; cbn [filter List.length]; [lia|]. destruct (negb _); cbn [List.length]; lia. }
          destruct (occupied writers r sel) as [|b0 b] eqn:OC.
          { exfalso. rewrite ES in GB. discriminate. }
          cbn [fst snd]. destruct b as [|b1 b]; cbn [tl]; (split; [reflexivity|]; split; [unfold INT_MAX; lia|]; split; [|discriminate]).
          * apply SS; [reflexivity|vm_compute; lia].
          * apply FS; [lia|reflexivity|vm_compute; lia]. }
    destruct EP as (EP & RC & SM & NM).
    destruct (recv_err crs2 (fst (refusal writers r sel)) (snd (refusal writers r sel)) (concat (tl (reply nm writers resets r sel))) junk2 k RC SM L2 N2) as (s2 & E2 & _).
    exists s2. split; [rewrite E1; destruct k; reflexivity|]. rewrite EP at 1. cbn [concat]. rewrite E2. destruct (snd (refusal writers r sel)); [congruence|reflexivity].
Qed.

(** With globbing, the consoles of a granted request are those whose names match, each
    once, in order: this is what a user gets who names consoles on the command line. *)
Theorem C90_glob q sel bc : q_regex q = false -> q_cons q <> [] -> (forall o, In o objs -> isc o = true -> simple (nm o)) ->
  query_consoles sgn isc nm fnm regex (q_regex q) (is_query (q_cmd q)) (is_connect (q_cmd q) && q_bcast q) objs (q_cons q) = Ok (sel, bc, true) ->
  NoDup sel /\ ordered sgn nm sel /\ (forall o, In o sel <-> In o objs /\ isc o = true /\ exists p, In p (q_cons q) /\ fnm p (nm o) = true) /\
  (bc = true <-> q_cmd q = CmdConnect /\ q_bcast q = true /\ List.length sel <> 1%nat).
Proof.
  intros RX NE SI EQ. rewrite RX in EQ. destruct (C54_sorted sgn isc nm fnm regex false (is_query (q_cmd q)) (is_connect (q_cmd q) && q_bcast q) objs (q_cons q) SI) as (r & b & ok & E2 & O).
  rewrite EQ in E2. injection E2 as <- <- <-. apply C54_glob in EQ; auto. destruct EQ as (_ & ND & IN & BC). split; auto. split; auto. split.
  - intros o. rewrite IN. unfold selected. tauto.
  - rewrite BC, andb_true_iff. destruct (q_cmd q); cbn [is_connect]; intuition congruence.
Qed.
End C90.

Lemma ok_line_size k reset names : Forall (fun n => (k <= len n)%nat) names -> (k * List.length names <= len (ok_line reset names))%nat.
Proof.
  intros F. unfold ok_line. rewrite !app_length.
  assert (k * List.length names <= len (concat (map (quoted_field "CONSOLE") names)))%nat.
  { induction F as [|n l L _ IH]; [rewrite Nat.mul_0_r; apply Nat.le_0_l|]. cbn [map concat List.length]. rewrite app_length, Nat.mul_succ_r. unfold quoted_field at 1. rewrite !app_length. unfold enc at 1. rewrite map_length. lia. }
  lia.
Qed.
(** A query may go unanswered: a hundred and forty consoles with long names fill more than
    the daemon's buffer, and the connection is closed after the OK to the greeting. *)
Theorem C89_too_long_refuted : exists nm objs v,
  consoles_ok true (fun _ => true) nm objs /\
  process_client true false true (fun _ => true) nm (fun _ _ => true) (fun _ => None) (fun _ => []) objs (fun _ => []) false true true true [] []
    (zs "HELLO USER='joe'" ++ [LF] ++ zs "QUERY" ++ [LF]) (repeat 1 MSL) (repeat 1 MSL) (repeat 1 MSL) (repeat 1 MAX_LINE) = Ok v /\
  v_out v = zs "OK" ++ [LF] /\ v_conn v = closed /\ v_sess v = None.
Proof.
  set (nm := fun o => repeat 97 (Z.to_nat 1000) ++ fmt_d (Z.of_nat o)).
  assert (CO : consoles_ok true (fun _ => true) nm (seq 0 140)).
  { split; [apply seq_NoDup|]. split; [rewrite seq_length; vm_compute; discriminate|]. intros o I _. apply in_seq in I. unfold nm.
    assert (A : forallb (fun o => forallb (fun c => (1 <=? c) && (c <? 128)) (repeat 97 (Z.to_nat 1000) ++ fmt_d (Z.of_nat o)) && (len (repeat 97%Z (Z.to_nat 1000%Z) ++ fmt_d (Z.of_nat o)) <? Z.to_nat 1024%Z)%nat &&
     (forallb isdigit (fmt_d (Z.of_nat o)) && (number (fmt_d (Z.of_nat o)) <=? INT_MAX))) (seq 0 140) = true) by (vm_compute; reflexivity).
    rewrite forallb_forall in A. specialize (A o ltac:(apply in_seq; lia)). apply andb_true_iff in A. destruct A as [A A3]. apply andb_true_iff in A. destruct A as [A1 A2]. apply andb_true_iff in A3. destruct A3 as [A3 A4].
    destruct (can_b true _ A1) as [C1 C2]. split; auto. split; auto. split; [apply Nat.ltb_lt; exact A2|].
    exists (repeat 97 (Z.to_nat 1000)), (fmt_d (Z.of_nat o)). split; auto. split; [|split].
    - apply Forall_forall. intros c X. apply repeat_spec in X. subst c. unfold char_ok, digit. lia.
    - apply Forall_forall. intros c X. rewrite forallb_forall in A3. specialize (A3 c X). unfold isdigit in A3. unfold digit. lia.
    - apply Z.leb_le. exact A4. }
  set (q := mkReq None None CmdQuery false false false false false false []).
  destruct (C54_sorted true (fun _ => true) nm (fun _ _ => true) (fun _ => None) false true false (seq 0 140) []) as (sel & bc & ok & EQ & _).
  { intros o I1 I2. destruct CO as (_ & _ & X). apply (X o I1 I2). }
  destruct (C54_all true (fun _ => true) nm (fun _ _ => true) (fun _ => None) false (seq 0 140) sel bc ok ltac:(auto) EQ) as (-> & ND & IN).
  assert (LS : List.length sel = 140%nat).
  { rewrite <- (seq_length 140 0). apply Permutation.Permutation_length. apply Permutation.NoDup_Permutation; [auto|apply seq_NoDup|]. intros o. rewrite IN. tauto. }
  destruct (C90_served true true (fun _ => true) nm (fun _ _ => true) (fun _ => None) (fun _ => []) (seq 0 140) (fun _ => []) false (zs "joe") None q [] [] CO) as (s1 & s2 & E1 & E2 & X).
  { intros _. constructor. } { intros p. split; [constructor|]. split; [constructor|]. vm_compute. lia. }
  { change (zs "joe") with [106; 111; 101]. split; [split; [repeat (apply Forall_cons; [unfold CR, LF; lia|]); apply Forall_nil|vm_compute; lia]|discriminate]. } { discriminate. } { discriminate. } { constructor. } { apply Nat.ltb_lt. vm_compute. reflexivity. } { auto. } { auto. }
  destruct (X [] [] [] (repeat 1 MSL) (repeat 1 MSL) (repeat 1 MSL) (repeat 1 MAX_LINE) sel bc) as (v & E & _ & Y); auto; try apply repeat_length. { constructor. }
  exists nm, (seq 0 140), v. split; auto. split; [exact E|].
  assert (G : grantedb (fun _ => []) (seen (zs "joe") None false q bc) sel = true).
  { unfold grantedb. rewrite LS. reflexivity. }
  rewrite G in Y. destruct (Nat.leb_spec MSL (len (ok_line false (map nm sel)))) as [L|L]; [exact Y|]. exfalso.
  pose proof (ok_line_size (Z.to_nat 1000) false (map nm sel)) as Z. rewrite map_length, LS in Z.
  assert (Z.to_nat 1000 * 140 <= len (ok_line false (map nm sel)))%nat.
  { apply Z. apply Forall_forall. intros n I. apply in_map_iff in I. destruct I as (o & <- & _). unfold nm. rewrite app_length, repeat_length. lia. }
  assert (MSL <= Z.to_nat 1000 * 140)%nat by (apply Nat.leb_le; vm_compute; reflexivity). lia.
Qed.

(** A user monitors a free console: the hypotheses are met, and a session starts. *)
Definition ex_cons (o : nat) : list Z := [99; 48 + Z.of_nat o].
Definition ex_ask : req := mkReq None None CmdMonitor false false false true false false [zs "c2"].
Example C90_example : consoles_ok true (fun o => (o <? 3)%nat) ex_cons [0%nat; 1%nat; 2%nat; 7%nat] /\ Forall name_ok (q_cons ex_ask) /\ (len (request_line ex_ask) < MSL)%nat /\
  exists v, process_client true false true (fun o => (o <? 3)%nat) ex_cons (fun p n => list_eqb p n) (fun _ => None) (fun _ => []) [0%nat; 1%nat; 2%nat; 7%nat] (fun _ => []) true true true true [] []
    (greeting_line (zs "joe") (Some (zs "pts/0")) ++ request_line ex_ask ++ zs "hi") (repeat 1 MSL) (repeat 1 MSL) (repeat 1 MSL) (repeat 1 MAX_LINE) = Ok v /\
  v_out v = zs "OK" ++ [LF] ++ zs "OK OPTION=RESET CONSOLE='c2'" ++ [LF] /\ v_rest v = zs "hi" /\ v_conn v = kept /\
  v_sess v = Some (seen (zs "joe") (Some (zs "pts/0")) true ex_ask false, [2%nat]).
Proof.
  split; [|split; [|split]].
  - split; [repeat constructor; cbn [In]; lia|]. split; [vm_compute; discriminate|]. intros o I C.
    assert (X : forallb (fun o => forallb (fun c => (1 <=? c) && (c <? 128)) (ex_cons o) && (forallb isdigit (tl (ex_cons o)) && (number (tl (ex_cons o)) <=? INT_MAX))) [0%nat; 1%nat; 2%nat; 7%nat] = true) by (vm_compute; reflexivity).
    rewrite forallb_forall in X. specialize (X o I). apply andb_true_iff in X. destruct X as [A1 X]. apply andb_true_iff in X. destruct X as [A3 A4].
    destruct (can_b true _ A1) as [C1 C2]. split; auto. split; auto. split; [vm_compute; lia|]. exists [99], (tl (ex_cons o)). split; [reflexivity|]. split; [|split].
    + constructor; [unfold char_ok, digit; lia|constructor].
    + apply Forall_forall. intros c X. rewrite forallb_forall in A3. specialize (A3 c X). unfold isdigit in A3. unfold digit. lia.
    + apply Z.leb_le. exact A4.
  - constructor; [|constructor]. change (zs "c2") with [99; 50]. split; [split; [repeat (apply Forall_cons; [unfold CR, LF; lia|]); apply Forall_nil|vm_compute; lia]|discriminate].
  - apply Nat.ltb_lt. vm_compute. reflexivity.
  - eexists. split; [vm_compute; reflexivity|]. repeat split; reflexivity.
Qed.

Print Assumptions C89_any_client_partial.
Print Assumptions C89_answered.
Print Assumptions C89_too_long_refuted.
Print Assumptions C89_gone_client_refuted.
Print Assumptions C89_many_clients_refuted.
Print Assumptions C89_accept_partial.
Print Assumptions C89_blank_line_refuted.
Print Assumptions C90_served.
Print Assumptions C90_told.
Print Assumptions C90_glob.
