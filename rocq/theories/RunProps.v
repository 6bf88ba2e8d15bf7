(** C107, C108: a run of the client. *)
From Coq Require Import String.
From Verif Require Import Base BaseProof Mem Chars Fmt LexModel LexSpec LexProof StrModel StrSpec StrProof FileModel FileSpec FileProof FileProps
  MsgModel ProtoModel ProtoSpec ProtoProof ProtoProps QueryModel QuerySpec ServeModel ServeSpec ServeProof ServeProps RunModel RunSpec RunProof.
Local Open Scope Z_scope.
Local Notation len := (@List.length Z).
Local Notation MSL := ProtoModel.MAX_SOCK_LINE.

(** ** C107 *)
(** Whatever the server sends and however the calls to the system end: the run ends in a session,
    with the names shown, with an error message, or - only if something is wrong on this side or a
    name fills a whole buffer - with status 1.  (A number that does not fit into an int is
    undefined; an error code that is not positive fails an assertion.) *)
Theorem C107_explained dbg y host port user tty q stream s : world_ok y -> chars_ok host -> 0 <= port -> asks_ok dbg user tty q -> bytes_ok stream ->
  run_client dbg false y host port user tty q stream s = UB SignedOverflow \/
  dbg = true /\ run_client dbg false y host port user tty q stream s = UB AssertFail \/
  exists s' e, run_client dbg false y host port user tty q stream s = Ok (s', e) /\ explained y q stream s s' e.
Proof. apply run_any. Qed.

Lemma calm_bad y s s0 : alike s s0 -> calm y s0 -> ~ bad s.
Proof. intros (_ & _ & _ & A & B & C) (D & E & F & _). unfold bad. rewrite A, B, C. tauto. Qed.
Lemma fail_calm dbg y q code msg sock s s0 : world_ok y -> alike s s0 -> calm y s0 -> (forall m, msg = Some m -> chars_ok m) -> 0 < code ->
  (forall rs st, sock = Some (rs, st) -> code = 1 \/ rs = y_dr y) ->
  exists s', display_error dbg (y_junk y) q code msg sock s = Ok (s', Exit 2) /\ t_sent s' = t_sent s /\
    fails_with s0 s' (shown (said msg) ++ (match sock with Some (_, st) => if code =? 1 then [] else st | None => [] end) ++ advice q code).
Proof.
  intros W AL CA CM CP SK. destruct W as (_ & _ & _ & _ & _ & LJ & _).
  destruct (error_ok dbg (y_junk y) q code msg sock s LJ CM ltac:(auto)) as (s' & e & -> & TS & [(-> & G)|(-> & X)]).
  - exists s'. split; auto. split; auto. exact (gets_err _ _ _ _ AL G).
  - exfalso. destruct X as [X|(rs & st & E & N & X)]; [exact (calm_bad _ _ _ AL CA X)|]. destruct CA as (_ & _ & _ & C1 & C2).
    destruct (SK rs st E) as [Y|Y]; [congruence|]. subst rs. tauto.
Qed.
Lemma shown_cut t : shown (firstn (Z.to_nat 1023) t) = shown t.
Proof.
  unfold shown. set (N := Z.to_nat 1023). assert (LN : (7 <= N)%nat) by (unfold N; pose proof cut_1023; lia). clearbody N.
  assert (L7 : len (zs "ERROR: ") = 7%nat) by reflexivity. set (E := zs "ERROR: ") in *. clearbody E.
  rewrite !firstn_app, L7. f_equal. destruct (Nat.le_gt_cases (len t) N) as [A|A]; [rewrite (firstn_all2 _ A); reflexivity|].
  rewrite firstn_firstn, Nat.min_l by lia. f_equal. rewrite firstn_length, Nat.min_l by lia.
  replace (N - 7 - N)%nat with 0%nat by lia. replace (N - 7 - len t)%nat with 0%nat by lia. reflexivity.
Qed.
Lemma local_calm dbg y q t sock s s0 : world_ok y -> alike s s0 -> calm y s0 -> chars_ok t ->
  exists s', (do t <- create_format_string (y_junk y) t; display_error dbg (y_junk y) q ERR_LOCAL (Some t) sock s) = Ok (s', Exit 2) /\ t_sent s' = t_sent s /\ fails_with s0 s' (shown t).
Proof.
  intros W AL CA C. rewrite (world_cut y t W C). cbn [bind].
  destruct (fail_calm dbg y q ERR_LOCAL (Some (firstn (Z.to_nat 1023) t)) sock s s0 W AL CA) as (s' & -> & TS & F).
  - intros m X. apply some_inj in X. subst m. apply firstn_chars. exact C.
  - reflexivity.
  - auto.
  - exists s'. split; auto. split; auto. revert F. cbn [said]. rewrite shown_cut.
    assert (match sock with Some (_, st) => if ERR_LOCAL =? 1 then [] else st | None => [] end = []) as -> by (destruct sock as [[a b]|]; reflexivity).
    assert (advice q ERR_LOCAL = []) as -> by (unfold advice, ERR_LOCAL; reflexivity). rewrite !app_nil_r. auto.
Qed.
Lemma dot_eq s : before_dot s = without_domain s.
Proof. induction s as [|c t IH]; [reflexivity|]. cbn [before_dot without_domain]. rewrite IH. reflexivity. Qed.
Lemma place_eq h p : at_host h p = place h p.
Proof. reflexivity. Qed.
Lemma names_eq y host : match y_cname y with None => (host, host) | Some n => (n, before_dot n) end = (full_name y host, short_name y host).
Proof. unfold full_name, short_name. destruct (y_cname y); [rewrite dot_eq|]; reflexivity. Qed.
Lemma names_ok y host : world_ok y -> chars_ok host -> chars_ok (full_name y host) /\ chars_ok (short_name y host).
Proof. intros (W & _) C. unfold full_name, short_name. destruct (y_cname y) as [n|]; [|auto]. rewrite <- dot_eq. split; [|apply dot_chars]; auto. Qed.
Lemma receive_end y rs host port k : world_ok y -> chars_ok host -> 0 <= port -> ~ In Fail rs ->
  exists rs1, receive false y rs [] host port k = Ok (mkClient (k_cons k) (k_reset k) 1 Local, -1, rs1, [], Some (firstn (Z.to_nat 1023) (zs "Connection terminated by " ++ place host port))).
Proof.
  intros W C P N. pose proof W as (_ & _ & _ & CE & _ & _ & LL). pose proof M_pos. change (Z.to_nat 131072) with MSL in LL.
  destruct (read_line_ok rs [] (y_jline y) MSL ltac:(lia) ltac:(lia)) as (s1 & S1 & [(buf & E & LB & H1)|(F & _)]); [|tauto].
  cbn [first_line] in E. rewrite firstn_nil in E. change (Z.of_nat (len [])) with 0 in E. cbn [List.length skipn] in E.
  exists s1. unfold receive, recv_rsp. rewrite E. cbn [bind]. change (0 <=? 0) with true. cbv iota. cbn [bind k_msg]. rewrite ?E. cbn [bind].
  change (0 <? 0) with false. change (0 =? 0) with true. cbv iota. rewrite world_cut; auto. cbn [bind].
  apply (made_up_chars y host port 0); auto.
Qed.

Lemma terminated dbg y q host port st s s0 sent : world_ok y -> chars_ok host -> 0 <= port -> alike s s0 -> calm y s0 -> t_sent s = sent ->
  exists s', display_error dbg (y_junk y) q 1 (Some (firstn (Z.to_nat 1023) (zs "Connection terminated by " ++ place host port))) (Some (y_dr y, st)) s = Ok (s', Exit 2) /\
    t_sent s' = sent /\ fails_with s0 s' (shown (zs "Connection terminated by " ++ place host port)).
Proof.
  intros W C P AL CA TS. assert (CT0 : chars_ok (zs "Connection terminated by " ++ place host port)) by (apply (made_up_chars y host port 0); auto; apply W).
  destruct (fail_calm dbg y q 1 (Some (firstn (Z.to_nat 1023) (zs "Connection terminated by " ++ place host port))) (Some (y_dr y, st)) s s0 W AL CA) as (s' & -> & TS' & F).
  - intros m Y. apply some_inj in Y. subst m. apply firstn_chars. exact CT0.
  - lia.
  - auto.
  - exists s'. split; auto. split; [congruence|]. revert F. cbn [said]. rewrite shown_cut. change (1 =? 1) with true. cbv iota. change (advice q 1) with (@nil Z). rewrite !app_nil_r. auto.
Qed.

(** What goes wrong is said: a host that cannot be resolved... *)
Theorem C107_unresolved dbg y host port user tty q stream s : world_ok y -> chars_ok host -> calm y s -> y_sock y = true -> y_addr y = false ->
  exists s', run_client dbg false y host port user tty q stream s = Ok (s', Exit 2) /\ t_sent s' = t_sent s /\ fails_with s s' (shown (zs "Unable to resolve host <" ++ host ++ zs ">")).
Proof.
  intros W C CA YS YA. assert (AL : alike s s) by (unfold alike; auto 10). unfold run_client. rewrite YS, YA. cbn [negb]. cbv zeta.
  apply local_calm; auto. repeat (apply Forall_app; split); auto; zc.
Qed.
(** ... or not be reached, and why... *)
Theorem C107_unreachable dbg y host port user tty q stream s e : world_ok y -> chars_ok host -> 0 <= port -> calm y s -> y_sock y = true -> y_addr y = true -> y_conn y = Some e ->
  exists s', run_client dbg false y host port user tty q stream s = Ok (s', Exit 2) /\ t_sent s' = t_sent s /\ fails_with s s' (shown (zs "Unable to connect to " ++ place (full_name y host) port ++ zs ": " ++ e)).
Proof.
  intros W C P CA YS YA YC. assert (AL : alike s s) by (unfold alike; auto 10). destruct (names_ok y host W C) as (CF & CS). pose proof (port_chars _ _ CF P) as PF.
  unfold run_client. rewrite YS, YA, YC. cbn [negb]. cbv zeta. rewrite names_eq.
  apply local_calm; auto. apply Forall_app; split; [zc|]. apply Forall_app; split; [exact PF|]. apply Forall_app; split; [zc|]. destruct W as (_ & W & _). apply W. auto.
Qed.
(** ... or that closes the connection without an answer to the greeting. *)
Theorem C107_no_answer dbg y host port user tty q s : world_ok y -> chars_ok host -> 0 <= port -> asks_ok dbg user tty q -> calm y s -> 
  y_sock y = true -> y_addr y = true -> y_conn y = None -> ~ In Fail (y_gw y) -> ~ In Fail (y_gr y) -> (len (greeting_line user tty) < MSL)%nat ->
  exists s', run_client dbg false y host port user tty q [] s = Ok (s', Exit 2) /\ t_sent s' = t_sent s ++ greeting_line user tty /\ fails_with s s' (shown (zs "Connection terminated by " ++ place (short_name y host) port)).
Proof.
  intros W C P (CU & CT & NC & CC) CA YS YA YC N1 N2 LG. destruct (names_ok y host W C) as (CF & CS).
  unfold run_client. rewrite YS, YA, YC. cbn [negb]. cbv zeta. rewrite names_eq.
  destruct (send_greeting_ok dbg (y_gw y) (t_sent s) user tty CU CT) as ([[o1 rv1] s1] & -> & _ & X). cbn [bind].
  destruct X as [(-> & -> & _)|[(_ & _ & X)|(_ & X & _)]]; [|lia|tauto]. change (0 <? 0) with false. cbv iota.
  destruct (receive_end y (y_gr y) (short_name y host) port (mkClient (q_cons q) false 0 NoMsg) W CS P N2) as (rs1 & ->). cbn [bind]. change (-1 <? 0) with true. cbv iota. cbn [k_err].
  change (1 =? ERR_AUTHENTICATE) with false. cbv iota. apply terminated; auto. unfold alike; cbn; auto 10.
Qed.

(** ** C108 *)
Lemma sendable_plain s : sendable s -> plain s.
Proof. intros [F L]. split; auto. eapply Forall_impl; [|exact F]. cbv beta. lia. Qed.
Lemma receive_rsp y rs stream host port k k1 rv rs1 st : world_ok y -> bytes_ok stream -> recv_rsp false rs stream (y_jline y) k = Ok (k1, rv, rs1, st) -> k_msg k1 <> Local ->
  receive false y rs stream host port k = Ok (k1, rv, rs1, st, match k_msg k1 with Text t => Some t | _ => None end).
Proof.
  intros (_ & _ & _ & _ & _ & _ & LL) B E N. unfold receive. rewrite E. cbn [bind].
  destruct (read_any rs stream (y_jline y) B LL) as (buf & n & s1 & j & -> & _). cbn [bind]. destruct (k_msg k1); [reflexivity|congruence|reflexivity].
Qed.
Lemma ok_bytes reset names : Forall sendable names -> bytes_ok (ok_line reset names).
Proof. intros F. apply chars_bytes. apply ok_line_chars. auto. Qed.

Lemma error_bytes code msg : 0 <= code -> chars_ok (enc msg) -> bytes_ok (error_line code msg).
Proof.
  intros C M. apply chars_bytes. unfold error_line, quoted_field. repeat (apply Forall_app; split); try zc; auto. apply fmt_chars. auto.
Qed.
Lemma low_enc s : forallb (fun c => (1 <=? c) && (c <? 128)) s = true -> chars_ok (enc s).
Proof.
  intros F. apply Forall_forall. intros x X. unfold enc in X. apply in_map_iff in X. destruct X as (c & <- & I). rewrite forallb_forall in F. specialize (F c I).
  unfold char_ok. destruct ((c =? QUOTE) || (c =? DQUOTE)) eqn:Q; unfold QUOTE, DQUOTE in Q; lia.
Qed.
Lemma found_enc n t : forallb (fun c => (1 <=? c) && (c <? 128)) t = true -> chars_ok (enc (zs "Found " ++ decimal n ++ t)).
Proof.
  intros F. apply low_enc. rewrite !forallb_app, F, andb_true_r. apply andb_true_intro. split; [reflexivity|]. unfold decimal, fmt_d.
  destruct (Z.ltb_spec (Z.of_nat n) 0); [lia|]. destruct (fmt_u_ok (Z.of_nat n) ltac:(lia)) as (D & _). apply forallb_forall. intros c I. rewrite Forall_forall in D. specialize (D c I). unfold isdigit in D. lia.
Qed.
Lemma writer_bytes nm o w : chars_ok (nm o) -> who_ok w -> bytes_ok (writer_line nm o w).
Proof.
  intros CN (A & B & C & D). apply chars_bytes.
  assert (T : chars_ok (writer_text nm o w)).
  { unfold writer_text. cbn [List.concat]. repeat (apply Forall_app; split); auto; try zc.
    - destruct (w_bcast w); zc.
    - destruct (w_tty w) as [t|] eqn:TE; [|constructor]. apply Forall_app; split; [zc|apply C; auto].
    - destruct (w_idle w) as [t|] eqn:TE; [apply D; auto|zc]. }
  unfold writer_line. destruct (_ <? _)%nat; [exact T|]. apply Forall_app; split; [apply firstn_chars; exact T|zc].
Qed.
Lemma reply_bytes nm writers resets r sel : (forall o, In o sel -> sendable (nm o)) -> (forall o, Forall who_ok (writers o)) ->
  forall l, In l (reply nm writers resets r sel) -> bytes_ok l.
Proof.
  intros SN WO l I. assert (CN : forall o, In o sel -> chars_ok (nm o)) by (intros o O; apply plain_chars, sendable_plain; auto).
  assert (OC : forall o, In o (occupied writers r sel) -> In o sel).
  { unfold occupied. destruct (q_cmd r); cbn [In]; try tauto. destruct (q_force r || q_join r); cbn [In]; [tauto|]. intros o O. apply filter_In in O. tauto. }
  assert (WL : forall o, In o (occupied writers r sel) -> In l (map (writer_line nm o) (writers o)) -> bytes_ok l).
  { intros o O J. apply in_map_iff in J. destruct J as (w & <- & J). specialize (WO o). rewrite Forall_forall in WO. apply writer_bytes; auto. }
  unfold reply in I. destruct sel as [|o0 sel0] eqn:ES.
  - destruct I as [<-|[]]. apply error_bytes; [lia|]. apply low_enc. reflexivity.
  - rewrite <- ES in *. destruct (too_many r sel).
    + destruct I as [<-|I]; [apply error_bytes; [lia|]; apply found_enc; reflexivity|]. apply in_map_iff in I. destruct I as (o & <- & I).
      apply chars_bytes. apply Forall_app; split; [exact (CN o I)|zc].
    + destruct (occupied writers r sel) as [|b0 [|b1 b]] eqn:OE.
      * destruct I as [<-|[]]. apply ok_bytes. apply Forall_forall. intros n J. apply in_map_iff in J. destruct J as (o & <- & J). auto.
      * destruct I as [<-|I]; [apply error_bytes; [lia|]; apply low_enc; reflexivity|]. apply (WL b0); [left; auto|auto].
      * destruct I as [<-|I]; [apply error_bytes; [lia|]; apply found_enc; reflexivity|]. apply in_flat_map in I. destruct I as (o & O & I). apply (WL o); auto.
Qed.

Section C108.
Variables (dbg sgn : bool) (isc : nat -> bool) (nm : nat -> list Z) (fnm : list Z -> list Z -> bool).
Variables (regex : list Z -> option (list Z -> option (nat * nat))) (regerr : list Z -> list Z).
Variables (objs : list nat) (writers : nat -> list who) (resets : bool).

(** What a run makes of the answers of a daemon. *)
Lemma run_answers y host port user tty q s stream : world_ok y -> smooth y -> calm y s -> chars_ok host -> 0 <= port ->
  name_ok user -> (forall t, tty = Some t -> name_ok t) -> q_cmd q <> CmdNone -> Forall name_ok (q_cons q) -> (len (request_line q) < MSL)%nat -> bytes_ok stream ->
  exists s1 sent, alike s1 s /\ t_sent s1 = sent /\ sent = t_sent s ++ greeting_line user tty ++ request_line q /\
   run_client dbg false y host port user tty q (ok_line false [] ++ stream) s =
   (do r <- receive false y (y_rr y) stream (short_name y host) port (mkClient [] false 0 NoMsg);
    let '(k, rv, _, st2, m) := r in
    if rv <? 0 then display_error dbg (y_junk y) q (k_err k) m (Some (y_dr y, st2)) s1
    else match q_cmd q with
         | CmdQuery => do e <- RunModel.display_consoles (y_junk y) (k_cons k) s1; if snd e then finish y (fst e) else Ok (fst e, Exit 1)
         | _ => Ok (s1, Session k st2)
         end).
Proof.
  intros W (YS & YA & YC & YT & YL & YG & N1 & N2 & N3 & N4) CA CH P NU NT NC FC LR B.
  exists (set_sent (set_sent s (t_sent s ++ greeting_line user tty)) ((t_sent s ++ greeting_line user tty) ++ request_line q)), (t_sent s ++ greeting_line user tty ++ request_line q).
  split; [unfold alike; cbn; auto 10|]. split; [cbn [set_sent t_sent]; rewrite <- app_assoc; reflexivity|]. split; auto.
  unfold run_client. rewrite YS, YA, YC. cbn [negb]. cbv zeta. rewrite names_eq.
  destruct (send_greeting_ok dbg (y_gw y) (t_sent s) user tty) as ([[o1 rv1] s1] & -> & _ & X1).
  { apply sendable_can, NU. } { intros t T. apply sendable_can, NT. auto. }
  destruct X1 as [(-> & -> & _)|[(_ & _ & X)|(_ & X & _)]]; [|exfalso; exact (Nat.lt_irrefl _ (Nat.le_lt_trans _ _ _ X (greeting_size user tty NU NT)))|tauto].
  cbn [bind]. change (0 <? 0) with false. cbv iota.
  pose proof W as (_ & _ & _ & _ & _ & _ & LL).
  destruct (recv_ok (y_gr y) false [] stream (y_jline y) (mkClient (q_cons q) false 0 NoMsg) (Forall_nil _)) as (s2 & E1 & _).
  { assert (len (ok_line false []) = 3%nat) as -> by reflexivity. pose proof ML_M. lia. }
  { exact LL. } { exact N2. }
  cbn [andb k_cons k_reset k_err k_msg orb] in E1. rewrite app_nil_r in E1.
  rewrite (receive_rsp y (y_gr y) _ _ _ _ _ _ _ _ W) with (2 := E1); [|apply Forall_app; split; [apply ok_bytes; constructor|exact B]|discriminate].
  cbn [bind k_msg]. change (0 <? 0) with false. cbv iota. cbn [set_sent t_sent].
  destruct (send_req_ok dbg (y_rw y) (t_sent s ++ greeting_line user tty) q NC) as (o2 & rv2 & s3 & -> & _ & X2).
  { eapply Forall_impl; [|exact FC]. intros a [A _]. apply sendable_can. auto. }
  destruct X2 as [(-> & -> & _)|[(_ & _ & X)|(_ & X & _)]]; [|exfalso; exact (Nat.lt_irrefl _ (Nat.le_lt_trans _ _ _ X LR))|tauto].
  cbn [bind]. change (0 <? 0) with false. cbv iota. rewrite YT. cbn [set_cons q_cons k_reset k_err k_msg].
  destruct (q_cmd q); reflexivity.
Qed.
Lemma finish_calm y s s0 : world_ok y -> y_logclose y = true -> ~ bad s ->
  t_log s = t_log s0 -> exists s', finish y s = Ok (s', Exit 0) /\ t_sent s' = t_sent s /\ t_out s' = t_out s /\ t_err s' = t_err s /\
    t_log s' = option_map (fun l => l ++ firstn (Z.to_nat 1023) (log_end (y_time y))) (t_log s).
Proof.
  intros W YL NB _. unfold finish. destruct (t_log s) as [l|] eqn:TL; cbn [option_map].
  - rewrite world_cut; auto.
    2: { repeat (apply Forall_app; split); try zc; try (unfold MSG_PREFIX, MSG_SUFFIX; zc). apply W. }
    cbn [bind]. set (p := firstn _ _).
    destruct (C23_write_n (w_log s) l p (len p) (le_n _)) as (l3 & rv5 & ws & -> & _ & X). cbn [bind]. rewrite firstn_all in X.
    destruct X as [(-> & ->)|(-> & F & _)]; [|exfalso; apply NB; right; right; auto].
    destruct (Z.ltb_spec (Z.of_nat (len p)) 0); [lia|]. rewrite YL. eexists. split; [reflexivity|]. cbn. auto.
  - exists s. rewrite TL. auto 10.
Qed.

(** Client and daemon together.  A user asks [q]; the daemon finds that it selects the consoles
    [sel]; nothing fails.  The client then has sent the greeting and the request, nothing else, and
    - a granted query ends with status 0, having shown the names, one on each line, in order;
    - a granted connection or monitoring is a session of the client with just those consoles that
      the daemon's session is for, and the first byte that the client gets to see is the first one
      that the daemon sends after its answer;
    - a refusal is shown with its reason and the list that comes with it, and advice if there is
      any, and the status is 2;
    - if the answer is too long for the daemon, the client says that the connection was closed. *)
Theorem C108_end_to_end y host port user tty q s : world_ok y -> smooth y -> calm y s -> chars_ok host -> 0 <= port ->
  consoles_ok dbg isc nm objs -> (forall o, Forall who_ok (writers o)) -> regerr_ok dbg regerr ->
  name_ok user -> (forall t, tty = Some t -> name_ok t) -> q_cmd q <> CmdNone -> Forall name_ok (q_cons q) -> (len (request_line q) < MSL)%nat ->
  forall rs ws more junk1 junk2 jbuf1 jbuf2 sel bc, ~ In Fail rs -> ~ In Fail ws -> bytes_ok more -> len junk1 = MSL -> len junk2 = MSL -> len jbuf1 = MSL -> len jbuf2 = MAX_LINE ->
    query_consoles sgn isc nm fnm regex (q_regex q) (is_query (q_cmd q)) (is_connect (q_cmd q) && q_bcast q) objs (q_cons q) = Ok (sel, bc, true) ->
    (forall o, In o sel -> sendable (nm o) /\ Z.of_nat (len (nm o)) < 1023) -> Z.of_nat (List.length sel) <= INT_MAX ->
    let r := seen user tty resets q bc in
    exists v, process_client dbg false sgn isc nm fnm regex regerr objs writers resets true true true rs ws (greeting_line user tty ++ request_line q ++ more) junk1 junk2 jbuf1 jbuf2 = Ok v /\
    forall later, bytes_ok later -> (v_sess v = None -> later = []) ->
    exists s' e, run_client dbg false y host port user tty q (v_out v ++ later) s = Ok (s', e) /\
      t_sent s' = t_sent s ++ greeting_line user tty ++ request_line q /\
      if grantedb writers r sel then
        if (MSL <=? len (ok_line resets (map nm sel)))%nat then
          e = Exit 2 /\ fails_with s s' (shown (zs "Connection terminated by " ++ place (short_name y host) port))
        else if is_query (q_cmd q) then
          e = Exit 0 /\ t_out s' = t_out s ++ one_per_line (map nm sel) /\ t_err s' = t_err s /\
          logged s s' (one_per_line (map nm sel) ++ firstn (Z.to_nat 1023) (log_end (y_time y)))
        else
          v_sess v = Some (r, sel) /\ (exists k, e = Session k later /\ k_cons k = map nm sel /\ k_reset k = resets) /\
          t_out s' = t_out s /\ t_err s' = t_err s /\ t_log s' = t_log s
      else
        e = Exit 2 /\ fails_with s s' (shown (snd (refusal writers r sel)) ++ concat (tl (reply nm writers resets r sel)) ++ advice q (fst (refusal writers r sel))).
Proof.
  intros W SM CA CH P CO WO RO NU NT NC FC LR rs ws more k1 k2 j1 j2 sel bc NR NW BM L1 L2 L3 L4 EQ SN LS r.
  pose proof SM as (YS & YA & YC & YT & YL & YG & N1 & N2 & N3 & N4).
  destruct (C90_served dbg sgn isc nm fnm regex regerr objs writers resets user tty q [] [] CO WO RO NU NT NC FC LR (fun x => x) (fun x => x)) as (_ & _ & _ & _ & SV).
  destruct (SV rs ws more k1 k2 j1 j2 sel bc NR NW BM L1 L2 L3 L4 EQ) as (v & EV & _ & X). fold r in X. clear SV.
  pose proof (reply_bytes nm writers resets r sel (fun o O => proj1 (SN o O)) WO) as BR.
  exists v. split; auto. intros later BL LN.
  destruct (names_ok y host W CH) as (CF & CS). pose proof W as (_ & _ & _ & _ & _ & LJ & LL).
  destruct (grantedb writers r sel) eqn:GB; cbn [andb] in X.
  - destruct (MSL <=? len (ok_line resets (map nm sel)))%nat eqn:BIG.
    + destruct X as (EO & _ & S). rewrite EO, (LN S), app_nil_r. rewrite <- (app_nil_r (ok_line false [])).
      destruct (run_answers y host port user tty q s [] W SM CA CH P NU NT NC FC LR (Forall_nil _)) as (s1 & sent & AL & TS & ES & ->).
      destruct (receive_end y (y_rr y) (short_name y host) port (mkClient [] false 0 NoMsg) W CS P N4) as (rs1 & ->). cbn [bind]. change (-1 <? 0) with true. cbv iota. cbn [k_err].
      destruct (terminated dbg y q (short_name y host) port [] s1 s sent W CS P AL CA TS) as (s' & -> & T' & F). exists s', (Exit 2). split; auto. split; [congruence|auto].
    + destruct X as (EO & X). pose proof GB as GR. apply grantedb_ok in GR. destruct GR as (NE & TM & OC).
      assert (EP : reply nm writers resets r sel = [ok_line resets (map nm sel)]) by (unfold reply; rewrite TM, OC; destruct sel; [congruence|reflexivity]).
      assert (FN : Forall sendable (map nm sel)).
      { apply Forall_forall. intros n I. apply in_map_iff in I. destruct I as (o & <- & I). apply SN. auto. }
      rewrite EO, EP. cbn [concat]. rewrite app_nil_r, <- app_assoc.
      destruct (run_answers y host port user tty q s (ok_line resets (map nm sel) ++ later) W SM CA CH P NU NT NC FC LR) as (s1 & sent & AL & TS & ES & ->).
      { apply Forall_app. split; [apply ok_bytes; auto|auto]. }
      apply Nat.leb_gt in BIG.
      destruct (recv_ok (y_rr y) resets (map nm sel) later (y_jline y) (mkClient [] false 0 NoMsg) FN BIG LL N4) as (s2 & E1 & _).
      assert (EH : has (map nm sel) = true) by (destruct sel; [congruence|reflexivity]). cbn [k_cons k_reset k_err k_msg List.app orb] in E1. rewrite EH, andb_true_r in E1.
      rewrite (receive_rsp y (y_rr y) _ _ _ _ _ _ _ _ W) with (2 := E1); [|apply Forall_app; split; [apply ok_bytes; auto|exact BL]|discriminate].
      cbn [bind k_cons]. change (0 <? 0) with false. cbv iota.
      destruct (is_query (q_cmd q)) eqn:IQ.
      * assert (q_cmd q = CmdQuery) as -> by (destruct (q_cmd q); try discriminate; reflexivity).
        destruct (consoles_shown (map nm sel) (y_junk y) s1 LJ) as (s3 & b & -> & LT & G3 & B3).
        { eapply Forall_impl; [|exact FN]. intros a A. apply plain_chars, sendable_plain. auto. }
        cbn [bind fst snd]. destruct b.
        -- specialize (G3 eq_refl). destruct G3 as (G1 & G2 & G3).
           assert (NB : ~ bad s3) by (intros Y; apply (calm_bad y s1 s AL CA); eapply later_bad; eauto).
           destruct (finish_calm y s3 s3 W YG NB eq_refl) as (s' & -> & A & B & C & D). exists s', (Exit 0). split; auto.
           destruct AL as (AL1 & AL2 & AL3 & _). rewrite app_nil_r in G2. unfold logged in *.
           split; [destruct LT as (_ & _ & _ & LT); congruence|]. split; auto. split; [congruence|]. split; [congruence|].
           rewrite D, G3, AL3. destruct (t_log s); cbn [option_map]; [rewrite <- app_assoc|]; reflexivity.
        -- exfalso. destruct (B3 eq_refl) as [Y|(n & I & Y)]; [exact (calm_bad y s1 s AL CA Y)|].
           apply in_map_iff in I. destruct I as (o & <- & I). destruct (SN o I) as [_ LO]. pose proof STR_1023 as E. pose proof cut_1023. assert (Z.of_nat (Z.to_nat 1023) = 1023) by (apply Z2Nat.id; lia). lia.
      * cbn [negb] in X. destruct X as (_ & S). eexists s1, (Session _ later). split; [destruct (q_cmd q); try reflexivity; discriminate|]. split; [congruence|]. split; auto.
        destruct AL as (AL1 & AL2 & AL3 & _). split; [|auto]. eexists. split; [reflexivity|]. auto.
  - destruct X as (EO & _ & S). rewrite EO, (LN S), app_nil_r.
    destruct (run_answers y host port user tty q s (concat (reply nm writers resets r sel)) W SM CA CH P NU NT NC FC LR) as (s1 & sent & AL & TS & ES & ->).
    { clear - BR. induction (reply nm writers resets r sel) as [|a l IH]; [constructor|]. cbn [concat]. apply Forall_app. split; [apply BR; left; auto|apply IH; intros; apply BR; right; auto]. }
    destruct (C90_told isc nm fnm regex regerr writers resets r sel [] (y_rr y) (repeat 1 MSL) (y_jline y) (mkClient [] false 0 NoMsg)) as (_ & s2 & _ & E2); auto.
    { intros o O. apply SN. auto. } { congruence. }
    rewrite GB in E2. cbn [k_cons k_reset] in E2.
    rewrite (receive_rsp y (y_rr y) _ _ _ _ _ _ _ _ W) with (2 := E2); [| |discriminate].
    2: { clear - BR. induction (reply nm writers resets r sel) as [|a l IH]; [constructor|]. cbn [concat]. apply Forall_app. split; [apply BR; left; auto|apply IH; intros; apply BR; right; auto]. }
    cbn [bind k_msg k_err]. change (-1 <? 0) with true. cbv iota.
    assert (RC : 5 <= fst (refusal writers r sel)) by (unfold refusal; destruct sel; [cbn; lia|]; destruct (too_many _ _); cbn; lia).
    destruct (fail_calm dbg y q (fst (refusal writers r sel)) (Some (snd (refusal writers r sel))) (Some (y_dr y, concat (tl (reply nm writers resets r sel)))) s1 s W AL CA) as (s' & -> & T' & F).
    + intros m Y. apply some_inj in Y. subst m. unfold refusal. destruct sel as [|o sel0] eqn:ES0; [zc|]. rewrite <- ES0 in *. destruct (too_many _ _); cbn [snd].
      * apply Forall_app; split; [zc|]. apply Forall_app; split; [apply fmt_chars; lia|zc].
      * destruct (occupied writers r sel) as [|b0 [|b1 b]]; [|zc|]; (apply Forall_app; split; [zc|]; apply Forall_app; split; [apply fmt_chars; lia|zc]).
    + lia.
    + intros rs0 st0 Y. injection Y as <- _. auto.
    + exists s', (Exit 2). split; auto. split; [congruence|]. split; auto.
      cbn [said] in F. destruct (Z.eqb_spec (fst (refusal writers r sel)) 1); [lia|]. exact F.
Qed.
End C108.

(** The user of a monitor that matches several consoles is advised to broadcast, but no option
    makes the daemon grant this: monitoring concerns one console only, whether broadcasting or not. *)
Theorem C108_hint_refuted : forall q writers sel, q_cmd q = CmdMonitor -> q_bcast q = false -> (1 < List.length sel)%nat ->
  advice q (fst (refusal writers q sel)) = LF :: zs "Do you want to broadcast (-b) to multiple consoles?" ++ [LF; LF] /\
  forall user tty resets bc, grantedb writers (seen user tty resets q bc) sel = false.
Proof.
  intros q writers sel QC QB L. unfold refusal, grantedb, too_many, one_only. cbn [seen q_cmd q_bcast]. rewrite QC. destruct (Nat.ltb_spec 1 (List.length sel)) as [_|]; [|lia].
  destruct sel as [|a sel]; [cbn in L; lia|]. cbn [andb fst]. unfold advice. rewrite QB. split; [reflexivity|]. intros user tty resets bc. cbn [negb]. rewrite andb_false_r. reflexivity.
Qed.

(** Worlds and requests for the examples. *)
Definition well (j : Z) : sys :=
  mkSys true true (Some (zs "srv.example.org")) None None true (zs "Bad") [Intr; Chunk 3%nat] [] [Chunk 1%nat] [Intr] [] (repeat j MAX_STR_SIZE) (repeat j MSL) (zs "2026-11-17 02:00:00") true.
Definition fresh : st := mkSt [] [] (Some []) [] [Chunk 2%nat] [] [].
Definition ask (c : cmd) (b : bool) (l : list (list Z)) : req := mkReq None None c b false false false false false l.
(** A console may have a name of 1023 characters: a query that matches it shows nothing of it and
    ends with status 1. *)
Theorem C108_long_name_refuted : exists n s', sendable n /\ run_client true false (well 7) (zs "srv") 7890 (zs "joe") None (ask CmdQuery false []) (ok_line false [] ++ ok_line false [n]) fresh = Ok (s', Exit 1) /\
  t_out s' = [] /\ t_err s' = [] /\ t_log s' = Some [].
Proof.
  exists (repeat 97 (Z.to_nat 1023)). eexists. split.
  - split; [apply Forall_forall; intros x X; apply repeat_spec in X; subst x; unfold CR, LF; lia|]. rewrite repeat_length. change LEX_MAX_STR with (Z.to_nat 1024). apply Z2Nat.inj_lt; lia.
  - split; [vm_compute; reflexivity|]. auto.
Qed.
(** A long message loses its end: neither a full stop nor the ends of line are shown, and what
    follows comes right after it. *)
Theorem C107_long_message_refuted : exists m s', run_client true false (well 7) (zs "srv") 7890 (zs "joe") None (ask CmdMonitor false [zs "c"]) (ok_line false [] ++ error_line 3 m ++ zs "next") fresh = Ok (s', Exit 2) /\
  t_err s' = zs "ERROR: " ++ repeat 97 (Z.to_nat 1016) ++ zs "next".
Proof. exists (repeat 97 (Z.to_nat 1020)). eexists. split; vm_compute; reflexivity. Qed.
(** A server may make a client that is built for debugging abort: an error code of zero or less
    fails an assertion. *)
Theorem C107_negative_code_refuted : exists stream, run_client true false (well 7) (zs "srv") 7890 (zs "joe") None (ask CmdMonitor false [zs "c"]) stream fresh = UB AssertFail /\
  stream = zs "OK" ++ [LF] ++ zs "ERROR CODE=-3" ++ [LF].
Proof. eexists. split; [|reflexivity]. vm_compute. reflexivity. Qed.
(** A client's log has a last line after a query, but none after an error. *)
Theorem C107_log_end_refuted : exists stream s', run_client true false (well 7) (zs "srv") 7890 (zs "joe") None (ask CmdQuery false [zs "c"]) stream fresh = Ok (s', Exit 2) /\
  t_log s' = Some (zs "ERROR: Found no matching consoles." ++ [LF; LF]).
Proof. exists (ok_line false [] ++ error_line 5 (zs "Found no matching consoles")). eexists. split; vm_compute; reflexivity. Qed.

(** A query; a refusal with its list and advice. *)
Example C107_example : 
  (exists s', run_client true false (well 7) (zs "srv") 7890 (zs "joe") (Some (zs "pts/1")) (ask CmdQuery false [zs "c*"]) (ok_line false [] ++ ok_line true [zs "c1"; zs "c2"]) fresh = Ok (s', Exit 0) /\
     t_sent s' = zs "HELLO USER='joe' TTY='pts/1'" ++ [LF] ++ zs "QUERY CONSOLE='c*'" ++ [LF] /\ t_out s' = zs "c1" ++ [LF] ++ zs "c2" ++ [LF] /\ t_err s' = [] /\
     t_log s' = Some (zs "c1" ++ [LF] ++ zs "c2" ++ [LF; CR; LF] ++ zs "<ConMan> Log finished at 2026-11-17 02:00:00." ++ [CR; LF])) /\
  (exists s', run_client true false (well 7) (zs "srv") 7890 (zs "joe") None (ask CmdConnect false [zs "c*"]) (ok_line false [] ++ error_line 6 (zs "Found 2 matching consoles") ++ zs "c1" ++ [LF] ++ zs "c2" ++ [LF]) fresh = Ok (s', Exit 2) /\
     t_out s' = [] /\ t_err s' = zs "ERROR: Found 2 matching consoles." ++ [LF; LF] ++ zs "c1" ++ [LF] ++ zs "c2" ++ [LF; LF] ++ zs "Do you want to broadcast (-b) to multiple consoles?" ++ [LF; LF]) /\
  world_ok (well 7) /\ smooth (well 7) /\ calm (well 7) fresh /\ asks_ok true (zs "joe") (Some (zs "pts/1")) (ask CmdQuery false [zs "c*"]).
Proof.
  split; [eexists; split; [vm_compute; reflexivity|]; auto|]. split; [eexists; split; [vm_compute; reflexivity|]; auto|].
  assert (CH : forall s, forallb (fun c => (1 <=? c) && (c <? 256)) s = true -> chars_ok s).
  { intros s F. apply Forall_forall. intros c I. rewrite forallb_forall in F. specialize (F c I). unfold char_ok. lia. }
  assert (LO : forall s, forallb (fun c => (1 <=? c) && (c <? 128)) s = true -> Forall (fun c => 1 <= c < 128) s).
  { intros s F. apply Forall_forall. intros c I. rewrite forallb_forall in F. specialize (F c I). lia. }
  assert (LW : forall s, forallb (fun c => (1 <=? c) && (c <? 128)) s = true -> Forall (fun c => c < 128) s).
  { intros s F. eapply Forall_impl; [|apply LO; exact F]. cbv beta. lia. }
  split; [|split; [|split]].
  - repeat split; cbn [well y_cname y_conn y_shut y_serr y_time y_junk y_jline].
    + intros n X. apply some_inj in X. subst n. apply CH. reflexivity.
    + discriminate.
    + discriminate.
    + apply CH. reflexivity.
    + apply CH. reflexivity.
  - repeat split; cbn; intuition discriminate.
  - repeat split; cbn; intuition discriminate.
  - split; [split; [apply CH; reflexivity|intros _; apply LW; reflexivity]|].
    split; [intros t X; apply some_inj in X; subst t; split; [apply CH; reflexivity|intros _; apply LW; reflexivity]|].
    split; [discriminate|]. constructor; [|constructor]. split; [apply LO; reflexivity|]. change LEX_MAX_STR with (Z.to_nat 1024). change (len (zs "c*")) with (Z.to_nat 2). apply Z2Nat.inj_lt; lia.
Qed.
(** Client and daemon: a query for the consoles of a daemon; a connection to one in use. *)
Example C108_example : exists v s', 
  process_client true false true (fun o => (o <? 3)%nat) (fun o => [99; 48 + Z.of_nat o]) (fun p n => true) (fun _ => None) (fun _ => []) [2%nat; 1%nat; 7%nat]
    (fun o => if (o =? 1)%nat then [mkWho (zs "ann") (zs "h") (Some (zs "pts/1")) false None] else []) true true true true [] []
    (greeting_line (zs "joe") None ++ request_line (ask CmdConnect true [zs "c*"])) (repeat 1 MSL) (repeat 1 MSL) (repeat 1 MSL) (repeat 1 ProtoModel.MAX_LINE) = Ok v /\
  run_client true false (well 7) (zs "srv") 7890 (zs "joe") None (ask CmdConnect true [zs "c*"]) (v_out v) fresh = Ok (s', Exit 2) /\
  t_err s' = zs "ERROR: Found console already in use." ++ [LF; LF] ++ zs "Console [c1] open R/W by <ann@h> on pts/1 (idle ???)." ++ [LF; LF] ++ zs "Do you want to force (-f) or join (-j) the connection?" ++ [LF; LF].
Proof. eexists _, _. split; [vm_compute; reflexivity|]. split; vm_compute; reflexivity. Qed.

Print Assumptions C107_explained.
Print Assumptions C107_unresolved.
Print Assumptions C107_unreachable.
Print Assumptions C107_no_answer.
Print Assumptions C107_long_message_refuted.
Print Assumptions C107_negative_code_refuted.
Print Assumptions C107_log_end_refuted.
Print Assumptions C108_end_to_end.
Print Assumptions C108_hint_refuted.
Print Assumptions C108_long_name_refuted.
