(** C114: the settings of the daemon. *)
From Coq Require Import String.
From Verif Require Import Base BaseProof Chars Fmt LexModel StrModel FnameModel FnameSpec FnameProof OptModel StrSpec StrProof QuerySpec QueryProof LexSpec LexProof
  ConfModel ConfSpec ConfLex ConfLines ConfProof ConfText ConfDev ConfEffect ConfProps SetSpec SetProof.
Local Open Scope Z_scope.
Local Open Scope list_scope.

(** The settings of a line are in force, one after the other, and nothing else is changed;
    they stay in force up to the next SERVER line, whatever is between. *)
Theorem C114_line : forall E c pre c1 kvs st,
  whole_lines E pre -> read_config E c pre = Ok c1 ->
  plain_text E (directive "SERVER" kvs) -> Forall (fun kv => value_ok E (snd kv)) kvs -> says_all E (decided c1) (shown c1) kvs st ->
  (exists c2, read_config E c (pre ++ directive "SERVER" kvs) = Ok c2 /\ (forall k, shown c2 k = st k) /\
     c_objs c2 = c_objs c1 /\ defaults c2 = defaults c1 /\ c_errs c2 = c_errs c1) /\
  (forall mid c', plain_text E mid -> ~ In (kw E "SERVER") (map fst (tokens_of E mid)) ->
     read_config E c (pre ++ directive "SERVER" kvs ++ mid) = Ok c' -> forall k, shown c' k = st k).
Proof.
  intros E c pre c1 kvs st WP R1 P V S. destruct (good_line E c1 kvs st P V S) as (K1 & K2 & c2 & R2 & T & [O D] & ER). split.
  - exists c2. split; [|auto]. rewrite C51_lines_partial by auto. rewrite R1. exact R2.
  - intros mid c' PM NM R k. rewrite C51_lines_partial in R by (auto using plain_app). rewrite R1 in R. cbn [bind] in R. rewrite C51_lines_partial in R; [|apply line_whole; auto|auto].
    + rewrite R2 in R. cbn [bind] in R. rewrite read_config_tokens in R by auto. rewrite (shown_unset E c2 _ c' NM R k). apply T.
    + apply kws_ok. cbn. tauto.
    + clear. destruct E as [? ? ? ? ? ? ? [] ? ? ? ? ?]; vm_compute; congruence.
Qed.

(** What is not accepted is reported, once, and ends the line: what was set before it on the
    line stays, the rest of the line has no effect. *)
Theorem C114_refused : forall E c pre c1 good k v more st,
  whole_lines E pre -> read_config E c pre = Ok c1 ->
  plain_text E (directive "SERVER" (good ++ (k, v) :: more)) ->
  Forall (fun kv => In (fst kv) conf_words /\ value_ok E (snd kv)) (good ++ (k, v) :: more) ->
  says_all E (decided c1) (shown c1) good st -> refused E k v ->
  exists c2 e, read_config E c (pre ++ directive "SERVER" (good ++ (k, v) :: more)) = Ok c2 /\ (forall k, shown c2 k = st k) /\
     c_objs c2 = c_objs c1 /\ defaults c2 = defaults c1 /\ c_errs c2 = c_errs c1 ++ [e].
Proof.
  intros E c pre c1 good k v more st WP R1 P KV S H.
  assert (KV' : Forall (fun kv => is_kw E (fst kv) /\ value_ok E (snd kv)) (good ++ (k, v) :: more)).
  { eapply Forall_impl; [|exact KV]. intros a [A B]. split; [apply kws_ok; cbn in A |- *; tauto|exact B]. }
  destruct (bad_line E c1 good k v more st P KV' S H) as (c2 & e & R2 & T & [O D] & ER).
  exists c2, e. split; [|auto]. rewrite C51_lines_partial by auto. rewrite R1. exact R2.
Qed.

(** ** TIMESTAMP *)
Lemma stamp_tokens E n u : chars_ok (stamp_line n u) -> n <> [] -> Forall digit n -> (length n < LEX_MAX_STR)%nat ->
  (u = [] \/ exists x m, u = [x] /\ unit_of x m) ->
  tokens_of E (stamp_line n u) = (kw E "SERVER", zs "SERVER") :: (kw E "TIMESTAMP", zs "TIMESTAMP") :: (EQUALS, [EQUALS]) :: (LEX_INT, n) ::
    match u with [] => [] | _ => [(LEX_STR, u)] end ++ [(LEX_EOL, [LF]); (LEX_EOF, [])].
Proof.
  intros C N D L U. rewrite tokens_T.
  assert (EQ : stamp_line n u = zs "SERVER" ++ SPACE :: (zs "TIMESTAMP" ++ EQUALS :: (n ++ u ++ [LF]))) by reflexivity.
  rewrite EQ in *. rewrite T_kw; [|exact C|apply kws_ok; cbn; tauto|reflexivity]. f_equal.
  pose proof (chars_app _ _ C) as C1. apply chars_tail in C1. rewrite T_space by exact C1.
  rewrite T_kw; [|exact C1|apply kws_ok; cbn; tauto|reflexivity]. f_equal. pose proof (chars_app _ _ C1) as C2.
  rewrite (T_step _ _ EQUALS [EQUALS] _ C2 (next_equals _ _)) by (vm_compute; congruence). f_equal. apply chars_tail in C2.
  assert (END : T (server_conf_strs (e_ipmi E)) [LF] = [(LEX_EOL, [LF]); (LEX_EOF, [])]) by reflexivity.
  destruct U as [->|(x & m & -> & U)].
  - cbn [app] in *. rewrite (T_step _ _ LEX_INT n [LF] C2); [rewrite END; reflexivity| |vm_compute; congruence].
    apply next_num; auto.
  - cbn [app] in *.
    assert (X : x = 109 \/ x = 77 \/ x = 104 \/ x = 72 \/ x = 100 \/ x = 68) by (unfold unit_of in U; lia).
    rewrite (T_step _ _ LEX_INT n (x :: [LF]) C2); [| |vm_compute; congruence].
    2:{ apply next_num; auto. destruct X as [->|[->|[->|[->|[->| ->]]]]]; reflexivity. }
    f_equal. pose proof (chars_app _ _ C2) as C3. rewrite (T_step _ _ LEX_STR [x] [LF] C3); [rewrite END; reflexivity| |vm_compute; congruence].
    clear - X. destruct (e_ipmi E); destruct X as [->|[->|[->|[->|[->| ->]]]]]; vm_compute; reflexivity.
Qed.
Lemma stamp_plain E n u : Forall digit n -> (u = [] \/ exists x m, u = [x] /\ unit_of x m) -> plain_text E (stamp_line n u).
Proof.
  intros D U. unfold stamp_line. assert (G : Forall (fun c => 1 <= c < 128) (zs "SERVER TIMESTAMP=" ++ n ++ u ++ [LF])).
  { apply Forall_app. split; [apply Forall_forall; intros c I; cbn in I; lia|]. apply Forall_app. split; [eapply Forall_impl; [|exact D]; unfold digit; intros; lia|].
    apply Forall_app. split; [|constructor; [vm_compute; split; congruence|constructor]]. destruct U as [->|(x & m & -> & U)]; [constructor|].
    constructor; [unfold unit_of in U; lia|constructor]. }
  split; [eapply Forall_impl; [|exact G]; unfold char_ok; intros; cbn in *; lia|]. intros _. eapply Forall_impl; [|exact G]. intros; cbn in *; lia.
Qed.

Lemma loop_step {A} (kwd : A -> strm -> res (A * option cerr * strm)) n a s : dir_loop kwd (S n) a s =
  (let s := next s in
   if at_end (prev s) then Ok (a, None, s)
   else if prev s =? LEX_ERR then Ok (a, Some EQuote, s)
   else do r <- kwd a s; let '(a, e, s) := r in match e with Some e => Ok (a, Some e, s) | None => dir_loop kwd n a s end).
Proof. reflexivity. Qed.
Lemma unit_val n x m : unit_of x m -> n <= INT_MAX ->
  (if (x =? 109) || (x =? 77) then Ok n else if (x =? 104) || (x =? 72) then times n 60 else if (x =? 100) || (x =? 68) then times n 1440 else Ok (-1)) = times n m.
Proof.
  intros U M. destruct U as [[[-> | ->] ->]|[[[-> | ->] ->]|[[-> | ->] ->]]]; try reflexivity.
  - unfold times. rewrite Z.mul_1_r. destruct (Z.leb_spec n INT_MAX); [reflexivity|lia].
  - unfold times. rewrite Z.mul_1_r. destruct (Z.leb_spec n INT_MAX); [reflexivity|lia].
Qed.

(** The interval is the number times the unit, which is the minute if there is none. *)
Theorem C114_timestamp : forall E c pre c1 n u m,
  whole_lines E pre -> read_config E c pre = Ok c1 -> numeral n ->
  (u = [] /\ m = 1 \/ exists x, u = [x] /\ unit_of x m) -> number n * m <= INT_MAX ->
  exists c2, read_config E c (pre ++ stamp_line n u) = Ok c2 /\
    (forall k, shown c2 k = put_in (shown c1) "TIMESTAMP" (SNum (number n * m)) k) /\
    c_objs c2 = c_objs c1 /\ defaults c2 = defaults c1 /\ c_errs c2 = c_errs c1.
Proof.
  intros E c pre c1 n u m WP R1 (N & D & L & MX) U M.
  assert (U' : u = [] \/ exists x m, u = [x] /\ unit_of x m) by (destruct U as [[-> _]|(x & -> & U)]; eauto).
  pose proof (stamp_plain E n u D U') as P. rewrite C51_lines_partial by auto. rewrite R1. cbn [bind].
  pose proof (number_nonneg n D) as NN.
  exists (set_tstamp c1 (number n * m)). split.
  - rewrite (server_read E c1 _ P _ (stamp_tokens E n u (proj1 P) N D L U')).
    unfold parse_server_directive, fuel_of. cbn [rest length].
    set (ps := match c_pidfile c1 with Some _ => true | None => false end). set (ts := 0 <=? c_port c1).
    assert (K : forall r, server_kwd E ps ts c1 (mkStrm (kw E "TIMESTAMP") (zs "TIMESTAMP") ((EQUALS, [EQUALS]) :: (LEX_INT, n) :: r)) =
      timestamp_kwd c1 (mkStrm (kw E "TIMESTAMP") (zs "TIMESTAMP") ((EQUALS, [EQUALS]) :: (LEX_INT, n) :: r))).
    { intros r. unfold server_kwd. cbn [prev]. rewrite Z.eqb_refl. reflexivity. }
    rewrite loop_step. cbn [next rest prev]. rewrite at_end_kw, err_kw, K. clear K.
    assert (Q : timestamp_kwd c1 (mkStrm (kw E "TIMESTAMP") (zs "TIMESTAMP") ((EQUALS, [EQUALS]) :: (LEX_INT, n) ::
        match u with [] => [] | _ => [(LEX_STR, u)] end ++ [(LEX_EOL, [LF]); (LEX_EOF, [])])) =
      Ok (set_tstamp c1 (number n * m), None, match u with [] => mkStrm LEX_EOL [LF] [(LEX_EOF, [])] | _ => mkStrm LEX_STR u [(LEX_EOL, [LF]); (LEX_EOF, [])] end)).
    { unfold timestamp_kwd, eq_val. cbn [next rest prev text].
      rewrite Z.eqb_refl. cbn [next rest prev text]. change (LEX_INT =? LEX_INT) with true. cbn [negb]. rewrite atoi_digits by auto. cbn [bind].
      destruct (Z.ltb_spec (number n) 0); [lia|].
      destruct U as [[-> ->]|(x & -> & U)].
      + cbn [app next rest prev text]. change (at_end LEX_EOL) with true. cbn [bind]. destruct (Z.ltb_spec (number n) 0); [lia|]. rewrite Z.mul_1_r. reflexivity.
      + cbn [app next rest prev text]. change (at_end LEX_STR) with false. change (LEX_STR =? LEX_STR) with true.
        assert (M0 : 0 <= number n * m) by (unfold unit_of in U; nia).
        assert (Q : times (number n) m = Ok (number n * m)) by (unfold times; destruct (Z.leb_spec (number n * m) INT_MAX); [reflexivity|lia]).
        cbn iota. rewrite (unit_val (number n) x m U MX), Q. cbn [bind]. destruct (Z.ltb_spec (number n * m) 0); [lia|]. reflexivity. }
    rewrite Q. cbn [bind]. destruct U as [[-> ->]|(x & -> & U)]; reflexivity.
  - split; [|repeat split]. same_table "TIMESTAMP"%string.
Qed.

(** ** Without SERVER lines *)
(** What is in force when the file says nothing. *)
Theorem C114_defaults : forall E lo so io f c', plain_text E f -> ~ In (kw E "SERVER") (map fst (tokens_of E f)) ->
  process_config E (create_server_conf E lo so io) f = Ok c' ->
  table c' =
  [("COREDUMP", SBool false); ("COREDUMPDIR", SText None); ("EXECPATH", SText None); ("KEEPALIVE", SBool true); ("LOGDIR", SText (Some (e_cwd E)));
   ("LOGFILE", SLog None 6); ("LOOPBACK", SBool true); ("NOFILE", SNum 0); ("PIDFILE", SText None); ("PORT", SNum 7890);
   ("RESETCMD", SText None); ("SYSLOG", SNum (-1)); ("TCPWRAPPERS", SBool false); ("TIMESTAMP", SNum 0)]%string.
Proof.
  intros E lo so io f c' P N H. unfold process_config in H. destruct (read_config _ _ f) as [c1|] eqn:R; cbn [bind] in H; [|discriminate].
  rewrite read_config_tokens in R by auto. pose proof (shown_unset E _ _ c1 N R) as S.
  assert (TB : table c1 = table (create_server_conf E lo so io)).
  { unfold table. pose proof (S "COREDUMP"%string) as S1. pose proof (S "COREDUMPDIR"%string) as S2. pose proof (S "EXECPATH"%string) as S3. pose proof (S "KEEPALIVE"%string) as S4.
    pose proof (S "LOGDIR"%string) as S5. pose proof (S "LOGFILE"%string) as S6. pose proof (S "LOOPBACK"%string) as S7. pose proof (S "NOFILE"%string) as S8.
    pose proof (S "PIDFILE"%string) as S9. pose proof (S "PORT"%string) as S10. pose proof (S "RESETCMD"%string) as S11. pose proof (S "SYSLOG"%string) as S12.
    pose proof (S "TCPWRAPPERS"%string) as S13. pose proof (S "TIMESTAMP"%string) as S14. unfold shown, table in *. cbn [look String.eqb Ascii.eqb Bool.eqb] in *.
    congruence. }
  assert (PT : c_port c1 = -1). { specialize (S "PORT"%string). unfold shown, table in S. cbn in S. congruence. }
  rewrite PT in H. cbn [Z.ltb Z.compare] in H. injection H as <-.
  assert (TB2 : table (set_port c1 CONMAN_PORT) = map (fun p => if String.eqb (fst p) "PORT" then (fst p, SNum CONMAN_PORT) else p) (table c1)) by reflexivity.
  rewrite TB2, TB. reflexivity.
Qed.

(** ** The first line that decides (C52) *)
Lemma says_all_port E fx st kvs st' : says_all E fx st kvs st' -> ~ fx "PORT"%string ->
  forall n, last_val "PORT" kvs = Some (VNum n) -> st' "PORT"%string = SNum (number n) /\ numeral n.
Proof.
  intros H NF. assert (G : match last_val "PORT" kvs with Some (VNum n) => st' "PORT"%string = SNum (number n) /\ numeral n | None => st' "PORT"%string = st "PORT"%string | _ => False end).
  { induction H as [st|st k v w kvs st' Y H IH]; [reflexivity|]. cbn [last_val].
    assert (X : match (if String.eqb "PORT" k then Some v else None) with
                | Some (VNum n) => put_in st k w "PORT"%string = SNum (number n) /\ numeral n | None => put_in st k w "PORT"%string = st "PORT"%string | _ => False end).
    { unfold put_in. destruct (String.eqb_spec "PORT" k) as [<-|NE]; [|reflexivity].
      inversion Y; subst; try (cbn in *; intuition discriminate); auto; try contradiction. all: cbn in *; intuition discriminate. }
    destruct (last_val "PORT" kvs) as [[s|n|u]|]; try exact IH.
    destruct (if String.eqb "PORT" k then Some v else None) as [[s'|n'|u']|]; try exact X; rewrite IH; exact X. }
  intros n LV. rewrite LV in G. exact G.
Qed.
Lemma says_all_pid E fx st kvs st' : says_all E fx st kvs st' -> ~ fx "PIDFILE"%string ->
  forall s, last_val "PIDFILE" kvs = Some (VStr s) -> exists p, from_cwd E s p /\ st' "PIDFILE"%string = SText (Some p).
Proof.
  intros H NF. assert (G : match last_val "PIDFILE" kvs with Some (VStr s) => exists p, from_cwd E s p /\ st' "PIDFILE"%string = SText (Some p) | None => st' "PIDFILE"%string = st "PIDFILE"%string | _ => False end).
  { induction H as [st|st k v w kvs st' Y H IH]; [reflexivity|]. cbn [last_val].
    assert (X : match (if String.eqb "PIDFILE" k then Some v else None) with
                | Some (VStr s) => exists p, from_cwd E s p /\ put_in st k w "PIDFILE"%string = SText (Some p) | None => put_in st k w "PIDFILE"%string = st "PIDFILE"%string | _ => False end).
    { unfold put_in. destruct (String.eqb_spec "PIDFILE" k) as [<-|NE]; [|reflexivity].
      inversion Y; subst; try (cbn in *; intuition discriminate); eauto; try contradiction. all: cbn in *; intuition discriminate. }
    destruct (last_val "PIDFILE" kvs) as [[s|n|u]|]; try exact IH.
    destruct (if String.eqb "PIDFILE" k then Some v else None) as [[s'|n'|u']|]; try exact X; rewrite IH; exact X. }
  intros n LV. rewrite LV in G. exact G.
Qed.
(** The first line with a port (a PID file) decides, whatever other settings are on it; on
    a line with an error, what precedes the error counts. *)
Theorem C52_first_line_settings : forall E c pre c1 good bad post c' st,
  whole_lines E pre -> plain_text E post -> read_config E c pre = Ok c1 ->
  plain_text E (directive "SERVER" (good ++ bad)) -> Forall (fun kv => In (fst kv) conf_words /\ value_ok E (snd kv)) (good ++ bad) ->
  says_all E (decided c1) (shown c1) good st ->
  (bad = [] \/ exists k v more, bad = (k, v) :: more /\ refused E k v /\ ~ In "TIMESTAMP"%string (map fst more)) ->
  process_config E c (pre ++ directive "SERVER" (good ++ bad) ++ post) = Ok c' ->
  (c_port c < 0 -> ~ In (kw E "PORT") (map fst (tokens_of E pre)) ->
     forall n, last_val "PORT" good = Some (VNum n) -> c_port c' = number n) /\
  (c_pidfile c = None -> ~ In (kw E "PIDFILE") (map fst (tokens_of E pre)) ->
     forall s, last_val "PIDFILE" good = Some (VStr s) -> exists p, from_cwd E s p /\ c_pidfile c' = Some p).
Proof.
  intros E c pre c1 good bad post c' st WP PP R1 PL KV SA B H.
  apply default_port in H. destruct H as (c2 & R2 & PD & PT & _).
  assert (KV' : Forall (fun kv => is_kw E (fst kv) /\ value_ok E (snd kv)) (good ++ bad)).
  { eapply Forall_impl; [|exact KV]. intros a [A V]. split; [apply kws_ok; cbn in A |- *; tauto|exact V]. }
  assert (NT : Forall (fun kv => kw E (fst kv) <> kw E "TIMESTAMP") (good ++ bad)).
  { apply Forall_app. split.
    - eapply Forall_impl; [|exact (says_all_kws _ _ _ _ _ SA)]. intros a [A _]. apply (setting_known E _ A).
    - destruct B as [->|(k & v & more & -> & RF & NM)]; [constructor|]. constructor; [apply (refused_kws E k v RF)|].
      apply Forall_forall. intros [k0 v0] I. apply Forall_app in KV. destruct KV as [_ KV]. inversion KV as [|? ? _ KV2]; subst. rewrite Forall_forall in KV2. destruct (KV2 _ I) as [A _].
      cbn [fst] in *. assert (NE : k0 <> "TIMESTAMP"%string) by (intros ->; apply NM; apply in_map_iff; eexists; split; [|exact I]; reflexivity).
      clear - A NE. cbn in A. destruct E as [? ? ? ? ? ? ? [] ? ? ? ? ?];
        repeat (destruct A as [<-|A]; [try congruence; try (vm_compute; congruence)|]); destruct A. }
  assert (WL : whole_lines E (directive "SERVER" (good ++ bad))).
  { apply line_whole; auto; [apply kws_ok; cbn; tauto|clear; destruct E as [? ? ? ? ? ? ? [] ? ? ? ? ?]; vm_compute; congruence]. }
  assert (L : exists c3, read_config E c1 (directive "SERVER" (good ++ bad)) = Ok c3 /\ (forall k, shown c3 k = st k)).
  { destruct B as [->|(k & v & more & -> & RF & _)].
    - rewrite app_nil_r in *. destruct (good_line E c1 good st PL) as (_ & _ & c3 & R3 & T & _); eauto. eapply Forall_impl; [|exact KV]. intros a [_ A]. exact A.
    - destruct (bad_line E c1 good k v more st PL KV' SA RF) as (c3 & e & R3 & T & _). eauto. }
  destruct L as (c3 & R3 & T).
  rewrite C51_lines_partial in R2 by (auto using plain_app). rewrite R1 in R2. cbn [bind] in R2. rewrite C51_lines_partial in R2 by auto. rewrite R3 in R2. cbn [bind] in R2.
  apply ports_kept in R2. destruct R2 as [K1 K2]. split.
  - intros NP NI n LV. assert (P1 : c_port c1 = c_port c) by (rewrite read_config_tokens in R1 by apply WP; eapply port_unset; eauto).
    destruct (says_all_port _ _ _ _ _ SA) with (n := n) as [Q (_ & DG & _)]; [intros D; apply fixed_port in D; apply Z.leb_le in D; lia|exact LV|].
    rewrite <- T in Q. unfold shown, table in Q. cbn in Q. injection Q as Q. pose proof (number_nonneg n DG) as NN.
    rewrite PT, K1 by lia. destruct (Z.ltb_spec (c_port c3) 0); [lia|exact Q].
  - intros NP NI s LV. assert (P1 : c_pidfile c1 = c_pidfile c) by (rewrite read_config_tokens in R1 by apply WP; eapply pid_unset; eauto).
    destruct (says_all_pid _ _ _ _ _ SA) with (s := s) as (p & FC & Q); [intros D; apply fixed_pid in D; rewrite P1, NP in D; discriminate|exact LV|].
    rewrite <- T in Q. unfold shown, table in Q. cbn in Q. injection Q as Q. exists p. split; [exact FC|]. rewrite PD, K2; congruence.
Qed.
(** The first of these lines ends with an error, the second is too late. *)
Example C52_first_settings_example :
  match process_config ex c0 (directive "SERVER" ([("PORT"%string, VNum (zs "1")); ("SYSLOG"%string, VStr (zs "local3")); ("PORT"%string, VNum (zs "22"))] ++
      [("LOOPBACK"%string, VStr (zs "ON")); ("PORT"%string, VNum (zs "3"))]) ++ directive "SERVER" [("PORT"%string, VNum (zs "4"))]) with
  | Ok c => Some (c_port c, c_syslog c, c_errs c) | _ => None end = Some (22, 152, [EKind (kw ex "LOOPBACK")]) /\
  refused ex "LOOPBACK" (VStr (zs "ON")).
Proof. split; [vm_compute; reflexivity|]. apply X_switch; [cbn; tauto|discriminate]. Qed.

(** ** Examples *)
Definition kvs1 : list (string * value) :=
  [("LOGDIR"%string, VStr (zs "log")); ("LOGFILE"%string, VStr (zs "conmand.log, Warning")); ("LOOPBACK"%string, VWord "OFF"); ("COREDUMPDIR"%string, VStr (zs "/opt"));
   ("SYSLOG"%string, VStr (zs "local3")); ("NOFILE"%string, VNum (zs "1024")); ("RESETCMD"%string, VStr (zs "reset %N"))].
Definition shows (r : res conf) (ks : list string) : option (list sval * list cerr) :=
  match r with Ok c => Some (map (shown c) ks, c_errs c) | UB _ => None end.
Example C114_example : exists c1 st, read_config ex c0 lines1 = Ok c1 /\ whole_lines ex lines1 /\ plain_text ex (directive "SERVER" kvs1) /\ Forall (fun kv => value_ok ex (snd kv)) kvs1 /\
  says_all ex (decided c1) (shown c1) kvs1 st /\
  map st ["LOGDIR"; "LOGFILE"; "LOOPBACK"; "COREDUMPDIR"; "SYSLOG"; "NOFILE"; "RESETCMD"; "PORT"; "KEEPALIVE"]%string =
  [SText (Some (zs "/etc/log")); SLog (Some (zs "/etc/log/conmand.log")) 4; SBool false; SText (Some (zs "/opt")); SNum 152; SNum 1024;
   SText (Some (zs "reset %N")); SNum 1234; SBool true].
Proof.
  destruct (read_config ex c0 lines1) as [c1|] eqn:R; [|vm_compute in R; discriminate].
  exists c1. eexists. split; [reflexivity|]. split; [apply whole_ok; reflexivity|]. split; [apply plain_ok; reflexivity|]. split.
  { unfold kvs1. repeat apply Forall_cons; try apply Forall_nil; cbn [snd value_ok]; try (apply quotable_zs; [reflexivity|apply Nat.ltb_lt; reflexivity]).
    - right. left. reflexivity.
    - split; [discriminate|]. split; [repeat constructor; vm_compute; congruence|]. apply Nat.ltb_lt. vm_compute. reflexivity. }
  split.
  { assert (LD : c_logdir c1 = zs "/etc") by (vm_compute in R; injection R as <-; reflexivity). unfold kvs1.
    econstructor; [apply (Y_logdir _ _ _ (zs "log") (zs "/etc/log")); [apply not_blank; reflexivity|right; split; [intros t H; discriminate|reflexivity]]|].
    econstructor.
    { apply (Y_logfile_level ex _ _ (zs "conmand.log") (zs " Warning") (zs "/etc/log") (zs "/etc/log/conmand.log") 4).
      - reflexivity.
      - right. split; [intros t H; discriminate|reflexivity].
      - apply zs_notin. reflexivity.
      - exists [SPACE], (zs "Warning"), ["warn"; "warning"]%string, "warning"%string. split; [reflexivity|]. split; [repeat constructor|]. split; [cbn; tauto|]. split; [cbn; tauto|reflexivity]. }
    econstructor; [apply Y_off; [cbn; tauto|discriminate]|].
    econstructor; [apply (Y_core _ _ _ (zs "/opt") (zs "/opt") (zs "/opt")); [apply not_blank; reflexivity|reflexivity|left; split; [eexists; reflexivity|reflexivity]|]|].
    { split; [discriminate|]. split; [exists 0%nat; reflexivity|]. right. intros r H. apply (f_equal (fun l => last l 0)) in H. rewrite last_last in H. discriminate. }
    econstructor; [apply (Y_syslog _ _ _ _ 152); exists [], (zs "local3"), ["local3"]%string, "local3"%string; split; [reflexivity|]; split; [constructor|]; split; [cbn; tauto|]; split; [cbn; tauto|reflexivity]|].
    econstructor; [apply Y_nofile; split; [discriminate|]; split; [repeat constructor; vm_compute; congruence|]; split; [apply Nat.ltb_lt; vm_compute; reflexivity|vm_compute; congruence]|].
    econstructor; [apply Y_reset; [apply not_blank; reflexivity|apply zs_notin; reflexivity]|]. constructor. }
  vm_compute in R. injection R as <-. vm_compute. reflexivity.
Qed.
Example C114_refused_example :
  shows (read_config ex c0 (directive "SERVER" ([("LOOPBACK"%string, VWord "OFF")] ++ ("SYSLOG"%string, VStr (zs "local9")) :: [("KEEPALIVE"%string, VWord "OFF")])))
    ["LOOPBACK"; "SYSLOG"; "KEEPALIVE"]%string = Some ([SBool false; SNum (-1); SBool true], [EValue (kw ex "SYSLOG")]) /\
  refused ex "SYSLOG" (VStr (zs "local9")).
Proof.
  split; [vm_compute; reflexivity|]. apply X_syslog. intros n H. assert (Q : lookup_tag (e_iso ex) logFacilities (zs "local9") = Ok n /\ 0 <= n).
  { eapply lookup_tag_ok; [apply fac_agree|apply plain_ok; reflexivity|exact H]. }
  destruct Q as [Q NN]. vm_compute in Q. injection Q as <-. lia.
Qed.
Example C114_timestamp_example : shows (read_config ex c0 (lines1 ++ stamp_line (zs "90") (zs "h"))) ["TIMESTAMP"%string] = Some ([SNum 5400], [EToken (zs "BOGUS")]).
Proof. vm_compute. reflexivity. Qed.

(** ** What does not hold *)
(** A file name with a priority that does not exist is reported, but the name takes the
    place of the one that was in force. *)
Theorem C114_logfile_refuted :
  shows (read_config ex c0 (file ["SERVER LOGFILE=""/log/a,info"""]%string)) ["LOGFILE"%string] = Some ([SLog (Some (zs "/log/a")) 6], []) /\
  shows (read_config ex c0 (file ["SERVER LOGFILE=""/log/a,info"""; "SERVER LOGFILE=""/log/b,bogus"""]%string)) ["LOGFILE"%string] =
    Some ([SLog (Some (zs "/log/b")) 6], [EValue (kw ex "LOGFILE")]).
Proof. split; vm_compute; reflexivity. Qed.
(** With a comma in the name of the directory for logs, a file name without priority is
    rejected and the log goes elsewhere. *)
Theorem C114_logdir_comma_refuted :
  shows (read_config ex c0 (file ["SERVER LOGDIR=""/log,x"""; "SERVER LOGFILE=""a"""]%string)) ["LOGFILE"%string] =
    Some ([SLog (Some (zs "/log")) 6], [EValue (kw ex "LOGFILE")]).
Proof. vm_compute. reflexivity. Qed.
(** An interval with an unknown unit is reported, but switches the timestamps off. *)
Theorem C114_unit_refuted :
  shows (read_config ex c0 (file ["SERVER TIMESTAMP=1h"; "SERVER TIMESTAMP=2w"]%string)) ["TIMESTAMP"%string] =
    Some ([SNum 0], [EValue (kw ex "TIMESTAMP")]).
Proof. vm_compute. reflexivity. Qed.
(** An interval that does not fit in an int once it is in minutes is undefined behaviour. *)
Theorem C114_interval_refuted :
  read_config ex c0 (file ["SERVER TIMESTAMP=1500000d"]%string) = UB SignedOverflow.
Proof. vm_compute. reflexivity. Qed.

Print Assumptions C114_line.
Print Assumptions C114_refused.
Print Assumptions C114_timestamp.
Print Assumptions C114_defaults.
Print Assumptions C114_logfile_refuted.
Print Assumptions C114_logdir_comma_refuted.
Print Assumptions C114_unit_refuted.
Print Assumptions C114_interval_refuted.
Print Assumptions C52_first_line_settings.
