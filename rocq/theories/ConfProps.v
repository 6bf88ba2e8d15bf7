(** C51: lines.  C52: command line and file.  C76: device strings.  C77: console
    definitions.  C78: defaults.  C79: signalling a running daemon. *)
From Coq Require Import String.
From Verif Require Import Base BaseProof Chars Fmt LexModel StrModel FnameModel FnameSpec FnameProof OptModel StrSpec StrProof QuerySpec QueryProof LexSpec LexProof
  ConfModel ConfSpec ConfLex ConfLines ConfProof ConfText ConfDev ConfEffect.
Local Open Scope Z_scope.
Local Open Scope list_scope.

(** ** An example environment *)
Definition files (p : list Z) : ftype :=
  if existsb (list_eqb p) (map zs ["/bin"; "/opt"; "/opt/tool"]%string) then Dir
  else if existsb (list_eqb p) (map zs ["/bin/ssh"; "/bin/tool"]%string) then Reg
  else if existsb (list_eqb p) (map zs ["/dev/ttyS0"; "/dev/ttyS1"]%string) then Chr else NoFile.
Definition env_lib : lib :=
  mkLib (fun s => (List.length s <? 17)%nat) (fun s => (List.length s <? 21)%nat) (fun k => (List.length k <? 21)%nat)
    (fun v => (2 <=? v) && (v <=? 4)) (fun v => (0 <=? v) && (v <=? 17)) (fun v => v <? 1024) 2 3 4 4294967295 [].
Definition envx (dbg : bool) : env :=
  mkEnv dbg false (zs "/etc") files (fun _ => true) (fun p => match files p with NoFile => false | _ => true end) 107 true true (fun z => z)
    env_lib 42 (fun _ => zs "01").
Definition ex : env := envx false.
Definition c0 : conf := create_server_conf ex (mkLogopt true false false) (mkSer 9600 8 0 1) (init_ipmi_opts env_lib 17 21 21).
Definition file (l : list string) : list Z := flat_map (fun s => zs s ++ [LF]) l.
(** what can be seen of the outcome *)
Definition seen (r : res conf) : option (list cobj * list cerr * Z) :=
  match r with Ok c => Some (c_objs c, c_errs c, c_port c) | UB _ => None end.

(** ** C51 *)
(** Reading lines one after the other: the first lines have the same effect whatever
    follows, and what follows is read as if it were a file of its own. *)
Theorem C51_lines_partial : forall E c a b, whole_lines E a -> plain_text E b ->
  read_config E c (a ++ b) = do c1 <- read_config E c a; read_config E c1 b.
Proof.
  intros E c a b (PA & [->|[L T]]) PB; [|apply read_lines; auto]. cbn [app].
  assert (R0 : read_config E c [] = Ok c).
  { rewrite read_config_tokens by (split; [constructor|intros; constructor]). reflexivity. }
  rewrite R0. reflexivity.
Qed.
(** A line that begins with anything but a directive is reported and has no effect. *)
Theorem C51_unknown_line : forall E c a k x, one_line E a k x ->
  k <> kw E "CONSOLE" -> k <> kw E "GLOBAL" -> k <> kw E "SERVER" -> k <> LEX_ERR ->
  read_config E c a = Ok (add_err c (EToken x)).
Proof.
  intros E c a k x (P & ts & t & ET & F) N1 N2 N3 N4. rewrite read_config_tokens, ET by auto.
  inversion F as [|? ? [NL NF] F']; subst. cbn [fst] in *.
  unfold parse_toks, fuel_of. cbn [rest length]. rewrite app_length. cbn [length]. rewrite Nat.add_comm. cbn [Nat.add config_loop next rest prev text].
  assert (B : forall v, k <> v -> (k =? v) = false) by (intros v H; apply Z.eqb_neq; auto). rewrite !B by auto.
  assert (SK : forall ts k x, at_end k = false -> Forall (fun p : Z * list Z => fst p <> LEX_EOL /\ fst p <> LEX_EOF) ts ->
    skip_toks k x (ts ++ [(LEX_EOL, t); (LEX_EOF, [])]) = mkStrm LEX_EOL t [(LEX_EOF, [])]).
  { clear. induction ts as [|[k1 x1] ts IH]; intros k x A F; cbn [app skip_toks]; rewrite A; [reflexivity|].
    inversion F as [|? ? [H1 H2] F']; subst. apply IH; auto. unfold at_end. cbn [fst] in *. rewrite orb_false_iff, !Z.eqb_neq. auto. }
  unfold skip_line. cbn [prev text rest]. assert (AE : at_end k = false) by (unfold at_end; rewrite orb_false_iff, !Z.eqb_neq; auto).
  rewrite (SK ts k x AE F').
  reflexivity.
Qed.
(** A blank line, or one with only a comment, has no effect. *)
Theorem C51_blank_line : forall E c a t, plain_text E a -> tokens_of E a = [(LEX_EOL, t); (LEX_EOF, [])] -> read_config E c a = Ok c.
Proof.
  intros E c a t P ET. rewrite read_config_tokens, ET by auto. unfold parse_toks, fuel_of. cbn [rest length config_loop next prev].
  rewrite !eol_kw. reflexivity.
Qed.
(** Errors that have been reported stay reported. *)
Theorem C51_errors_kept : forall E c f c', read_config E c f = Ok c' -> exists more, c_errs c' = c_errs c ++ more.
Proof. intros E c f c' H. exact (errs_kept E c f c' H). Qed.
Theorem C51_process_lines_partial : forall E c a b, whole_lines E a -> plain_text E b ->
  process_config E c (a ++ b) = do c1 <- read_config E c a; process_config E c1 b.
Proof.
  intros E c a b A B. unfold process_config. rewrite C51_lines_partial by auto. destruct (read_config E c a); reflexivity.
Qed.

Definition plain_b (s : list Z) : bool := forallb (fun c => (1 <=? c) && (c <? 256)) s.
Lemma plain_ok E s : e_iso E = false -> plain_b s = true -> plain_text E s.
Proof.
  intros I H. split; [|congruence]. unfold chars_ok. apply Forall_forall. intros c IC. unfold plain_b in H. rewrite forallb_forall in H.
  specialize (H _ IC). unfold char_ok. lia.
Qed.
Definition stamp_at (E : env) (ts : list (Z * list Z)) : bool :=
  match ts with
  | (a, _) :: (b, _) :: (c, _) :: (d, _) :: _ => (a =? kw E "TIMESTAMP") && (b =? EQUALS) && (c =? LEX_INT) && (d =? LEX_EOL)
  | _ => false
  end.
Fixpoint has_stamp (E : env) (ts : list (Z * list Z)) : bool :=
  match ts with [] => false | _ :: t => stamp_at E ts || has_stamp E t end.
Lemma no_stamp E a : has_stamp E (tokens_of E a) = false -> ~ bare_timestamp E a.
Proof.
  intros H (b & af & x1 & x2 & n & x4 & EQ). rewrite EQ in H. clear EQ. induction b as [|p b IH]; cbn [app has_stamp] in H;
    apply orb_false_iff in H; destruct H as [H1 H2].
  - cbn [stamp_at] in H1. rewrite !Z.eqb_refl in H1. discriminate.
  - apply IH. exact H2.
Qed.
Definition ends_b (a : list Z) : bool :=
  match rev a with
  | c :: d :: e :: _ => (c =? LF) && negb (d =? BACKSLASH) && negb ((d =? CR) && (e =? BACKSLASH))
  | _ => false
  end.
Lemma ends_ok a : ends_b a = true -> ends_line a.
Proof.
  unfold ends_b. intros H. rewrite <- (rev_involutive a). destruct (rev a) as [|c [|d [|e r]]]; try discriminate.
  apply andb_prop in H. destruct H as [H H3]. apply andb_prop in H. destruct H as [H1 H2]. apply Z.eqb_eq in H1. subst c.
  exists (rev (d :: e :: r)). split; [reflexivity|]. intros q. split; intros EQ.
  - apply (f_equal (@rev Z)) in EQ. rewrite rev_involutive, rev_app_distr in EQ. injection EQ as -> _. discriminate.
  - apply (f_equal (@rev Z)) in EQ. rewrite rev_involutive, rev_app_distr in EQ. injection EQ as -> -> _. discriminate.
Qed.
Lemma whole_ok E a : e_iso E = false -> plain_b a = true -> ends_b a = true -> has_stamp E (tokens_of E a) = false -> whole_lines E a.
Proof. intros I P L S. split; [apply plain_ok; auto|]. right. split; [apply ends_ok; auto|apply no_stamp; auto]. Qed.

Definition lines1 : list Z := file ["# consoles"; "SERVER PORT=1234"; "CONSOLE NAME=""a"" DEV=""host:7001"""; "BOGUS"]%string.
Definition lines2 : list Z := file ["console name=""b"" \"; "  dev=""/dev/ttyS0"" seropts=""19200,7e2"""]%string.
Example C51_example : whole_lines ex lines1 /\ plain_text ex lines2 /\
  seen (process_config ex c0 (lines1 ++ lines2)) =
    Some ([OCon (zs "a") (Telnet (zs "host") 7001 true); OCon (zs "b") (Serial (zs "/dev/ttyS0") (mkSer 19200 7 2 2))],
          [EToken (zs "BOGUS")], 1234).
Proof.
  split; [apply whole_ok; reflexivity|]. split; [apply plain_ok; reflexivity|]. vm_compute. reflexivity.
Qed.
(** The line after a TIMESTAMP without unit is read as part of that line. *)
Theorem C51_timestamp_refuted :
  seen (read_config ex c0 (file ["CONSOLE NAME=""a"" DEV=""host:7001"""]%string)) =
    Some ([OCon (zs "a") (Telnet (zs "host") 7001 true)], [], -1) /\
  seen (read_config ex c0 (file ["SERVER TIMESTAMP=60"; "CONSOLE NAME=""a"" DEV=""host:7001"""]%string)) =
    Some ([], [EToken (zs "CONSOLE")], -1).
Proof. split; vm_compute; reflexivity. Qed.
(** What follows a NUL character in the file is silently left out. *)
Theorem C51_nul_refuted :
  seen (read_config ex c0 (file ["SERVER PORT=1"]%string ++ [NUL; LF] ++ file ["CONSOLE NAME=""a"" DEV=""host:7001"""]%string)) = Some ([], [], 1).
Proof. vm_compute. reflexivity. Qed.
(** A number that is out of range makes a later, correct line be rejected. *)
Theorem C51_errno_refuted :
  seen (read_config ex c0 (file ["GLOBAL TESTOPTS=""B:10"""]%string)) = Some ([], [], -1) /\
  seen (read_config ex c0 (file ["GLOBAL TESTOPTS=""B:99999999999999999999"""; "GLOBAL TESTOPTS=""B:10"""]%string)) =
    Some ([], [EValue (kw ex "TESTOPTS"); EValue (kw ex "TESTOPTS")], -1).
Proof. split; vm_compute; reflexivity. Qed.
(** Where characters are signed, the character 255 at the beginning of a line makes the
    rest of the line a new directive. *)
Theorem C51_char_255_refuted :
  seen (read_config ex c0 (255 :: file ["SERVER PORT=1"]%string)) = Some ([], [EQuote], 1).
Proof. vm_compute. reflexivity. Qed.

(** ** C52 *)
Lemma cmdline_port E : forall l c t c' t', process_cmdline E c t l = Ok (c', t') ->
  match last_port l with Some a => atoi a = Ok (c_port c') /\ 0 <= c_port c' | None => c_port c' = c_port c end.
Proof.
  induction l as [|o l IH]; intros c t c' t' H; cbn [process_cmdline last_port] in *; [injection H as <- <-; reflexivity|].
  destruct o.
  - destruct (atoi arg) as [n|] eqn:EA; cbn [bind] in H; [|discriminate]. destruct (Z.ltb_spec n 0); [discriminate|].
    apply IH in H. destruct (last_port l); [exact H|]. rewrite H. cbn. auto.
  - apply IH in H. destruct (last_port l); exact H.
  - apply IH in H. destruct (last_port l); exact H.
  - apply IH in H. destruct (last_port l); exact H.
Qed.
Lemma cmdline_pid E : forall l c t c' t', process_cmdline E c t l = Ok (c', t') ->
  match last_pid l with Some a => exists p, from_cwd E a p /\ c_pidfile c' = Some p | None => c_pidfile c' = c_pidfile c end.
Proof.
  induction l as [|o l IH]; intros c t c' t' H; cbn [process_cmdline last_pid] in *; [injection H as <- <-; reflexivity|].
  destruct o.
  - destruct (atoi arg) as [n|] eqn:EA; cbn [bind] in H; [|discriminate]. destruct (Z.ltb_spec n 0); [discriminate|].
    apply IH in H. destruct (last_pid l); exact H.
  - apply IH in H. destruct (last_pid l); [exact H|]. rewrite H. cbn. eexists. split; [|reflexivity]. unfold from_cwd, in_dir.
    destruct (absolute arg) eqn:AB; [left; split; [apply absolute_ok; auto|reflexivity]|right]. split; [|reflexivity].
    intros s ->. discriminate.
  - apply IH in H. destruct (last_pid l); exact H.
  - apply IH in H. destruct (last_pid l); exact H.
Qed.
Lemma default_port E c f c' : process_config E c f = Ok c' -> exists c1, read_config E c f = Ok c1 /\ c_pidfile c' = c_pidfile c1 /\
  c_port c' = (if c_port c1 <? 0 then CONMAN_PORT else c_port c1) /\ c_objs c' = c_objs c1 /\ c_errs c' = c_errs c1.
Proof.
  unfold process_config. destruct (read_config E c f) as [c1|]; cbn [bind]; [|discriminate]. intros X. injection X as <-. exists c1.
  destruct (c_port c1 <? 0); auto.
Qed.

(** The port given on the command line is used, whatever the file says. *)
Theorem C52_command_line_port : forall E c l f lock pids c' a,
  start E c l f lock pids = Ok (Runs c') -> last_port l = Some a -> atoi a = Ok (c_port c').
Proof.
  intros E c l f lock pids c' a H LP. unfold start in H. destruct (process_cmdline E c (-1) l) as [[c1 t]|] eqn:EC; cbn [bind] in H; [|discriminate].
  destruct (0 <=? t); [discriminate|]. destruct (process_config E c1 f) as [c2|] eqn:EP; cbn [bind] in H; [|discriminate]. injection H as <-.
  apply cmdline_port in EC. rewrite LP in EC. destruct EC as [EA P]. apply default_port in EP. destruct EP as (c3 & ER & _ & PT & _).
  apply ports_kept in ER. destruct ER as [K _]. rewrite PT, (K P). destruct (Z.ltb_spec (c_port c1) 0); [lia|exact EA].
Qed.
Theorem C52_command_line_pid : forall E c l f lock pids c' a,
  start E c l f lock pids = Ok (Runs c') -> last_pid l = Some a -> exists p, from_cwd E a p /\ c_pidfile c' = Some p.
Proof.
  intros E c l f lock pids c' a H LP. unfold start in H. destruct (process_cmdline E c (-1) l) as [[c1 t]|] eqn:EC; cbn [bind] in H; [|discriminate].
  destruct (0 <=? t); [discriminate|]. destruct (process_config E c1 f) as [c2|] eqn:EP; cbn [bind] in H; [|discriminate]. injection H as <-.
  apply cmdline_pid in EC. rewrite LP in EC. destruct EC as (p & FC & P). apply default_port in EP. destruct EP as (c3 & ER & PD & _).
  apply ports_kept in ER. destruct ER as [_ K]. exists p. split; [exact FC|]. rewrite PD, K by congruence. exact P.
Qed.
(** Otherwise the first line that says so decides. *)
Theorem C52_first_port_partial : forall E c pre n post c1 c', whole_lines E pre -> plain_text E post ->
  c_port c < 0 -> ~ In (kw E "PORT") (map fst (tokens_of E pre)) -> read_config E c pre = Ok c1 ->
  n <> [] -> Forall digit n -> (length n < LEX_MAX_STR)%nat -> number n <= INT_MAX ->
  process_config E c (pre ++ directive "SERVER" [("PORT"%string, VNum n)] ++ post) = Ok c' -> c_port c' = number n.
Proof.
  intros E c pre n post c1 c' WP PP NP NI R1 NE D L M H.
  assert (K : Forall (fun kv => is_kw E (fst kv) /\ value_ok E (snd kv)) [("PORT"%string, VNum n)]).
  { constructor; [|constructor]. split; [apply kws_ok; cbn; tauto|cbn; auto]. }
  assert (PL : plain_text E (directive "SERVER" [("PORT"%string, VNum n)])).
  { unfold directive. cbn [flat_map fst snd show]. assert (PN : forall P : Z -> Prop, (forall x, digit x -> P x) -> Forall P n) by (intros P HP; eapply Forall_impl; [|exact D]; auto).
    split.
    - unfold chars_ok. apply Forall_app. split; [repeat constructor; vm_compute; congruence|]. rewrite app_nil_r. cbn [app]. constructor; [vm_compute; split; congruence|].
      apply Forall_app. split; [|constructor; [vm_compute; split; congruence|constructor]]. apply Forall_app. split; [repeat constructor; vm_compute; congruence|].
      constructor; [vm_compute; split; congruence|]. apply PN. unfold digit, char_ok. lia.
    - intros _. apply Forall_app. split; [repeat constructor; vm_compute; congruence|]. rewrite app_nil_r. cbn [app]. constructor; [reflexivity|].
      apply Forall_app. split; [|constructor; [reflexivity|constructor]]. apply Forall_app. split; [repeat constructor; vm_compute; congruence|].
      constructor; [reflexivity|]. apply PN. unfold digit. lia. }
  assert (WL : whole_lines E (directive "SERVER" [("PORT"%string, VNum n)])).
  { split; [exact PL|]. right. split; [eapply directive_ends; [exact K|apply kws_ok; cbn; tauto]|].
    intros (b & af & x1 & x2 & m & x4 & EQ). rewrite directive_toks in EQ; [|apply kws_ok; cbn; tauto|exact K|apply PL].
    assert (I : In (kw E "TIMESTAMP") (map fst (((kw E "SERVER", zs "SERVER") :: flat_map (pair_toks E) [("PORT"%string, VNum n)] ++ [(LEX_EOL, [LF]); (LEX_EOF, [])])))).
    { rewrite EQ, !map_app. apply in_or_app. right. left. reflexivity. }
    cbn [flat_map pair_toks app map fst snd val_tok In] in I. revert I. destruct E as [? ? ? ? ? ? ? [] ? ? ? ? ?]; vm_compute; intuition congruence. }
  apply default_port in H. destruct H as (c2 & R2 & _ & PT & _).
  rewrite C51_lines_partial in R2; [|exact WP|].
  2:{ destruct PL as [A1 A2], PP as [B1 B2]. split; [apply Forall_app; auto|]. intros I. apply Forall_app. auto. }
  rewrite R1 in R2. cbn [bind] in R2. rewrite C51_lines_partial in R2 by auto.
  assert (P1 : c_port c1 = c_port c).
  { rewrite read_config_tokens in R1 by apply WP. eapply port_unset; eauto. }
  rewrite (server_line E c1 [("PORT"%string, VNum n)] (set_port c1 (number n))) in R2; auto.
  - cbn [bind] in R2. apply ports_kept in R2. destruct R2 as [K2 _]. assert (NN : 0 <= number n) by (apply number_nonneg; auto).
    assert (NP2 : 0 <= c_port (set_port c1 (number n))) by exact NN. rewrite PT, (K2 NP2). change (c_port (set_port c1 (number n))) with (number n).
    destruct (Z.ltb_spec (number n) 0); [lia|reflexivity].
  - constructor; [cbn; tauto|constructor].
  - econstructor; [|constructor]. cbn [val_tok fst snd]. unfold server_val. decide_kw. change (LEX_INT =? LEX_INT) with true. cbn [negb].
    rewrite atoi_digits by auto. cbn [bind]. assert (NN : 0 <= number n) by (apply number_nonneg; auto). destruct (Z.ltb_spec (number n) 0); [lia|].
    destruct (Z.leb_spec 0 (c_port c1)); [lia|]. reflexivity.
Qed.
Lemma line_whole E d kvs : plain_text E (directive d kvs) -> is_kw E d -> Forall (fun kv => is_kw E (fst kv) /\ value_ok E (snd kv)) kvs ->
  kw E d <> kw E "TIMESTAMP" -> Forall (fun kv => kw E (fst kv) <> kw E "TIMESTAMP") kvs -> whole_lines E (directive d kvs).
Proof.
  intros P KD K ND NK. split; [exact P|]. right. split; [eapply directive_ends; eauto|].
  intros (b & af & x1 & x2 & m & x4 & EQ). rewrite directive_toks in EQ; [|exact KD|exact K|apply P].
  assert (I : In (kw E "TIMESTAMP") (map fst ((kw E d, zs d) :: flat_map (pair_toks E) kvs ++ [(LEX_EOL, [LF]); (LEX_EOF, [])]))).
  { rewrite EQ, !map_app. apply in_or_app. right. left. reflexivity. }
  cbn [map fst] in I. destruct I as [I|I]; [auto|]. rewrite map_app in I. apply in_app_or in I. destruct I as [I|I].
  2:{ cbn [map fst In] in I. destruct I as [I|[I|[]]]; (eapply kw_neq; [|symmetry; exact I]); cbn; auto. }
  apply in_map_iff in I. destruct I as ([k x] & EK & I). cbn [fst] in EK. subst k. apply in_flat_map in I. destruct I as ([kk v] & IK & I).
  rewrite Forall_forall in NK, K. specialize (NK _ IK). specialize (K _ IK). cbn [fst snd] in *. unfold pair_toks in I. cbn [In fst snd] in I.
  destruct I as [I|[I|[I|[]]]].
  - apply NK. congruence.
  - injection I as I _. revert I. apply not_eq_sym. apply kw_neq. cbn. auto 10.
  - destruct v; cbn [val_tok] in I; injection I as I _.
    + revert I. apply not_eq_sym. apply kw_neq. cbn. auto 10.
    + revert I. apply not_eq_sym. apply kw_neq. cbn. auto 10.
    + destruct K as [_ K]. cbn [value_ok In] in K. revert I. clear - K. destruct E as [? ? ? ? ? ? ? [] ? ? ? ? ?]; destruct K as [<-|[<-|[]]]; vm_compute; congruence.
Qed.
Definition pid_of (E : env) (s : list Z) : list Z := if absolute s then s else (e_cwd E ++ SLASH :: s)%list.
Lemma server_steps E b1 b2 : forall kvs c, Forall server_pair kvs ->
  Forall (fun kv => match snd kv with VStr s => plain_text E s | _ => True end) kvs ->
  exists c', steps E (server_val E b1 b2) c kvs c' /\
    c_port c' = (if b2 then c_port c else match last_val "PORT" kvs with Some (VNum n) => number n | _ => c_port c end) /\
    c_pidfile c' = (if b1 then c_pidfile c else match last_val "PIDFILE" kvs with Some (VStr s) => Some (pid_of E s) | _ => c_pidfile c end).
Proof.
  induction kvs as [|[k v] kvs IH]; intros c F P.
  { exists c. split; [constructor|]. cbn. destruct b1, b2; auto. }
  inversion F as [|? ? SP F']; subst. inversion P as [|? ? PV P']; subst. cbn [fst snd] in *.
  assert (X : exists c1, server_val E b1 b2 (kw E k) c (fst (val_tok E v)) (snd (val_tok E v)) = Ok (c1, None) /\
    c_port c1 = (if b2 then c_port c else if String.eqb "PORT" k then match v with VNum n => number n | _ => c_port c end else c_port c) /\
    c_pidfile c1 = (if b1 then c_pidfile c else if String.eqb "PIDFILE" k then match v with VStr s => Some (pid_of E s) | _ => c_pidfile c end else c_pidfile c) /\
    (k = "PORT"%string -> exists n, v = VNum n) /\ (k = "PIDFILE"%string -> exists s, v = VStr s)).
  { destruct v as [s|n|w]; cbn [server_pair fst snd val_tok] in *.
    - destruct SP as (Q & [I|[(-> & B)|(-> & B & A)]]).
      + assert (L : (PATH_MAX <=? length s)%nat = false).
        { apply Nat.leb_gt. destruct Q as (_ & _ & _ & L). eapply Nat.lt_trans; [exact L|]. apply Nat.ltb_lt. vm_compute. reflexivity. }
        destruct I as [<-|[<-|[]]]; (eexists; split; [unfold server_val; decide_kw; change (LEX_STR =? LEX_STR) with true; cbn [negb];
          rewrite ?L, is_empty_ok by exact PV; cbn [bind]; reflexivity|]).
        all: split; [destruct b2; reflexivity|]. all: split; [destruct b1; reflexivity|]. all: split; discriminate.
      + eexists. split; [unfold server_val; decide_kw; rewrite full_ok by auto; cbn [bind negb]; reflexivity|].
        split; [destruct b1, b2; reflexivity|]. split; [destruct b1; reflexivity|]. split; [discriminate|eauto].
      + eexists. split; [unfold server_val; decide_kw; rewrite full_ok by auto; cbn [bind negb]|].
        { assert (has_char AMP s = false) as ->; [|reflexivity]. unfold has_char. destruct (existsb (Z.eqb AMP) s) eqn:X; [|reflexivity].
          exfalso. apply existsb_exists in X. destruct X as (z & I & X). apply Z.eqb_eq in X. apply A. subst z. exact I. }
        split; [destruct b2; reflexivity|]. split; [destruct b1; reflexivity|]. split; discriminate.
    - destruct SP as (I & NE & D & L & M). pose proof (number_nonneg n D) as NN.
      destruct I as [<-|[<-|[]]]; (eexists; split; [unfold server_val; decide_kw; change (LEX_INT =? LEX_INT) with true; cbn [negb];
        rewrite atoi_digits by auto; cbn [bind]; try (destruct (Z.ltb_spec (number n) 0); [lia|]); reflexivity|]).
      + split; [destruct b2; reflexivity|]. split; [destruct b1; reflexivity|]. split; discriminate.
      + split; [destruct b2; reflexivity|]. split; [destruct b1, b2; reflexivity|]. split; [eauto|discriminate].
    - destruct SP as (I & W). destruct I as [<-|[<-|[<-|[]]]]; destruct W as [<-|[<-|[]]];
        (eexists; split; [unfold server_val, on_off; decide_kw; reflexivity|]).
      all: split; [destruct b2; reflexivity|]. all: split; [destruct b1; reflexivity|]. all: split; discriminate. }
  destruct X as (c1 & X & P1 & P2 & K1 & K2). destruct (IH c1 F' P') as (c2 & S & Q1 & Q2).
  exists c2. split; [econstructor; [exact X|exact S]|]. rewrite Q1, Q2. cbn [last_val]. split.
  - destruct b2; [exact P1|]. destruct (last_val "PORT" kvs) as [[s|n|w]|] eqn:LV; rewrite ?P1; try reflexivity.
    + exfalso. clear - F' LV. induction kvs as [|[k0 v0] kvs IH]; [discriminate|]. inversion F' as [|? ? SP F2]; subst. cbn [last_val] in LV.
      destruct (last_val "PORT" kvs); [injection LV as ->; auto|]. destruct (String.eqb_spec "PORT" k0) as [<-|]; [|discriminate]. injection LV as ->.
      cbn in SP. destruct SP as (_ & [I|[(I & _)|(I & _)]]); [|discriminate|discriminate]. intuition discriminate.
    + exfalso. clear - F' LV. induction kvs as [|[k0 v0] kvs IH]; [discriminate|]. inversion F' as [|? ? SP F2]; subst. cbn [last_val] in LV.
      destruct (last_val "PORT" kvs); [injection LV as ->; auto|]. destruct (String.eqb_spec "PORT" k0) as [<-|]; [|discriminate]. injection LV as ->.
      cbn in SP. destruct SP as (I & _). intuition discriminate.
    + destruct (String.eqb "PORT" k); reflexivity.
  - destruct b1; [exact P2|]. destruct (last_val "PIDFILE" kvs) as [[s|n|w]|] eqn:LV; rewrite ?P2; try reflexivity.
    + exfalso. clear - F' LV. induction kvs as [|[k0 v0] kvs IH]; [discriminate|]. inversion F' as [|? ? SP F2]; subst. cbn [last_val] in LV.
      destruct (last_val "PIDFILE" kvs); [injection LV as ->; auto|]. destruct (String.eqb_spec "PIDFILE" k0) as [<-|]; [|discriminate]. injection LV as ->.
      cbn in SP. destruct SP as (I & _). intuition discriminate.
    + exfalso. clear - F' LV. induction kvs as [|[k0 v0] kvs IH]; [discriminate|]. inversion F' as [|? ? SP F2]; subst. cbn [last_val] in LV.
      destruct (last_val "PIDFILE" kvs); [injection LV as ->; auto|]. destruct (String.eqb_spec "PIDFILE" k0) as [<-|]; [|discriminate]. injection LV as ->.
      cbn in SP. destruct SP as (I & _). intuition discriminate.
    + destruct (String.eqb "PIDFILE" k); reflexivity.
Qed.
Lemma server_line_port E c kvs : plain_text E (directive "SERVER" kvs) -> Forall server_pair kvs ->
  whole_lines E (directive "SERVER" kvs) /\ exists c', read_config E c (directive "SERVER" kvs) = Ok c' /\
    c_port c' = (if 0 <=? c_port c then c_port c else match last_val "PORT" kvs with Some (VNum n) => number n | _ => c_port c end) /\
    c_pidfile c' = match c_pidfile c with Some p => Some p | None => match last_val "PIDFILE" kvs with Some (VStr s) => Some (pid_of E s) | _ => None end end.
Proof.
  intros P F.
  assert (PS : Forall (fun kv => match snd kv with VStr s => plain_text E s | _ => True end) kvs).
  { pose proof (show_plain _ _ _ P) as S. eapply Forall_impl; [|exact S]. intros [k v]. cbn [snd]. destruct v as [s| |]; auto. cbn [show]. intros [C I]. split.
    - inversion C as [|? ? _ C1]. apply Forall_app in C1. apply C1.
    - intros X. specialize (I X). inversion I as [|? ? _ C1]. apply Forall_app in C1. apply C1. }
  assert (K : Forall (fun kv => (is_kw E (fst kv) /\ value_ok E (snd kv)) /\ In (fst kv) server_kws /\ kw E (fst kv) <> kw E "TIMESTAMP") kvs).
  { eapply Forall_impl; [|exact F]. intros [k v] H. cbn [fst snd] in *. destruct v as [s|n|w]; cbn [server_pair fst snd value_ok] in *.
    - destruct H as (Q & [[<-|[<-|[]]]|[(-> & _)|(-> & _)]]); (split; [split; [apply kws_ok; cbn; tauto|exact Q]|split; [cbn; tauto|]]).
      all: destruct E as [? ? ? ? ? ? ? [] ? ? ? ? ?]; vm_compute; congruence.
    - destruct H as ([<-|[<-|[]]] & NE & D & L & _); (split; [split; [apply kws_ok; cbn; tauto|auto]|split; [cbn; tauto|]]).
      all: destruct E as [? ? ? ? ? ? ? [] ? ? ? ? ?]; vm_compute; congruence.
    - destruct H as ([<-|[<-|[<-|[]]]] & W); (split; [split; [apply kws_ok; cbn; tauto|exact W]|split; [cbn; tauto|]]).
      all: destruct E as [? ? ? ? ? ? ? [] ? ? ? ? ?]; vm_compute; congruence. }
  assert (K1 : Forall (fun kv => is_kw E (fst kv) /\ value_ok E (snd kv)) kvs) by (eapply Forall_impl; [|exact K]; intros a H; apply H).
  assert (K2 : Forall (fun kv => In (fst kv) server_kws) kvs) by (eapply Forall_impl; [|exact K]; intros a H; apply H).
  assert (K3 : Forall (fun kv => kw E (fst kv) <> kw E "TIMESTAMP") kvs) by (eapply Forall_impl; [|exact K]; intros a H; apply H).
  split.
  { apply line_whole; auto; [apply kws_ok; cbn; tauto|clear; destruct E as [? ? ? ? ? ? ? [] ? ? ? ? ?]; vm_compute; congruence]. }
  destruct (server_steps E (match c_pidfile c with Some _ => true | None => false end) (0 <=? c_port c) kvs c F PS) as (c' & S & A & B).
  exists c'. split; [eapply server_line; eauto|]. split; [exact A|]. rewrite B. destruct (c_pidfile c); reflexivity.
Qed.

(** C52: of several on the first line that says so, the last one decides: for the
    port ... *)
Theorem C52_first_line_port : forall E c pre kvs n post c1 c', whole_lines E pre -> plain_text E post ->
  c_port c < 0 -> ~ In (kw E "PORT") (map fst (tokens_of E pre)) -> read_config E c pre = Ok c1 ->
  plain_text E (directive "SERVER" kvs) -> Forall server_pair kvs -> last_val "PORT" kvs = Some (VNum n) ->
  process_config E c (pre ++ directive "SERVER" kvs ++ post) = Ok c' -> c_port c' = number n.
Proof.
  intros E c pre kvs n post c1 c' WP PP NP NI R1 PL F LV H.
  apply default_port in H. destruct H as (c2 & R2 & _ & PT & _).
  destruct (server_line_port E c1 kvs PL F) as (WL & c3 & R3 & P3 & _).
  rewrite C51_lines_partial in R2; [|exact WP|].
  2:{ destruct PL as [A1 A2], PP as [B1 B2]. split; [apply Forall_app; auto|]. intros I. apply Forall_app. auto. }
  rewrite R1 in R2. cbn [bind] in R2. rewrite C51_lines_partial in R2 by auto. rewrite R3 in R2. cbn [bind] in R2.
  assert (P1 : c_port c1 = c_port c).
  { rewrite read_config_tokens in R1 by apply WP. eapply port_unset; eauto. }
  rewrite LV, P1 in P3. destruct (Z.leb_spec 0 (c_port c)); [lia|].
  assert (NN : 0 <= number n).
  { assert (D : Forall digit n); [|apply number_nonneg; exact D]. clear - F LV. induction kvs as [|[k v] kvs IH]; [discriminate|].
    inversion F as [|? ? SP F']; subst. cbn [last_val] in LV. destruct (last_val "PORT" kvs); [injection LV as ->; auto|].
    destruct (String.eqb "PORT" k); [|discriminate]. injection LV as ->. apply SP. }
  apply ports_kept in R2. destruct R2 as [K2 _]. rewrite PT, K2, P3 by lia. destruct (Z.ltb_spec (number n) 0); [lia|reflexivity].
Qed.
(** ... and for the PID file. *)
Theorem C52_first_line_pid : forall E c pre kvs s post c1 c', whole_lines E pre -> plain_text E post ->
  c_pidfile c = None -> ~ In (kw E "PIDFILE") (map fst (tokens_of E pre)) -> read_config E c pre = Ok c1 ->
  plain_text E (directive "SERVER" kvs) -> Forall server_pair kvs -> last_val "PIDFILE" kvs = Some (VStr s) ->
  process_config E c (pre ++ directive "SERVER" kvs ++ post) = Ok c' -> exists p, from_cwd E s p /\ c_pidfile c' = Some p.
Proof.
  intros E c pre kvs s post c1 c' WP PP NP NI R1 PL F LV H.
  apply default_port in H. destruct H as (c2 & R2 & PD & _).
  destruct (server_line_port E c1 kvs PL F) as (WL & c3 & R3 & _ & P3).
  rewrite C51_lines_partial in R2; [|exact WP|].
  2:{ destruct PL as [A1 A2], PP as [B1 B2]. split; [apply Forall_app; auto|]. intros I. apply Forall_app. auto. }
  rewrite R1 in R2. cbn [bind] in R2. rewrite C51_lines_partial in R2 by auto. rewrite R3 in R2. cbn [bind] in R2.
  assert (P1 : c_pidfile c1 = c_pidfile c).
  { rewrite read_config_tokens in R1 by apply WP. eapply pid_unset; eauto. }
  rewrite LV, P1, NP in P3. apply ports_kept in R2. destruct R2 as [_ K2]. exists (pid_of E s). split.
  - unfold from_cwd, in_dir, pid_of. destruct (absolute s) eqn:AB; [left; split; [apply absolute_ok; auto|reflexivity]|right]. split; [|reflexivity].
    intros t ->. discriminate.
  - rewrite PD, K2 by congruence. exact P3.
Qed.
Example C52_first_line_example :
  let kvs := [("PORT"%string, VNum (zs "1")); ("PIDFILE"%string, VStr (zs "x")); ("LOOPBACK"%string, VWord "ON"); ("PORT"%string, VNum (zs "22"))] in
  Forall server_pair kvs /\ plain_text ex (directive "SERVER" kvs) /\ last_val "PORT" kvs = Some (VNum (zs "22")) /\ last_val "PIDFILE" kvs = Some (VStr (zs "x")) /\
  match process_config ex c0 (directive "SERVER" kvs) with Ok c => Some (c_port c, c_pidfile c) | _ => None end = Some (22, Some (zs "/etc/x")).
Proof.
  cbn zeta. assert (D1 : forall l, forallb (fun c => (48 <=? c) && (c <=? 57)) l = true -> Forall digit l).
  { intros l H. apply Forall_forall. intros c I. rewrite forallb_forall in H. specialize (H c I). apply andb_prop in H. destruct H as [A1 A2]. apply Z.leb_le in A1. apply Z.leb_le in A2. unfold digit. lia. }
  split; [|split; [|split; [reflexivity|split; [reflexivity|vm_compute; reflexivity]]]].
  - apply Forall_cons; [|apply Forall_cons; [|apply Forall_cons; [|apply Forall_cons; [|apply Forall_nil]]]]; cbn [server_pair snd fst].
    + split; [cbn; tauto|]. split; [discriminate|]. split; [apply D1; reflexivity|]. split; [apply Nat.ltb_lt; vm_compute; reflexivity|vm_compute; discriminate].
    + split; [|right; left; split; [reflexivity|]].
      * split; [|split; [|split]]; [intros [H|[]]; discriminate|intros [H|[]]; discriminate|intros [H|[]]; discriminate|apply Nat.ltb_lt; vm_compute; reflexivity].
      * intros H. inversion H as [|? ? X _]. vm_compute in X. discriminate.
    + cbn; tauto.
    + split; [cbn; tauto|]. split; [discriminate|]. split; [apply D1; reflexivity|]. split; [apply Nat.ltb_lt; vm_compute; reflexivity|vm_compute; discriminate].
  - split; [|intros H; vm_compute in H; discriminate].
    unfold chars_ok. apply Forall_forall. intros c I. unfold char_ok.
    assert (A : forallb (fun c => (1 <=? c) && (c <=? 255)) (directive "SERVER" [("PORT"%string, VNum (zs "1")); ("PIDFILE"%string, VStr (zs "x")); ("LOOPBACK"%string, VWord "ON"); ("PORT"%string, VNum (zs "22"))]) = true) by (vm_compute; reflexivity).
    rewrite forallb_forall in A. specialize (A c I). apply andb_prop in A. destruct A as [A1 A2]. apply Z.leb_le in A1. apply Z.leb_le in A2. lia.
Qed.
(** With neither, the default. *)
Theorem C52_default_port : forall E c f c', plain_text E f -> c_port c < 0 -> ~ In (kw E "PORT") (map fst (tokens_of E f)) ->
  process_config E c f = Ok c' -> c_port c' = 7890.
Proof.
  intros E c f c' P N NI H. apply default_port in H. destruct H as (c1 & R & _ & PT & _). rewrite read_config_tokens in R by auto.
  apply port_unset in R; auto. rewrite PT, R. destruct (Z.ltb_spec (c_port c) 0); [reflexivity|lia].
Qed.
Theorem C52_no_pid : forall E c f c', plain_text E f -> c_pidfile c = None -> ~ In (kw E "PIDFILE") (map fst (tokens_of E f)) ->
  process_config E c f = Ok c' -> c_pidfile c' = None.
Proof.
  intros E c f c' P N NI H. apply default_port in H. destruct H as (c1 & R & PD & _). rewrite read_config_tokens in R by auto.
  apply pid_unset in R; auto. congruence.
Qed.
(** Nothing in the file changes a port or PID file once it is known. *)
Theorem C52_settled : forall E c f c', read_config E c f = Ok c' ->
  (0 <= c_port c -> c_port c' = c_port c) /\ (c_pidfile c <> None -> c_pidfile c' = c_pidfile c).
Proof. intros E c f c' H. exact (ports_kept E c f c' H). Qed.
Example C52_example :
  match start ex c0 [OPort (zs "1000"); OPid (zs "x.pid"); OPort (zs "2000")] (file ["SERVER PORT=1234 PIDFILE=""/y"""; "SERVER PORT=4"]%string) 0 (fun _ => 0) with
  | Ok (Runs c) => Some (c_port c, c_pidfile c) | _ => None end = Some (2000, Some (zs "/etc/x.pid")) /\
  match start ex c0 [] (file ["SERVER PORT=1234 PIDFILE=""/y"""; "SERVER PORT=4"]%string) 0 (fun _ => 0) with
  | Ok (Runs c) => Some (c_port c, c_pidfile c) | _ => None end = Some (1234, Some (zs "/y")).
Proof. split; vm_compute; reflexivity. Qed.
(** On one line it is the last that decides. *)
Theorem C52_same_line_refuted : exists c1 c2,
  process_config ex c0 (file ["SERVER PORT=1"; "SERVER PORT=2"]%string) = Ok c1 /\
  process_config ex c0 (file ["SERVER PORT=1 PORT=2"]%string) = Ok c2 /\ c_port c1 = 1 /\ c_port c2 = 2.
Proof. eexists _, _. split; [vm_compute; reflexivity|]. split; [vm_compute; reflexivity|]. split; reflexivity. Qed.

(** ** Lines that stand by themselves *)
Lemma console_whole E kvs : plain_text E (directive "CONSOLE" kvs) -> Forall (console_pair E) kvs -> whole_lines E (directive "CONSOLE" kvs).
Proof.
  intros P F. apply line_whole; auto; [apply kws_ok; cbn; tauto|apply console_pairs_kw; auto|destruct E as [? ? ? ? ? ? ? [] ? ? ? ? ?]; vm_compute; congruence|].
  apply Forall_forall. intros kv I. pose proof (console_key E kvs (fst kv) F (in_map fst _ _ I)) as K. unfold console_kws in K. cbn [In] in K.
  clear - K. destruct E as [? ? ? ? ? ? ? [] ? ? ? ? ?]; repeat (destruct K as [<-|K]; [vm_compute; congruence|]); destruct K.
Qed.
Lemma plain_app E a b : plain_text E a -> plain_text E b -> plain_text E (a ++ b).
Proof. intros [A1 A2] [B1 B2]. split; [apply Forall_app; auto|]. intros I. apply Forall_app. auto. Qed.
Lemma plain_name E kvs k s : plain_text E (directive "CONSOLE" kvs) -> Forall (console_pair E) kvs -> last_str k kvs = Some s -> plain_text E s.
Proof.
  intros P F L. apply show_plain in P. unfold last_str in L. destruct (last_val k kvs) as [v|] eqn:LV; [|discriminate]. destruct v; try discriminate.
  injection L as ->. assert (I : exists k1, In (k1, VStr s) kvs).
  { clear - LV. revert LV. induction kvs as [|[k1 v1] kvs IH]; cbn [last_val]; [discriminate|]. destruct (last_val k kvs) as [w|].
    - intros X. injection X as ->. destruct (IH eq_refl) as [k2 I]. exists k2. right. exact I.
    - destruct (String.eqb k k1); [|discriminate]. intros X. injection X as ->. exists k1. left. reflexivity. }
  destruct I as [k1 I]. rewrite Forall_forall in P. specialize (P _ I). cbn [snd show] in P. destruct P as [C J]. split.
  - inversion C as [|? ? _ C1]. apply Forall_app in C1. apply C1.
  - intros X. specialize (J X). inversion J as [|? ? _ C1]. apply Forall_app in C1. apply C1.
Qed.

(** ** C76, C77 *)
(** A line that gives a console an unused name and an unused device that its device string
    denotes adds that console, with its log if it is to have one, and nothing else. *)
Theorem C76_device_partial : forall E c kvs name dev args d more,
  plain_text E (directive "CONSOLE" kvs) -> Forall (console_pair E) kvs ->
  last_str "NAME" kvs = Some name -> last_str "DEV" kvs = Some dev ->
  ~ lone_quote dev -> device_words name dev args -> means E c kvs args d -> dev_text E d -> tm_ok (e_tm E) ->
  unused (c_objs c) name d -> adds E c kvs name d more ->
  exists er, read_config E c (directive "CONSOLE" kvs) = Ok (set_objs c (c_objs c ++ more) er).
Proof.
  intros E c kvs name dev args d more P F LN LD NL DW M DT TM U A. rewrite (console_line E c kvs name dev) by auto.
  destruct (console_makes E c kvs name dev args d more) as [er H]; eauto using plain_name.
  exists er. rewrite H. reflexivity.
Qed.
(** A device string has at most one meaning. *)
Theorem C76_unambiguous : forall E c kvs args d1 d2, means E c kvs args d1 -> means E c kvs args d2 -> d1 = d2.
Proof.
  intros E c kvs args d1 d2 M1 M2.
  assert (N : forall d, means E c kvs args d -> exists er, find_dev E c (updated c no_strs kvs) args = Ok (Some d, er)).
  { intros d M. eapply means_find; eauto; cbn [updated n_sopts n_iopts n_topts]; destruct (last_str _ kvs); reflexivity. }
  destruct (N _ M1) as [e1 H1], (N _ M2) as [e2 H2]. congruence.
Qed.
(** A line whose device string denotes no device, or one with bad options, is reported, and
    has no other effect on the configuration. *)
Theorem C76_refused : forall E c kvs name dev args,
  plain_text E (directive "CONSOLE" kvs) -> Forall (console_pair E) kvs ->
  last_str "NAME" kvs = Some name -> last_str "DEV" kvs = Some dev ->
  ~ lone_quote dev -> device_words name dev args -> refused E c kvs args ->
  exists er, read_config E c (directive "CONSOLE" kvs) = Ok (add_err (set_objs c (c_objs c) er) EConsole).
Proof.
  intros E c kvs name dev args P F LN LD NL DW R. rewrite (console_line E c kvs name dev) by auto.
  destruct (console_refused E c kvs name dev args) as [er H]; eauto using plain_name.
  exists er. rewrite H. reflexivity.
Qed.
(** The console stays there whatever follows. *)
Theorem C77_defined_partial : forall E c pre c1 kvs post c' name dev args d more,
  whole_lines E pre -> plain_text E post -> read_config E c pre = Ok c1 ->
  plain_text E (directive "CONSOLE" kvs) -> Forall (console_pair E) kvs ->
  last_str "NAME" kvs = Some name -> last_str "DEV" kvs = Some dev ->
  ~ lone_quote dev -> device_words name dev args -> means E c1 kvs args d -> dev_text E d -> tm_ok (e_tm E) ->
  unused (c_objs c1) name d -> adds E c1 kvs name d more ->
  process_config E c (pre ++ directive "CONSOLE" kvs ++ post) = Ok c' ->
  exists later, c_objs c' = c_objs c1 ++ more ++ later.
Proof.
  intros E c pre c1 kvs post c' name dev args d more WP PP R1 P F LN LD NL DW M DT TM U A H.
  apply default_port in H. destruct H as (c2 & R2 & _ & _ & O & _). rewrite C51_lines_partial in R2 by (auto using plain_app).
  rewrite R1 in R2. cbn [bind] in R2. rewrite C51_lines_partial in R2 by (auto using console_whole).
  destruct (C76_device_partial E c1 kvs name dev args d more) as [er X]; auto. rewrite X in R2. cbn [bind] in R2.
  apply adds_kept in R2. destruct R2 as [l R2]. exists l. rewrite O, R2. cbn. rewrite app_assoc. reflexivity.
Qed.
(** A second line with the same name or device is reported, and the consoles stay as they were. *)
Theorem C77_taken : forall E c kvs name dev args d,
  plain_text E (directive "CONSOLE" kvs) -> Forall (console_pair E) kvs ->
  last_str "NAME" kvs = Some name -> last_str "DEV" kvs = Some dev ->
  ~ lone_quote dev -> device_words name dev args -> means E c kvs args d -> ~ unused (c_objs c) name d ->
  exists er, read_config E c (directive "CONSOLE" kvs) = Ok (add_err (set_objs c (c_objs c) er) EConsole).
Proof.
  intros E c kvs name dev args d P F LN LD NL DW M U. rewrite (console_line E c kvs name dev) by auto.
  destruct (console_taken E c kvs name dev args d) as [er H]; eauto using plain_name.
  exists er. rewrite H. reflexivity.
Qed.
(** A line whose log another console has is reported, and the console is defined without a log. *)
Theorem C77_log_taken_alone : forall E c kvs name dev args d,
  plain_text E (directive "CONSOLE" kvs) -> Forall (console_pair E) kvs ->
  last_str "NAME" kvs = Some name -> last_str "DEV" kvs = Some dev ->
  ~ lone_quote dev -> device_words name dev args -> means E c kvs args d -> dev_text E d -> tm_ok (e_tm E) ->
  unused (c_objs c) name d -> log_taken E c kvs name d ->
  exists er, read_config E c (directive "CONSOLE" kvs) = Ok (add_err (set_objs c (c_objs c ++ [OCon name d]) er) EConsole).
Proof.
  intros E c kvs name dev args d P F LN LD NL DW M DT TM U A. rewrite (console_line E c kvs name dev) by auto.
  destruct (console_unlogged E c kvs name dev args d) as [er H]; eauto using plain_name.
  exists er. rewrite H. reflexivity.
Qed.
(** A line in whose device a word gets too long once %N is replaced is reported, and has no
    other effect. *)
Theorem C77_too_long : forall E c kvs name dev ws bad,
  plain_text E (directive "CONSOLE" kvs) -> Forall (console_pair E) kvs ->
  last_str "NAME" kvs = Some name -> last_str "DEV" kvs = Some dev ->
  ~ lone_quote dev -> words (S (length dev)) dev = (ws, bad) ->
  Exists (fun w => snd w <> QUOTE /\ (MAX_LINE <= length (argument name w))%nat) ws ->
  read_config E c (directive "CONSOLE" kvs) = Ok (add_err c EConsole).
Proof.
  intros E c kvs name dev ws bad P F LN LD NL W X. rewrite (console_line E c kvs name dev) by auto.
  unfold process_console. rewrite (dev_args_long E name dev ws bad); eauto using plain_name.
  destruct (plain_name E kvs "NAME" name P F LN) as [H _]. exact H.
Qed.
(** Likewise a line whose device has a quote that is not closed. *)
Theorem C77_unmatched : forall E c kvs name dev ws,
  plain_text E (directive "CONSOLE" kvs) -> Forall (console_pair E) kvs ->
  last_str "NAME" kvs = Some name -> last_str "DEV" kvs = Some dev ->
  ~ lone_quote dev -> words (S (length dev)) dev = (ws, true) ->
  read_config E c (directive "CONSOLE" kvs) = Ok (add_err c EConsole).
Proof.
  intros E c kvs name dev ws P F LN LD NL W. rewrite (console_line E c kvs name dev) by auto.
  unfold process_console. rewrite (dev_args_unmatched E name dev ws); eauto using plain_name.
  destruct (plain_name E kvs "NAME" name P F LN) as [H _]. exact H.
Qed.
(** A line without a name or without a device is reported, and has no other effect. *)
Theorem C77_incomplete : forall E c kvs, plain_text E (directive "CONSOLE" kvs) -> Forall (console_pair E) kvs ->
  last_str "NAME" kvs = None \/ last_str "DEV" kvs = None -> read_config E c (directive "CONSOLE" kvs) = Ok (add_err c EIncomplete).
Proof. exact incomplete_line. Qed.
(** Whatever the file contains, in the end no two consoles have the same name, Unix domain
    socket, serial port or IPMI host, the logs are in order and the devices are usable. *)
Theorem C77_consistent : forall E c f c', c_objs c = [] -> process_config E c f = Ok c' -> objs_good E (c_objs c').
Proof.
  intros E c f c' Z H. apply default_port in H. destruct H as (c1 & R & _ & _ & O & _). rewrite O. apply good_kept in R. apply R. rewrite Z. apply good_nil.
Qed.
(** Consoles that have been defined are not changed by what follows. *)
Theorem C77_kept : forall E c f c', read_config E c f = Ok c' -> exists more, c_objs c' = c_objs c ++ more.
Proof. intros E c f c' H. exact (adds_kept E c f c' H). Qed.

(** ** C78 *)
Lemma has_spec_ok x s : has_spec x s = true <-> exists a b, s = a ++ PERCENT :: x :: b.
Proof.
  induction s as [|c s IH]; cbn [has_spec]; [split; [discriminate|intros ([|? ?] & b & H); discriminate]|]. rewrite orb_true_iff, IH. split.
  - intros [H|(a & b & ->)]; [|exists (c :: a), b; reflexivity]. apply andb_prop in H. destruct H as [H1 H2]. apply Z.eqb_eq in H1. subst c.
    destruct s as [|d s]; [discriminate|]. apply Z.eqb_eq in H2. subst d. exists [], s. reflexivity.
  - intros ([|d a] & b & H).
    + left. injection H as -> ->. rewrite !Z.eqb_refl. reflexivity.
    + right. injection H as -> ->. exists a, b. reflexivity.
Qed.
Lemma global_sets E c k s ds : plain_text E (directive "GLOBAL" [(k, VStr s)]) -> quotable s -> sets E c k s ds ->
  whole_lines E (directive "GLOBAL" [(k, VStr s)]) /\ exists c', read_config E c (directive "GLOBAL" [(k, VStr s)]) = Ok c' /\ defaults c' = ds.
Proof.
  intros P Q H.
  assert (PS : plain_text E s).
  { apply show_plain in P. inversion P as [|? ? [C I] _]. cbn [snd show] in *. split.
    - inversion C as [|? ? _ C1]. apply Forall_app in C1. apply C1.
    - intros X. specialize (I X). inversion I as [|? ? _ C1]. apply Forall_app in C1. apply C1. }
  assert (K : is_kw E k /\ In k global_kws /\ kw E k <> kw E "TIMESTAMP").
  { destruct H; (split; [first [apply kws_ok; cbn; tauto|apply ipmi_kw; assumption]|split; [cbn; tauto|]]);
      clear; destruct E as [? ? ? ? ? ? ? [] ? ? ? ? ?]; vm_compute; congruence. }
  destruct K as (K1 & K2 & K3).
  split; [apply line_whole; auto; [apply kws_ok; cbn; tauto|clear; destruct E as [? ? ? ? ? ? ? [] ? ? ? ? ?]; vm_compute; congruence]|].
  assert (ST : exists c', steps E (global_val E) c [(k, VStr s)] c' /\ defaults c' = ds).
  { assert (G : forall c', global_val E (kw E k) c LEX_STR s = Ok (c', None) -> defaults c' = ds -> exists c', steps E (global_val E) c [(k, VStr s)] c' /\ defaults c' = ds).
    { intros c' G D. exists c'. split; [|exact D]. econstructor; [|constructor]. exact G. }
    destruct H as [s B|s B NA PC|s o B PO|s o B PO|s o B EI PO|s o er B ER PO]; (eapply G; [unfold global_val; decide_kw|]).
    - change (LEX_STR =? LEX_STR) with true. cbn [negb]. rewrite is_empty_ok by auto. apply blank_ok in B. rewrite B. reflexivity.
    - reflexivity.
    - change (LEX_STR =? LEX_STR) with true. cbn [negb]. rewrite is_empty_ok by auto. cbn [bind].
      destruct (forallb isspace s) eqn:BL; [apply blank_ok in BL; contradiction|].
      assert (HC : has_char AMP s = false). { unfold has_char. destruct (existsb _ s) eqn:EX; auto. apply existsb_exists in EX. destruct EX as (x & I & X). apply Z.eqb_eq in X. destruct NA. rewrite <- X in I. exact I. }
      rewrite HC. destruct PC as (a & x & b & PC & X).
      assert (HS : negb (has_spec 78 s) && negb (has_spec 68 s) = false).
      { destruct X as [-> | ->]; [replace (has_spec 78 s) with true by (symmetry; apply has_spec_ok; eauto); reflexivity|].
        replace (has_spec 68 s) with true by (symmetry; apply has_spec_ok; eauto). apply andb_false_r. }
      rewrite HS. reflexivity.
    - reflexivity.
    - rewrite full_ok by auto. cbn [bind negb]. rewrite PO. reflexivity.
    - reflexivity.
    - rewrite full_ok by auto. cbn [bind negb]. rewrite PO. reflexivity.
    - reflexivity.
    - rewrite full_ok by auto. cbn [bind negb]. rewrite PO. reflexivity.
    - reflexivity.
    - rewrite full_ok by auto. cbn [bind negb]. rewrite ER, PO. reflexivity.
    - reflexivity. }
  destruct ST as (c' & ST & D). exists c'. split; [|exact D]. eapply global_line; eauto.
Qed.
(** A default is in force from its line up to the next line of that kind, whatever else is
    between them. *)
Theorem C78_default : forall E c pre c1 k s mid c' ds,
  whole_lines E pre -> read_config E c pre = Ok c1 -> plain_text E (directive "GLOBAL" [(k, VStr s)]) -> quotable s -> sets E c1 k s ds ->
  plain_text E mid -> ~ In (kw E "GLOBAL") (map fst (tokens_of E mid)) ->
  read_config E c (pre ++ directive "GLOBAL" [(k, VStr s)] ++ mid) = Ok c' -> defaults c' = ds.
Proof.
  intros E c pre c1 k s mid c' ds WP R1 P Q SE PM NM R. destruct (global_sets E c1 k s ds P Q SE) as (WL & c2 & R2 & D).
  rewrite C51_lines_partial in R by (auto using plain_app). rewrite R1 in R. cbn [bind] in R. rewrite C51_lines_partial in R by auto.
  rewrite R2 in R. cbn [bind] in R. rewrite read_config_tokens in R by auto. apply defaults_unset in R; auto. congruence.
Qed.
(** Without such lines the defaults are those the program starts with. *)
Theorem C78_builtin : forall E c f c', plain_text E f -> ~ In (kw E "GLOBAL") (map fst (tokens_of E f)) ->
  read_config E c f = Ok c' -> defaults c' = defaults c.
Proof. intros E c f c' P N R. rewrite read_config_tokens in R by auto. eapply defaults_unset; eauto. Qed.
Lemma server_line_sets E c k v st : plain_text E (directive "SERVER" [(k, v)]) -> match v with VStr s => quotable s | _ => True end -> server_sets E c k v st ->
  whole_lines E (directive "SERVER" [(k, v)]) /\ exists c', read_config E c (directive "SERVER" [(k, v)]) = Ok c' /\ settings c' = st.
Proof.
  intros P Q H.
  assert (PS : match v with VStr s => plain_text E s | _ => True end).
  { destruct v as [s| |]; auto. apply show_plain in P. inversion P as [|? ? [C I] _]. cbn [snd show] in *. split.
    - inversion C as [|? ? _ C1]. apply Forall_app in C1. apply C1.
    - intros X. specialize (I X). inversion I as [|? ? _ C1]. apply Forall_app in C1. apply C1. }
  assert (K : is_kw E k /\ In k server_kws /\ kw E k <> kw E "TIMESTAMP" /\ value_ok E v).
  { destruct H; (split; [apply kws_ok; cbn; tauto|split; [cbn; tauto|split; [|first [exact Q|cbn; tauto]]]]);
      clear; destruct E as [? ? ? ? ? ? ? [] ? ? ? ? ?]; vm_compute; congruence. }
  destruct K as (K1 & K2 & K3 & K4).
  split; [apply line_whole; auto; [apply kws_ok; cbn; tauto|clear; destruct E as [? ? ? ? ? ? ? [] ? ? ? ? ?]; vm_compute; congruence]|].
  assert (ST : exists c', steps E (server_val E (match c_pidfile c with Some _ => true | None => false end) (0 <=? c_port c)) c [(k, v)] c' /\ settings c' = st).
  { assert (G : forall c', server_val E (match c_pidfile c with Some _ => true | None => false end) (0 <=? c_port c) (kw E k) c (fst (val_tok E v)) (snd (val_tok E v)) = Ok (c', None) -> settings c' = st ->
      exists c', steps E (server_val E (match c_pidfile c with Some _ => true | None => false end) (0 <=? c_port c)) c [(k, v)] c' /\ settings c' = st).
    { intros c' G D. exists c'. split; [|exact D]. econstructor; [|constructor]. destruct v; exact G. }
    destruct H as [| |s p B D|s B|s B L|s B L]; (eapply G; [unfold server_val; decide_kw; cbn [val_tok fst snd]|]);
      try (change (LEX_STR =? LEX_STR) with true; cbn [negb]; rewrite ?is_empty_ok by auto; cbn [bind]).
    - unfold on_off. decide_kw. reflexivity.
    - reflexivity.
    - unfold on_off. decide_kw. reflexivity.
    - reflexivity.
    - destruct (forallb isspace s) eqn:BL; [apply blank_ok in BL; contradiction|]. apply in_dir_eq in D. rewrite D. reflexivity.
    - reflexivity.
    - apply blank_ok in B. rewrite B. reflexivity.
    - reflexivity.
    - destruct (Nat.leb_spec PATH_MAX (length s)); [lia|]. destruct (forallb isspace s) eqn:BL; [apply blank_ok in BL; contradiction|]. reflexivity.
    - reflexivity.
    - destruct (Nat.leb_spec PATH_MAX (length s)); [lia|]. apply blank_ok in B. rewrite B. reflexivity.
    - reflexivity. }
  destruct ST as (c' & ST & D). exists c'. split; [|exact D]. eapply server_line; eauto.
Qed.
Theorem C78_setting : forall E c pre c1 k v mid c' st,
  whole_lines E pre -> read_config E c pre = Ok c1 -> plain_text E (directive "SERVER" [(k, v)]) ->
  match v with VStr s => quotable s | _ => True end -> server_sets E c1 k v st ->
  plain_text E mid -> ~ In (kw E "SERVER") (map fst (tokens_of E mid)) ->
  read_config E c (pre ++ directive "SERVER" [(k, v)] ++ mid) = Ok c' -> settings c' = st.
Proof.
  intros E c pre c1 k v mid c' st WP R1 P Q SE PM NM R. destruct (server_line_sets E c1 k v st P Q SE) as (WL & c2 & R2 & D).
  rewrite C51_lines_partial in R by (auto using plain_app). rewrite R1 in R. cbn [bind] in R. rewrite C51_lines_partial in R by auto.
  rewrite R2 in R. cbn [bind] in R. rewrite read_config_tokens in R by auto. apply settings_unset in R; auto. congruence.
Qed.
Theorem C78_setting_builtin : forall E c f c', plain_text E f -> ~ In (kw E "SERVER") (map fst (tokens_of E f)) ->
  read_config E c f = Ok c' -> settings c' = settings c.
Proof. intros E c f c' P N R. rewrite read_config_tokens in R by auto. eapply settings_unset; eauto. Qed.

(** ** Examples *)
Definition c1 : conf := Eval vm_compute in match read_config ex c0 (file ["SERVER LOGDIR=""/log"""; "CONSOLE NAME=""a"" DEV=""host:7001"""]%string) with Ok c => c | _ => c0 end.
Definition con_b : list (string * value) :=
  [("NAME"%string, VStr (zs "b")); ("DEV"%string, VStr (zs "/dev/ttyS0")); ("SEROPTS"%string, VStr (zs "19200,7e2")); ("LOG"%string, VStr (zs "%N.log"))].
Lemma no_unix E s : match s with c :: _ => tolower c <> 117 | [] => True end -> forall path, ~ unix_like E s path.
Proof.
  intros H path (p & (q & EQ & T) & _). destruct q as [|c q]; [discriminate|]. subst s. cbn [app] in H. injection T as T _. apply H. rewrite T. reflexivity.
Qed.
Lemma no_telnet s : ~ In COLON s -> forall h p, ~ telnet_like s h p.
Proof. intros H h p (-> & _). apply H. apply in_or_app. right. left. reflexivity. Qed.
Lemma zs_notin x s : existsb (Z.eqb x) (zs s) = false -> ~ In x (zs s).
Proof. intros H I. assert (X : existsb (Z.eqb x) (zs s) = true) by (apply existsb_exists; exists x; split; [exact I|apply Z.eqb_refl]). congruence. Qed.
Lemma quotable_zs s : forallb (fun x => negb (x =? DQUOTE) && negb (x =? LF) && negb (x =? CR)) (zs s) = true -> (length (zs s) < 100)%nat -> quotable (zs s).
Proof.
  intros H L. rewrite forallb_forall in H. assert (N : forall x, In x (zs s) -> x <> DQUOTE /\ x <> LF /\ x <> CR).
  { intros x I. specialize (H _ I). rewrite !andb_true_iff, !negb_true_iff, !Z.eqb_neq in H. tauto. }
  split; [|split; [|split]]; try (intros I; destruct (N _ I) as (N1 & N2 & N3); congruence).
  assert (100 <= LEX_MAX_STR)%nat by (apply Nat.leb_le; vm_compute; reflexivity). lia.
Qed.
Lemma not_blank s : forallb isspace (zs s) = false -> ~ blank_text (zs s).
Proof. intros H B. apply blank_ok in B. congruence. Qed.
Ltac quo := apply quotable_zs; [reflexivity|apply Nat.ltb_lt; reflexivity].
Lemma con_b_ok : plain_text ex (directive "CONSOLE" con_b) /\ Forall (console_pair ex) con_b.
Proof.
  split; [apply plain_ok; reflexivity|]. repeat apply Forall_cons; try apply Forall_nil; unfold console_pair; cbn [snd fst]; (split; [quo|]).
  - left. split; [cbn; tauto|apply not_blank; reflexivity].
  - left. split; [cbn; tauto|apply not_blank; reflexivity].
  - left. split; [cbn; tauto|apply not_blank; reflexivity].
  - right. left. split; [reflexivity|apply zs_notin; reflexivity].
Qed.
Definition dev_b : dev := Serial (zs "/dev/ttyS0") (mkSer 19200 7 2 2).
Lemma con_b_means c : g_sopts c = g_sopts c1 -> means ex c con_b [zs "/dev/ttyS0"] dev_b.
Proof.
  intros G. apply M_serial.
  - apply no_unix. vm_compute. congruence.
  - apply no_telnet. apply zs_notin. reflexivity.
  - split; [|reflexivity]. left. split; [eexists; reflexivity|reflexivity].
  - reflexivity.
  - rewrite G. vm_compute. reflexivity.
Qed.
Definition more_b : list cobj := [OLog (mkLog (zs "/log/%N.log") (Some (zs "/log/%N.log")) (view (zs "b") dev_b)) (mkLogopt true false false); OCon (zs "b") dev_b].
Lemma con_b_adds : adds ex c1 con_b (zs "b") dev_b more_b.
Proof.
  apply (A_logged ex c1 con_b (zs "b") dev_b (zs "/log/%N.log") (zs "/log/b.log")).
  - right. split; [apply not_blank; reflexivity|]. exists (zs "/log/%N.log"). split; [|reflexivity]. right. split; [intros t X; discriminate X|reflexivity].
  - assert (P : plain_text ex (zs "/log/%N.log")) by (apply plain_ok; reflexivity). apply P.
  - apply Nat.ltb_lt. reflexivity.
  - change (zs "/log/%N.log") with (zs "/log/" ++ 37 :: 78 :: zs ".log"). change (zs "/log/b.log") with (zs "/log/" ++ FnameSpec.clean (zs "b") ++ zs ".log").
    cbn [zs app]. do 5 (apply X_char; [discriminate|]). apply (X_spec _ _ _ 78 (FnameSpec.clean (zs "b"))); [eapply T_name; reflexivity|].
    do 4 (apply X_char; [discriminate|]). apply X_end.
  - apply Nat.ltb_lt. reflexivity.
  - intros x I. destruct I.
  - reflexivity.
  - reflexivity.
  - reflexivity.
  - reflexivity.
Qed.
Lemma con_b_words : ~ lone_quote (zs "/dev/ttyS0") /\ device_words (zs "b") (zs "/dev/ttyS0") [zs "/dev/ttyS0"].
Proof.
  split.
  - intros (a & q & EQ & Q & _). assert (q = 48); [|subst q; discriminate Q]. apply (f_equal (@rev Z)) in EQ. rewrite rev_app_distr in EQ. cbn [rev app zs] in EQ. injection EQ as EQ _. symmetry. exact EQ.
  - eexists. split; [vm_compute; reflexivity|]. split; [vm_compute; reflexivity|]. apply Forall_cons; [|apply Forall_nil]. right. apply Nat.ltb_lt. reflexivity.
Qed.
Definition con_c : list (string * value) :=
  [("NAME"%string, VStr (zs "b")); ("DEV"%string, VStr (zs "/dev/ttyS0")); ("SEROPTS"%string, VStr (zs "9600,9n1"))].
Example C76_refused_example : exists er, read_config ex c1 (directive "CONSOLE" con_c) = Ok (add_err (set_objs c1 (c_objs c1) er) EConsole).
Proof.
  destruct con_b_words as [W1 W2].
  apply (C76_refused ex c1 con_c (zs "b") (zs "/dev/ttyS0") [zs "/dev/ttyS0"]); [| |reflexivity|reflexivity|exact W1|exact W2|].
  - apply plain_ok; vm_compute; reflexivity.
  - repeat apply Forall_cons; try apply Forall_nil; unfold console_pair; cbn [snd fst]; (split; [|left; split; [cbn; tauto|]]);
      try quo; apply not_blank; reflexivity.
  - apply (R_serial_opts ex c1 con_c (zs "/dev/ttyS0") (zs "/dev/ttyS0") (zs "9600,9n1")).
    + apply no_unix. vm_compute. congruence.
    + apply no_telnet. apply zs_notin. reflexivity.
    + split; [|reflexivity]. left. split; [eexists; reflexivity|reflexivity].
    + reflexivity.
    + vm_compute. reflexivity.
Qed.
(** A name of 90 letters, twelve times in the device. *)
Definition con_long : list (string * value) :=
  [("NAME", VStr (zs "nnnnnnnnnnnnnnnnnnnnnnnnnnnnnnnnnnnnnnnnnnnnnnnnnnnnnnnnnnnnnnnnnnnnnnnnnnnnnnnnnnnnnnnnnn")); ("DEV", VStr (zs "/%N%N%N%N%N%N%N%N%N%N%N%N"))]%string.
Example C77_too_long_example : read_config ex c1 (directive "CONSOLE" con_long) = Ok (add_err c1 EConsole).
Proof.
  eapply (C77_too_long ex c1 con_long); [| |reflexivity|reflexivity| | |].
  - apply plain_ok; vm_compute; reflexivity.
  - repeat apply Forall_cons; try apply Forall_nil; unfold console_pair; cbn [snd fst]; (split; [|left; split; [cbn; tauto|]]).
    + quo.
    + apply not_blank. reflexivity.
    + quo.
    + apply not_blank. reflexivity.
  - intros (a & q & EQ & Q & _). assert (q = 78); [|subst q; discriminate Q]. apply (f_equal (@rev Z)) in EQ. rewrite rev_app_distr in EQ. cbn [rev app zs] in EQ. injection EQ as EQ _. symmetry. exact EQ.
  - vm_compute. reflexivity.
  - apply Exists_cons_hd. split; [discriminate|]. apply Nat.leb_le. vm_compute. reflexivity.
Qed.
Definition con_open : list (string * value) := [("NAME", VStr (zs "b")); ("DEV", VStr (zs "/bin/sh 'a b"))]%string.
Example C77_unmatched_example : read_config ex c1 (directive "CONSOLE" con_open) = Ok (add_err c1 EConsole).
Proof.
  eapply (C77_unmatched ex c1 con_open); [| |reflexivity|reflexivity| |].
  - apply plain_ok; vm_compute; reflexivity.
  - repeat apply Forall_cons; try apply Forall_nil; unfold console_pair; cbn [snd fst]; (split; [|left; split; [cbn; tauto|]]).
    + quo.
    + apply not_blank. reflexivity.
    + quo.
    + apply not_blank. reflexivity.
  - intros (a & q & EQ & Q & _). assert (q = 98); [|subst q; discriminate Q]. apply (f_equal (@rev Z)) in EQ. rewrite rev_app_distr in EQ. cbn [rev app zs] in EQ. injection EQ as EQ _. symmetry. exact EQ.
  - vm_compute. reflexivity.
Qed.
Example C76_example : exists er, read_config ex c1 (directive "CONSOLE" con_b) = Ok (set_objs c1 (c_objs c1 ++ more_b) er).
Proof.
  destruct con_b_ok, con_b_words. eapply C76_device_partial; eauto; try reflexivity.
  - apply con_b_means. reflexivity.
  - apply plain_ok; reflexivity.
  - intros c I. split; [discriminate|]. repeat constructor; discriminate.
  - split; [|intros []]. intros [I|[]]. discriminate I.
  - apply con_b_adds.
Qed.
Definition con_d : list (string * value) :=
  [("NAME"%string, VStr (zs "b")); ("DEV"%string, VStr (zs "/dev/ttyS0")); ("SEROPTS"%string, VStr (zs "19200,7e2")); ("LOG"%string, VStr (zs "x"))].
Definition c1x : conf :=
  set_objs c1 [OLog (mkLog (zs "/log/x") None (mkObj (zs "a") DNone)) (mkLogopt true false false); OCon (zs "a") (Telnet (zs "h") 23 true)] false.
Example C77_log_taken_example : exists er,
  read_config ex c1x (directive "CONSOLE" con_d) = Ok (add_err (set_objs c1x (c_objs c1x ++ [OCon (zs "b") dev_b]) er) EConsole).
Proof.
  destruct con_b_words as [W1 W2].
  apply (C77_log_taken_alone ex c1x con_d (zs "b") (zs "/dev/ttyS0") [zs "/dev/ttyS0"] dev_b); [| |reflexivity|reflexivity|exact W1|exact W2| | | | |].
  - apply plain_ok; vm_compute; reflexivity.
  - repeat apply Forall_cons; try apply Forall_nil; unfold console_pair; cbn [snd fst]; (split; [quo|]).
    + left. split; [cbn; tauto|apply not_blank; reflexivity].
    + left. split; [cbn; tauto|apply not_blank; reflexivity].
    + left. split; [cbn; tauto|apply not_blank; reflexivity].
    + right. left. split; [reflexivity|apply zs_notin; reflexivity].
  - apply M_serial.
    + apply no_unix. vm_compute. congruence.
    + apply no_telnet. apply zs_notin. reflexivity.
    + split; [|reflexivity]. left. split; [eexists; reflexivity|reflexivity].
    + reflexivity.
    + vm_compute. reflexivity.
  - apply plain_ok; reflexivity.
  - intros c I. split; [discriminate|]. repeat constructor; discriminate.
  - split; [|intros []]. intros [I|[]]. discriminate I.
  - apply (L_taken ex c1x con_d (zs "b") dev_b (zs "/log/x") (zs "/log/x") (g_lopts c1x) (mkLog (zs "/log/x") None (mkObj (zs "a") DNone))).
    + right. split; [apply not_blank; reflexivity|]. exists (zs "/log/x"). split; [|reflexivity]. right. split; [intros t X; discriminate X|reflexivity].
    + assert (P : plain_text ex (zs "/log/x")) by (apply plain_ok; reflexivity). apply P.
    + apply Nat.ltb_lt. reflexivity.
    + reflexivity.
    + cbn [zs map String.list_ascii_of_string]. do 6 (apply X_char; [discriminate|]). apply X_end.
    + apply Nat.ltb_lt. reflexivity.
    + left. reflexivity.
    + reflexivity.
Qed.
(** devices of the other kinds *)
Example C77_example :
  seen (process_config ex c0 (file
    ["SERVER EXECPATH=""/opt:/bin"" KEEPALIVE=OFF"; "CONSOLE NAME=""u"" DEV=""unix:sock"""; "CONSOLE NAME=""t"" DEV=""host:23""";
     "CONSOLE NAME=""p"" DEV=""ssh -l '%N' %N"""; "CONSOLE NAME=""i"" DEV=""ipmi:bmc"" IPMIOPTS=""U:root""";
     "CONSOLE NAME=""u"" DEV=""host:24"""; "CONSOLE DEV=""host:25"""; "CONSOLE NAME=""v"" DEV=""UNIX:/etc/sock"""]%string)) =
  Some ([OCon (zs "u") (UnixSock (zs "/etc/sock")); OCon (zs "t") (Telnet (zs "host") 23 false);
         OCon (zs "p") (Process [zs "/bin/ssh"; zs "-l"; zs "%N"; zs "p"]);
         OCon (zs "i") (Ipmi (zs "bmc") (match parse_ipmi_opts env_lib (g_iopts c0) (zs "U:root") with Ok (Some o) => o | _ => g_iopts c0 end))],
        [EConsole; EIncomplete; EConsole], 7890).
Proof. vm_compute. reflexivity. Qed.
Example C77_taken_example : exists er, read_config ex (set_objs c1 more_b false) (directive "CONSOLE" con_b) =
  Ok (add_err (set_objs (set_objs c1 more_b false) more_b er) EConsole).
Proof.
  destruct con_b_ok, con_b_words. eapply (C77_taken ex (set_objs c1 more_b false)); eauto; try reflexivity.
  - apply con_b_means. reflexivity.
  - intros [N _]. apply N. left. reflexivity.
Qed.
Example C78_example :
  sets ex c0 "SEROPTS" (zs "19200,7e2") (g_log c0, g_lopts c0, mkSer 19200 7 2 2, g_iopts c0, g_topts c0) /\
  server_sets ex c0 "LOGDIR" (VStr (zs "log")) (c_execpath c0, c_keepalive c0, zs "/etc/log") /\
  seen (read_config ex c0 (file
    ["CONSOLE NAME=""a"" DEV=""/dev/ttyS0"""; "GLOBAL SEROPTS=""19200,7e2"""; "CONSOLE NAME=""b"" DEV=""/dev/ttyS1"""]%string)) =
  Some ([OCon (zs "a") (Serial (zs "/dev/ttyS0") (mkSer 9600 8 0 1)); OCon (zs "b") (Serial (zs "/dev/ttyS1") (mkSer 19200 7 2 2))], [], -1).
Proof.
  split; [apply S_sopts; [apply not_blank; reflexivity|vm_compute; reflexivity]|].
  split; [|vm_compute; reflexivity]. apply V_logdir; [apply not_blank; reflexivity|]. right. split; [intros t X; discriminate X|reflexivity].
Qed.

(** ** What does not hold *)
(** An IPMI host whose name consists of digits is taken for a terminal server called "ipmi". *)
Theorem C76_ipmi_digits_refuted :
  seen (read_config ex c0 (file ["CONSOLE NAME=""a"" DEV=""ipmi:1"""]%string)) = Some ([OCon (zs "a") (Telnet (zs "ipmi") 1 true)], [], -1).
Proof. vm_compute. reflexivity. Qed.
(** A directory of the same name, earlier in EXECPATH, hides a program. *)
Theorem C76_directory_refuted :
  seen (read_config ex c0 (file ["SERVER EXECPATH=""/bin"""; "CONSOLE NAME=""a"" DEV=""tool"""]%string)) =
    Some ([OCon (zs "a") (Process [zs "/bin/tool"])], [], -1) /\
  seen (read_config ex c0 (file ["SERVER EXECPATH=""/opt:/bin"""; "CONSOLE NAME=""a"" DEV=""tool"""]%string)) = Some ([], [EConsole], -1).
Proof. split; vm_compute; reflexivity. Qed.
(** A port with too many digits is undefined behaviour, and so is an empty host where
    assertions are compiled in. *)
Theorem C76_port_refuted : read_config ex c0 (file ["CONSOLE NAME=""a"" DEV=""host:99999999999"""]%string) = UB SignedOverflow.
Proof. vm_compute. reflexivity. Qed.
(** An empty host fails an assertion where assertions are compiled in. *)
Theorem C76_empty_host_refuted : read_config (envx true) c0 (file ["CONSOLE NAME=""a"" DEV="":23"""]%string) = UB AssertFail.
Proof. vm_compute. reflexivity. Qed.
(** A line that is reported because its log is in use defines its console nevertheless. *)
Theorem C77_log_taken_refuted :
  seen (read_config ex c0 (file ["CONSOLE NAME=""a"" DEV=""host:1"" LOG=""/log"""; "CONSOLE NAME=""b"" DEV=""host:2"" LOG=""/log"""]%string)) =
  Some ([OLog (mkLog (zs "/log") None (view (zs "a") (Telnet (zs "host") 1 true))) (mkLogopt true false false);
         OCon (zs "a") (Telnet (zs "host") 1 true); OCon (zs "b") (Telnet (zs "host") 2 true)], [EConsole], -1).
Proof. vm_compute. reflexivity. Qed.
(** Two consoles may be connected to the same terminal server port. *)
Theorem C77_same_port_refuted :
  seen (read_config ex c0 (file ["CONSOLE NAME=""a"" DEV=""host:1"""; "CONSOLE NAME=""b"" DEV=""host:1"""]%string)) =
  Some ([OCon (zs "a") (Telnet (zs "host") 1 true); OCon (zs "b") (Telnet (zs "host") 1 true)], [], -1).
Proof. vm_compute. reflexivity. Qed.

(** ** C79 *)
Lemma cmdline_signal E : forall l c t c' t', process_cmdline E c t l = Ok (c', t') ->
  t' = match last_signal l with Some n => n | None => t end.
Proof.
  induction l as [|o l IH]; intros c t c' t' H; cbn [process_cmdline last_signal] in *; [injection H as <- <-; reflexivity|].
  destruct o.
  - destruct (atoi arg) as [n|]; cbn [bind] in H; [|discriminate]. destruct (n <? 0); [discriminate|]. apply IH in H. rewrite H. destruct (last_signal l); reflexivity.
  - apply IH in H. rewrite H. destruct (last_signal l); reflexivity.
  - apply IH in H. rewrite H. destruct (last_signal l); reflexivity.
  - apply IH in H. rewrite H. destruct (last_signal l); reflexivity.
Qed.
(** With one of the options -k, -r, -q no daemon is started; without, one is. *)
Theorem C79_signals : forall E c l f lock pids r, (forall n, In (OSignal n) l -> 0 <= n) -> start E c l f lock pids = Ok r ->
  match last_signal l with Some _ => exists p, r = Signalled p | None => exists c', r = Runs c' end.
Proof.
  intros E c l f lock pids r N H. unfold start in H. destruct (process_cmdline E c (-1) l) as [[c2 t]|] eqn:EC; cbn [bind] in H; [|discriminate].
  apply cmdline_signal in EC. subst t. destruct (last_signal l) as [n|] eqn:LS.
  - assert (I : In (OSignal n) l).
    { clear - LS. induction l as [|o l IH]; cbn [last_signal] in LS; [discriminate|]. destruct (last_signal l) as [m|]; [right; apply IH; exact LS|].
      destruct o; try discriminate. left. congruence. }
    apply N in I. destruct (Z.leb_spec 0 n); [|lia]. injection H as <-. eauto.
  - change (0 <=? -1) with false in H. cbv iota in H. destruct (process_config E c2 f); cbn [bind] in H; [|discriminate]. injection H as <-. eauto.
Qed.
(** The daemon that has the configuration file locked gets the signal; if there is none, the
    one whose process id is in the PID file given on the command line. *)
Theorem C79_target : forall E c l f lock pids r n, c_pidfile c = None -> last_signal l = Some n -> 0 <= n ->
  start E c l f lock pids = Ok r ->
  (lock <> 0 -> r = Signalled (Some lock)) /\
  (lock = 0 -> match last_pid l with
               | None => r = Signalled None
               | Some a => exists p, from_cwd E a p /\ r = Signalled (if pids p =? 0 then None else Some (pids p))
               end).
Proof.
  intros E c l f lock pids r n PN LS N H. unfold start in H. destruct (process_cmdline E c (-1) l) as [[c2 t]|] eqn:EC; cbn [bind] in H; [|discriminate].
  pose proof (cmdline_signal E l c (-1) c2 t EC) as T. rewrite LS in T. subst t. apply cmdline_pid in EC.
  destruct (Z.leb_spec 0 n); [|lia]. injection H as <-. unfold signal_target. split; intros L.
  - destruct (Z.eqb_spec lock 0); [contradiction|]. destruct (Z.eqb_spec lock 0); [contradiction|]. reflexivity.
  - subst lock. cbn [Z.eqb]. destruct (last_pid l) as [a|].
    + destruct EC as (p & FC & P). rewrite P. exists p. split; [exact FC|]. reflexivity.
    + rewrite EC, PN. reflexivity.
Qed.
(** What the file contains does not matter for this. *)
Theorem C79_any_file : forall E c l f f' lock pids n, last_signal l = Some n -> 0 <= n ->
  start E c l f lock pids = start E c l f' lock pids.
Proof.
  intros E c l f f' lock pids n LS N. unfold start. destruct (process_cmdline E c (-1) l) as [[c2 t]|] eqn:EC; cbn [bind]; [|reflexivity].
  apply cmdline_signal in EC. rewrite LS in EC. subst t. destruct (Z.leb_spec 0 n); [reflexivity|lia].
Qed.
(** So a PID file named only in the configuration file is of no use: a daemon that has
    lost its lock, and was started with the very same arguments, is not found. *)
Theorem C79_pidfile_in_file_refuted :
  let f := file ["SERVER PIDFILE=""/run/pid"""]%string in
  let pids p := if list_eqb p (zs "/run/pid") then 77 else 0 in
  (exists c, start ex c0 [] f 0 pids = Ok (Runs c) /\ c_pidfile c = Some (zs "/run/pid") /\ pids (zs "/run/pid") = 77) /\
  start ex c0 [OSignal 15] f 0 pids = Ok (Signalled None) /\
  start ex c0 [OSignal 15; OPid (zs "/run/pid")] f 0 pids = Ok (Signalled (Some 77)).
Proof. split; [eexists; split; [vm_compute; reflexivity|split; vm_compute; reflexivity]|]. split; vm_compute; reflexivity. Qed.
Example C79_example : start ex c0 [OPid (zs "x.pid"); OSignal 1] [] 0 (fun p => if list_eqb p (zs "/etc/x.pid") then 5 else 0) = Ok (Signalled (Some 5)) /\
  start ex c0 [OPid (zs "x.pid"); OSignal 1] [] 9 (fun p => if list_eqb p (zs "/etc/x.pid") then 5 else 0) = Ok (Signalled (Some 9)).
Proof. split; vm_compute; reflexivity. Qed.
Print Assumptions C51_lines_partial.
Print Assumptions C51_unknown_line.
Print Assumptions C51_blank_line.
Print Assumptions C51_errors_kept.
Print Assumptions C51_process_lines_partial.
Print Assumptions C51_timestamp_refuted.
Print Assumptions C51_nul_refuted.
Print Assumptions C51_errno_refuted.
Print Assumptions C51_char_255_refuted.
Print Assumptions C52_command_line_port.
Print Assumptions C52_command_line_pid.
Print Assumptions C52_first_port_partial.
Print Assumptions C52_first_line_port.
Print Assumptions C52_first_line_pid.
Print Assumptions C52_default_port.
Print Assumptions C52_no_pid.
Print Assumptions C52_settled.
Print Assumptions C52_same_line_refuted.
Print Assumptions C76_device_partial.
Print Assumptions C76_unambiguous.
Print Assumptions C76_refused.
Print Assumptions C77_defined_partial.
Print Assumptions C77_taken.
Print Assumptions C77_log_taken_alone.
Print Assumptions C77_too_long.
Print Assumptions C77_unmatched.
Print Assumptions C77_incomplete.
Print Assumptions C77_consistent.
Print Assumptions C77_kept.
Print Assumptions C78_default.
Print Assumptions C78_builtin.
Print Assumptions C78_setting.
Print Assumptions C78_setting_builtin.
Print Assumptions C76_ipmi_digits_refuted.
Print Assumptions C76_directory_refuted.
Print Assumptions C76_port_refuted.
Print Assumptions C76_empty_host_refuted.
Print Assumptions C77_log_taken_refuted.
Print Assumptions C77_same_port_refuted.
Print Assumptions C79_signals.
Print Assumptions C79_target.
Print Assumptions C79_any_file.
Print Assumptions C79_pidfile_in_file_refuted.
