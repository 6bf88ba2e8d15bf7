(** C118: the defaults for consoles, and CONSOLE lines that are rejected. *)
From Coq Require Import String.
From Verif Require Import Base BaseProof Chars Fmt LexModel StrModel FnameModel FnameSpec FnameProof OptModel StrSpec StrProof QuerySpec QueryProof LexSpec LexProof
  ConfModel ConfSpec ConfLex ConfLines ConfProof ConfText ConfDev ConfEffect ConfProps SetSpec SetProof SetProps GlobSpec GlobProof.
Local Open Scope Z_scope.
Local Open Scope list_scope.

(** The settings of a GLOBAL line are in force, one after the other, and nothing else is
    changed; they stay in force up to the next such line, whatever is between. *)
Theorem C118_line : forall E c pre c1 kvs d er,
  whole_lines E pre -> read_config E c pre = Ok c1 ->
  plain_text E (directive "GLOBAL" kvs) -> Forall (fun kv => value_ok E (snd kv)) kvs -> gives_all E (c_erange c1) (in_force c1) kvs d er ->
  (exists c2, read_config E c (pre ++ directive "GLOBAL" kvs) = Ok c2 /\ in_force c2 = d /\
     c_objs c2 = c_objs c1 /\ (forall k, shown c2 k = shown c1 k) /\ c_errs c2 = c_errs c1) /\
  (forall mid c', plain_text E mid -> ~ In (kw E "GLOBAL") (map fst (tokens_of E mid)) ->
     read_config E c (pre ++ directive "GLOBAL" kvs ++ mid) = Ok c' -> in_force c' = d).
Proof.
  intros E c pre c1 kvs d er WP R1 P V G. destruct (defaults_line E c1 kvs d er P V G) as (WL & c2 & R2 & D & _ & T & O & ER). split.
  - exists c2. split; [rewrite C51_lines_partial by auto; rewrite R1; exact R2|]. repeat split; auto. intros k. unfold shown. rewrite T. reflexivity.
  - intros mid c' PM NM R. rewrite C51_lines_partial in R by (auto using plain_app). rewrite R1 in R. cbn [bind] in R. rewrite C51_lines_partial in R by auto.
    rewrite R2 in R. cbn [bind] in R. rewrite read_config_tokens in R by auto. apply defaults_unset in R; auto. apply in_force_eq in R. congruence.
Qed.

(** What is not accepted is reported, once, and ends the line: what was set before it on the
    line stays, the rest of the line has no effect. *)
Theorem C118_refused : forall E c pre c1 good k v more d er,
  whole_lines E pre -> read_config E c pre = Ok c1 ->
  plain_text E (directive "GLOBAL" (good ++ (k, v) :: more)) ->
  Forall (fun kv => known_word E (fst kv) /\ value_ok E (snd kv)) (good ++ (k, v) :: more) ->
  gives_all E (c_erange c1) (in_force c1) good d er -> not_given E er d k v ->
  exists c2 e, read_config E c (pre ++ directive "GLOBAL" (good ++ (k, v) :: more)) = Ok c2 /\ in_force c2 = d /\
     c_objs c2 = c_objs c1 /\ (forall k, shown c2 k = shown c1 k) /\ c_errs c2 = c_errs c1 ++ [e].
Proof.
  intros E c pre c1 good k v more d er WP R1 P KV G H.
  assert (KV' : Forall (fun kv => is_kw E (fst kv) /\ value_ok E (snd kv)) (good ++ (k, v) :: more)).
  { eapply Forall_impl; [|exact KV]. intros a [A B]. split; [apply known_kw; exact A|exact B]. }
  destruct (defaults_bad E c1 good k v more d er P KV' G H) as (c2 & e & R2 & D & T & O & ER).
  exists c2, e. split; [rewrite C51_lines_partial by auto; rewrite R1; exact R2|]. repeat split; auto. intros k0. unfold shown. rewrite T. reflexivity.
Qed.

(** The two cases leave nothing out and do not overlap. *)
Theorem C118_every : forall E er d k v, known_word E k ->
  (forall s u, v = VStr s -> parse_ipmi_opts (e_lib E) (d_iopts d) s <> UB u) ->
  (exists d' er', gives E er d k v d' er') /\ ~ not_given E er d k v \/
  not_given E er d k v /\ ~ (exists d' er', gives E er d k v d' er').
Proof.
  intros E er d k v K NU.
  assert (BD : forall s, blank_text s \/ ~ blank_text s).
  { intros s. destruct (forallb isspace s) eqn:B; [left; apply blank_ok; auto|right; intros X; apply blank_ok in X; congruence]. }
  assert (EX : forall d' er', gives E er d k v d' er' -> ~ not_given E er d k v).
  { intros d' er' G N. destruct G; inversion N; subst; try congruence; try (cbn in *; intuition congruence);
      try match goal with X : In 38 ?s, B : blank_text ?s |- _ => unfold blank_text in B; rewrite Forall_forall in B; specialize (B _ X); discriminate end. }
  assert (G : (exists d' er', gives E er d k v d' er') -> (exists d' er', gives E er d k v d' er') /\ ~ not_given E er d k v \/
    not_given E er d k v /\ ~ (exists d' er', gives E er d k v d' er')) by (intros (d' & er' & G); left; split; eauto).
  assert (N : not_given E er d k v -> (exists d' er', gives E er d k v d' er') /\ ~ not_given E er d k v \/
    not_given E er d k v /\ ~ (exists d' er', gives E er d k v d' er')) by (intros N; right; split; [auto|intros (d' & er' & X); eapply EX; eauto]).
  assert (C : In k no_default \/ In k ["LOG"; "LOGOPTS"; "SEROPTS"; "TESTOPTS"]%string \/ k = "IPMIOPTS"%string /\ e_ipmi E = true).
  { destruct K as [K|K]; [|auto]. cbn [conf_words no_settings switches strings app In] in K. repeat (destruct K as [<-|K]; [cbn; tauto|]). destruct K. }
  destruct C as [C|C]; [apply N, N_other; auto|].
  destruct v as [s|n|w]; [|apply N; destruct C as [C|[-> C]]; [apply N_kind|apply N_ikind]; auto; discriminate..].
  destruct (BD s) as [B|B].
  - destruct C as [C|[-> C]]; [|apply N, N_iblank; auto]. cbn [In] in C. destruct C as [<-|C]; [apply G; eexists _, _; apply G_nolog; auto|].
    apply N, N_blank; auto.
  - destruct C as [C|[-> C]].
    + cbn [In] in C. destruct C as [<-|[<-|[<-|[<-|[]]]]].
      * destruct (has_char AMP s) eqn:A; [apply has_char_ok in A; apply N, N_amp; auto|].
        assert (NA : ~ In 38 s) by (intros X; apply has_char_ok in X; unfold AMP in A; congruence).
        destruct (negb (has_spec 78 s) && negb (has_spec 68 s)) eqn:PC.
        -- apply N, N_shared; auto. intros X. apply per_ok in X. congruence.
        -- apply G. eexists _, _. apply G_log; auto. apply per_ok; auto.
      * destruct (parse_logfile_opts (d_lopts d) s) eqn:PO; [apply G; eexists _, _; apply G_lopts; eauto|apply N, N_lopts; auto].
      * destruct (parse_serial_opts (e_wrap E) (d_sopts d) s) eqn:PO; [apply G; eexists _, _; apply G_sopts; eauto|apply N, N_sopts; auto].
      * destruct (parse_test_opts er (d_topts d) s) as [[o|] er'] eqn:PO; [apply G; eexists _, _; apply G_topts; eauto|eapply N, N_topts; eauto].
    + destruct (parse_ipmi_opts (e_lib E) (d_iopts d) s) as [[o|]|u] eqn:PO; [apply G; eexists _, _; apply G_iopts; eauto|apply N, N_iopts; auto|].
      destruct (NU s u eq_refl PO).
Qed.

(** A CONSOLE line with something that is not accepted is reported, once; it defines no
    console and changes nothing else, whatever is on it before and after. *)
Theorem C118_console : forall E c pre c1 good k v more,
  whole_lines E pre -> read_config E c pre = Ok c1 ->
  plain_text E (directive "CONSOLE" (good ++ (k, v) :: more)) ->
  Forall (fun kv => known_word E (fst kv) /\ value_ok E (snd kv)) (good ++ (k, v) :: more) ->
  Forall (console_pair E) good -> no_pair E k v ->
  exists e, read_config E c (pre ++ directive "CONSOLE" (good ++ (k, v) :: more)) = Ok (add_err c1 e) /\
    (Forall (fun kv => fst kv <> "TIMESTAMP"%string) ((k, v) :: more) -> forall post, plain_text E post ->
     read_config E c (pre ++ directive "CONSOLE" (good ++ (k, v) :: more) ++ post) = read_config E (add_err c1 e) post).
Proof.
  intros E c pre c1 good k v more WP R1 P KV GP H.
  assert (KV' : Forall (fun kv => is_kw E (fst kv) /\ value_ok E (snd kv)) (good ++ (k, v) :: more)).
  { eapply Forall_impl; [|exact KV]. intros a [A B]. split; [apply known_kw; exact A|exact B]. }
  destruct (console_bad E c1 good k v more P KV' GP H) as (e & R2). exists e. split.
  - rewrite C51_lines_partial by auto. rewrite R1. exact R2.
  - intros NT post PP. rewrite C51_lines_partial by (auto using plain_app). rewrite R1. cbn [bind].
    rewrite C51_lines_partial; [rewrite R2; reflexivity| |auto].
    apply line_whole; auto; [apply kws_ok; cbn; tauto|clear; destruct E as [? ? ? ? ? ? ? [] ? ? ? ? ?]; vm_compute; congruence|].
    assert (TS : forall x, known_word E x -> x <> "TIMESTAMP"%string -> kw E x <> kw E "TIMESTAMP").
    { clear. intros x [K|[-> K]] N.
      - destruct E as [? ? ? ? ? ? ? b ? ? ? ? ?]. cbn [conf_words no_settings switches strings app In] in K.
        repeat (destruct K as [<-|K]; [try congruence; destruct b; vm_compute; congruence|]). destruct K.
      - destruct E as [? ? ? ? ? ? ? b ? ? ? ? ?]. destruct b; vm_compute; congruence. }
    apply Forall_app in KV. destruct KV as [KG KB]. apply Forall_app. split.
    + apply Forall_forall. intros kv I. rewrite Forall_forall in KG. apply TS; [apply (KG _ I)|].
      pose proof (console_key E good (fst kv) GP (in_map fst _ _ I)) as X. intros EQ. rewrite EQ in X. cbn in X. intuition discriminate.
    + rewrite Forall_forall in KB, NT |- *. intros kv I. apply TS; [apply (KB _ I)|apply (NT _ I)].
Qed.
(** What is not accepted there is all that does not describe a console. *)
Theorem C118_console_every : forall E k v, known_word E k -> value_ok E v -> console_pair E (k, v) /\ ~ no_pair E k v \/ no_pair E k v /\ ~ console_pair E (k, v).
Proof.
  intros E k v K V.
  assert (EX : console_pair E (k, v) -> ~ no_pair E k v).
  { unfold console_pair. cbn [fst snd]. intros C N. destruct v as [s|n|w]; [|contradiction..]. destruct C as [_ C].
    inversion N; subst; try (match goal with X : forall s, _ |- _ => destruct (X s eq_refl) end); cbn in *; intuition (try congruence; subst; intuition congruence). }
  assert (C : In k not_console \/ In k ["NAME"; "DEV"; "LOG"; "LOGOPTS"; "SEROPTS"; "TESTOPTS"]%string \/ k = "IPMIOPTS"%string /\ e_ipmi E = true).
  { destruct K as [K|K]; [|auto]. cbn [conf_words no_settings switches strings app In] in K. repeat (destruct K as [<-|K]; [cbn; tauto|]). destruct K. }
  assert (N : no_pair E k v -> console_pair E (k, v) /\ ~ no_pair E k v \/ no_pair E k v /\ ~ console_pair E (k, v)) by (intros N; right; split; [auto|intros X; apply EX in X; auto]).
  assert (G : console_pair E (k, v) -> console_pair E (k, v) /\ ~ no_pair E k v \/ no_pair E k v /\ ~ console_pair E (k, v)) by (intros G; left; auto).
  destruct C as [C|C]; [apply N, P_other; auto|].
  destruct v as [s|n|w]; [|apply N; destruct C as [C|[-> C]]; [apply P_kind|apply P_ikind]; auto; discriminate..].
  cbn [value_ok] in V. unfold console_pair in *. cbn [fst snd] in *.
  destruct C as [C|[-> C]]; [|apply G; split; auto 10].
  assert (BD : blank_text s \/ ~ blank_text s).
  { destruct (forallb isspace s) eqn:B; [left; apply blank_ok; auto|right; intros X; apply blank_ok in X; congruence]. }
  assert (AD : In 38 s \/ ~ In 38 s) by (destruct (in_dec Z.eq_dec 38 s); auto).
  cbn [In] in C. destruct C as [<-|[<-|[<-|[<-|[<-|[<-|[]]]]]]]; try (destruct BD as [B|B]; [apply N, P_blank; [clear; cbn; solve [auto 10]|exact B]|apply G; split; [exact V|left; split; [clear; cbn; solve [auto 10]|exact B]]]).
  - destruct AD; [apply N, P_amp; assumption|apply G; split; [exact V|right; left; split; [reflexivity|assumption]]].
  - apply G. split; [exact V|right; right; left; reflexivity].
Qed.

(** ** Examples *)
Definition gs1 : list (string * value) :=
  [("LOG"%string, VStr (zs "/log/%N")); ("LOGOPTS"%string, VStr (zs "sanitize")); ("SEROPTS"%string, VStr (zs "115200,8n1")); ("LOGOPTS"%string, VStr (zs "timestamp"))].
Example C118_example : exists c1 d, read_config ex c0 lines1 = Ok c1 /\ whole_lines ex lines1 /\ plain_text ex (directive "GLOBAL" gs1) /\
  Forall (fun kv => value_ok ex (snd kv)) gs1 /\ gives_all ex (c_erange c1) (in_force c1) gs1 d (c_erange c1) /\
  (d_log d, d_lopts d, d_sopts d) = (Some (zs "/log/%N"), mkLogopt true true true, mkSer 115200 8 0 1) /\
  not_given ex (c_erange c1) d "LOG" (VStr (zs "/log/all")) /\ not_given ex (c_erange c1) d "SEROPTS" (VStr (zs "115200,9n1")).
Proof.
  destruct (read_config ex c0 lines1) as [c1|] eqn:R; [|vm_compute in R; discriminate].
  assert (I : g_lopts c1 = mkLogopt true false false /\ g_sopts c1 = mkSer 9600 8 0 1) by (vm_compute in R; injection R as <-; split; reflexivity).
  clear R. destruct I as [I1 I2].
  assert (NB : forall s, forallb isspace s = false -> ~ blank_text s) by (intros s H B; apply blank_ok in B; congruence).
  exists c1. eexists. split; [reflexivity|]. split; [apply whole_ok; reflexivity|]. split; [apply plain_ok; reflexivity|]. split.
  { unfold gs1. repeat apply Forall_cons; try apply Forall_nil; cbn [snd value_ok]; apply quotable_zs; try reflexivity; apply Nat.ltb_lt; reflexivity. }
  split.
  { unfold gs1. eapply GA_cons; [apply G_log; [apply NB; reflexivity| |]|].
    - intros X. apply has_char_ok in X. discriminate.
    - apply per_ok. reflexivity.
    - eapply GA_cons; [apply G_lopts; [apply NB; reflexivity|cbn [in_force d_lopts]; rewrite I1; reflexivity]|].
      eapply GA_cons; [apply G_sopts; [apply NB; reflexivity|cbn [in_force d_sopts]; rewrite I2; reflexivity]|].
      eapply GA_cons; [apply G_lopts; [apply NB; reflexivity|reflexivity]|]. apply GA_nil. }
  split; [reflexivity|]. split.
  - apply N_shared; [apply NB; reflexivity|]. intros X. apply per_ok in X. discriminate.
  - apply N_sopts. vm_compute. reflexivity.
Qed.
Example C118_console_example : no_pair ex "NAME" (VStr (zs " ")) /\ no_pair ex "LOG" (VStr (zs "&")) /\ no_pair ex "PORT" (VNum (zs "1")) /\
  seen (process_config ex c0 (file ["CONSOLE NAME=""a"" PORT=1 DEV=""host:7001"""; "CONSOLE NAME=""b"" DEV=""host:7001"""]%string)) =
    Some ([OCon (zs "b") (Telnet (zs "host") 7001 true)], [EToken (zs "PORT")], 7890).
Proof.
  split; [apply P_blank; [cbn; tauto|apply blank_ok; reflexivity]|]. split; [apply P_amp; cbn; tauto|]. split; [apply P_other; cbn; tauto|]. vm_compute. reflexivity.
Qed.

(** ** What does not hold *)
(** A default log has to name a log of its own for each console.  But a percent sign that
    stands for itself, before N, is taken for that: the line is accepted and all consoles
    have the same log, without a report. *)
Theorem C118_shared_refuted : ~ (forall E c f c' n1 n2 d1 d2 l1 l2 o1 o2 t,
  process_config E c f = Ok c' -> c_errs c' = [] -> In (OCon n1 d1) (c_objs c') -> In (OCon n2 d2) (c_objs c') -> n1 <> n2 ->
  In (OLog l1 o1) (c_objs c') -> In (OLog l2 o2) (c_objs c') -> l_con l1 = view n1 d1 -> l_con l2 = view n2 d2 ->
  expands (Some (conv (view n1 d1))) (e_pid E) (e_tm E) (l_name l1) t -> ~ expands (Some (conv (view n2 d2))) (e_pid E) (e_tm E) (l_name l2) t).
Proof.
  intros X.
  assert (XP : forall con pid tm, expands con pid tm (zs "/etc/log%%N") (zs "/etc/log%N")).
  { intros con pid tm. cbn [zs map String.list_ascii_of_string].
    do 8 (apply X_char; [vm_compute; congruence|]). apply (X_spec con pid tm 37 [37]); [apply T_percent|]. apply X_char; [vm_compute; congruence|apply X_end]. }
  destruct (process_config ex c0 (file ["GLOBAL LOG=""log%%N"""; "CONSOLE NAME=""a"" DEV=""host:7001"""; "CONSOLE NAME=""b"" DEV=""host:7002"""]%string)) as [c'|] eqn:R;
    [|vm_compute in R; discriminate].
  assert (V : seen (Ok c') = Some ([OLog (mkLog (zs "/etc/log%%N") (Some (zs "/etc/log%%N")) (view (zs "a") (Telnet (zs "host") 7001 true))) (mkLogopt true false false);
    OCon (zs "a") (Telnet (zs "host") 7001 true);
    OLog (mkLog (zs "/etc/log%%N") (Some (zs "/etc/log%%N")) (view (zs "b") (Telnet (zs "host") 7002 true))) (mkLogopt true false false);
    OCon (zs "b") (Telnet (zs "host") 7002 true)], [], 7890)) by (rewrite <- R; vm_compute; reflexivity).
  cbn [seen] in V. injection V as VO VE _.
  refine (X ex c0 _ c' _ _ _ _ _ _ _ _ (zs "/etc/log%N") R VE _ _ _ _ _ _ _ _ _); clear X R; rewrite ?VO.
  - right. left. reflexivity.
  - right. right. right. left. reflexivity.
  - discriminate.
  - left. reflexivity.
  - right. right. left. reflexivity.
  - reflexivity.
  - reflexivity.
  - apply XP.
  - apply XP.
Qed.

Print Assumptions C118_line.
Print Assumptions C118_refused.
Print Assumptions C118_every.
Print Assumptions C118_console.
Print Assumptions C118_console_every.
Print Assumptions C118_shared_refuted.
