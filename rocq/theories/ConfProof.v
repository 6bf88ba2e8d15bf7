(** Proofs about the configuration: what later lines leave alone, and the consoles. *)
From Coq Require Import String.
From Verif Require Import Base BaseProof Chars Fmt LexModel StrModel FnameModel FnameSpec FnameProof OptModel QuerySpec QueryProof LexSpec LexProof
  ConfModel ConfSpec ConfLex ConfLines.
Local Open Scope Z_scope.
Local Open Scope list_scope.

(** ** Relations kept by every directive *)
Section Kept.
Variable E : env.
(** what is known of all tokens *)
Variable T : Z -> Prop.
Hypothesis T_eof : T LEX_EOF.
Variable R : conf -> conf -> Prop.
Hypothesis R_refl : forall c, R c c.
Hypothesis R_trans : forall a b c, R a b -> R b c -> R a c.
Hypothesis R_err : forall c e, R c (add_err c e).
Hypothesis R_console : forall c name d n c' bad, process_console E c name d n = Ok (c', bad) -> R c c'.
Hypothesis R_global : forall tok c k x c' e, T (kw E "GLOBAL") -> T tok -> global_val E tok c k x = Ok (c', e) -> R c c'.
Hypothesis R_server : forall c0 tok c k x c' e, T (kw E "SERVER") -> T tok ->
  R c0 c -> server_val E (match c_pidfile c0 with Some _ => true | None => false end) (0 <=? c_port c0) tok c k x = Ok (c', e) -> R c0 c'.
Hypothesis R_stamp : forall c v, T (kw E "SERVER") -> R c (set_tstamp c v).

Definition all_t (s : strm) : Prop := Forall (fun p => T (fst p)) (rest s).
Lemma next_t s : all_t s -> T (prev (next s)) /\ all_t (next s).
Proof.
  destruct s as [k x r]. unfold all_t, next. cbn [rest]. destruct r as [|[k1 x1] r]; cbn; intros H; [auto|]. inversion H; subst. auto.
Qed.
Lemma skip_toks_t r : forall k x, Forall (fun p => T (fst p)) r -> all_t (skip_toks k x r).
Proof.
  induction r as [|[k1 x1] r IH]; intros k x H; cbn [skip_toks]; destruct (at_end k); unfold all_t; cbn [rest]; auto.
  inversion H; subst. apply IH. auto.
Qed.

Lemma finish_kept c0 c e s c' s' : R c0 c -> all_t s -> finish c e s = (c', s') -> R c0 c' /\ all_t s'.
Proof.
  intros H A. destruct e; cbn [finish]; intros X; injection X as <- <-; split; eauto.
  unfold skip_line. apply skip_toks_t. exact A.
Qed.

Lemma valued_t {A} f (c : A) s c' e s' : all_t s -> valued f c s = Ok (c', e, s') -> all_t s'.
Proof.
  unfold valued, eq_val. intros H. apply next_t in H. destruct H as [_ H]. destruct (_ =? EQUALS); cbn [negb].
  - destruct (f c _ _) as [[c1 e1]|]; cbn [bind fst snd]; [|discriminate]. intros X. injection X as <- <- <-. apply next_t. exact H.
  - intros X. injection X as <- <- <-. exact H.
Qed.
Lemma valued_kept c0 f c s c' e s' : R c0 c ->
  (forall k x c' e, f c k x = Ok (c', e) -> R c0 c') -> valued f c s = Ok (c', e, s') -> R c0 c'.
Proof.
  unfold valued, eq_val. intros H F. destruct (_ =? EQUALS); cbn [negb].
  - destruct (f c _ _) as [[c1 e1]|] eqn:EF; cbn [bind fst snd]; [|discriminate]. intros X. injection X as <- <- <-. eapply F; eauto.
  - intros X. injection X as <- <- <-. exact H.
Qed.
Lemma loop_kept {A} (Q : A -> Prop) (kwd : A -> strm -> res (A * option cerr * strm)) :
  (forall c s c' e s', Q c -> T (prev s) -> all_t s -> kwd c s = Ok (c', e, s') -> Q c' /\ all_t s') ->
  forall n c s c' e s', Q c -> all_t s -> dir_loop kwd n c s = Ok (c', e, s') -> Q c' /\ all_t s'.
Proof.
  intros K. induction n as [|n IH]; intros c s c' e s' H A1; cbn [dir_loop]; [discriminate|].
  apply next_t in A1. destruct A1 as [A1 A2].
  destruct (at_end _); [intros X; injection X as <- <- <-; auto|].
  destruct (_ =? LEX_ERR); [intros X; injection X as <- <- <-; auto|].
  destruct (kwd c (next s)) as [[[c1 e1] s1]|] eqn:EK; cbn [bind]; [|discriminate]. apply K in EK; auto. destruct EK as [H1 A3].
  destruct e1; [intros X; injection X as <- <- <-; auto|]. apply IH; auto.
Qed.
Lemma timestamp_kept c0 c s c' e s' : T (kw E "SERVER") -> R c0 c -> all_t s -> timestamp_kwd c s = Ok (c', e, s') -> R c0 c' /\ all_t s'.
Proof.
  intros HS H A. apply next_t in A. destruct A as [_ A]. pose proof (proj2 (next_t _ A)) as A2. pose proof (proj2 (next_t _ A2)) as A3.
  unfold timestamp_kwd, eq_val. destruct (_ =? EQUALS); cbn [negb]; [|intros X; injection X as <- <- <-; auto].
  destruct (_ =? LEX_INT); cbn [negb]; [|intros X; injection X as <- <- <-; auto].
  destruct (atoi _) as [v|]; cbn [bind]; [|discriminate]. destruct (v <? 0); [intros X; injection X as <- <- <-; auto|].
  match goal with |- (do m <- ?r; _) = _ -> _ => destruct r as [w|] end; cbn [bind]; [|discriminate].
  destruct (w <? 0); intros X; injection X as <- <- <-; split; eauto.
Qed.
Lemma server_kept c s c' s' : T (kw E "SERVER") -> all_t s -> parse_server_directive E c s = Ok (c', s') -> R c c' /\ all_t s'.
Proof.
  intros HS A. unfold parse_server_directive. destruct (dir_loop _ _ _ _) as [[[c1 e1] s1]|] eqn:EL; cbn [bind]; [|discriminate].
  intros X. apply (loop_kept (R c)) in EL; auto.
  { assert (X' : finish c1 e1 s1 = (c', s')) by congruence. destruct EL. revert X'. apply finish_kept; auto. }
  intros c2 s2 c3 e3 s3 H T2 A2. unfold server_kwd. destruct (_ =? _); [apply timestamp_kept; auto|].
  assert (V : valued (server_val E (match c_pidfile c with Some _ => true | None => false end) (0 <=? c_port c) (prev s2)) c2 s2 = Ok (c3, e3, s3) -> R c c3 /\ all_t s3).
  { intros V. split; [|eapply valued_t; eauto]. revert V. apply valued_kept; auto. intros k x c4 e4. apply R_server; auto. }
  destruct (_ =? _); [destruct (e_tcpw E); [exact V|intros Y; injection Y as <- <- <-; auto]|].
  destruct (among _ _ _); [exact V|]. intros Y. injection Y as <- <- <-. auto.
Qed.
Lemma global_kept c s c' s' : T (kw E "GLOBAL") -> all_t s -> parse_global_directive E c s = Ok (c', s') -> R c c' /\ all_t s'.
Proof.
  intros HG A. unfold parse_global_directive. destruct (dir_loop _ _ _ _) as [[[c1 e1] s1]|] eqn:EL; cbn [bind]; [|discriminate].
  intros X. apply (loop_kept (R c)) in EL; auto.
  { assert (X' : finish c1 e1 s1 = (c', s')) by congruence. destruct EL. revert X'. apply finish_kept; auto. }
  intros c2 s2 c3 e3 s3 H T2 A2. unfold global_kwd. destruct (among _ _ _); [|intros Y; injection Y as <- <- <-; auto].
  intros V. split; [|eapply valued_t; eauto]. revert V.
  apply valued_kept; auto. intros k x c4 e4 EV. eapply R_trans; [exact H|]. eapply R_global; eauto.
Qed.
Lemma console_kept c s c' s' : all_t s -> parse_console_directive E c s = Ok (c', s') -> R c c' /\ all_t s'.
Proof.
  intros A. unfold parse_console_directive. destruct (dir_loop _ _ _ _) as [[[n e] t]|] eqn:EL; cbn [bind]; [|discriminate].
  apply (loop_kept (fun _ => True)) in EL; auto.
  2:{ clear A. intros n1 s1 n1' e1 s1' _ T1 A. unfold console_kwd. destruct (among _ _ _); [|intros Y; injection Y as <- <- <-; auto].
      intros V. split; [auto|]. eapply valued_t; eauto. }
  destruct EL as [_ At].
  assert (F : forall e, Ok (finish c e t) = Ok (c', s') -> R c c' /\ all_t s').
  { intros e0 X. assert (X' : finish c e0 t = (c', s')) by congruence. revert X'. apply finish_kept; auto. }
  destruct e; [apply F|].
  destruct (n_name n); [|apply F]. destruct (n_dev n); [|apply F].
  destruct (process_console _ _ _ _ _) as [[c1 bad]|] eqn:EP; cbn [bind]; [|discriminate].
  intros X. assert (X' : finish c1 (if bad then Some EConsole else None) t = (c', s')) by congruence. revert X'. apply finish_kept; auto. eapply R_console; eauto.
Qed.
Lemma config_kept : forall n c s c', all_t s -> config_loop n E c s = Ok c' -> R c c'.
Proof.
  induction n as [|n IH]; intros c s c' A; cbn [config_loop]; [discriminate|]. apply next_t in A. destruct A as [TK A].
  destruct (_ =? LEX_EOF); [intros X; injection X as <-; auto|].
  destruct (_ =? kw E "CONSOLE").
  { destruct (parse_console_directive _ _ _) as [[c1 s1]|] eqn:ED; cbn [bind fst snd]; [|discriminate].
    apply console_kept in ED; auto. destruct ED. intros X. eapply R_trans; eauto. }
  destruct (_ =? kw E "GLOBAL") eqn:EG.
  { apply Z.eqb_eq in EG. rewrite EG in TK. destruct (parse_global_directive _ _ _) as [[c1 s1]|] eqn:ED; cbn [bind fst snd]; [|discriminate].
    apply global_kept in ED; auto. destruct ED. intros X. eapply R_trans; eauto. }
  destruct (_ =? kw E "SERVER") eqn:ES.
  { apply Z.eqb_eq in ES. rewrite ES in TK. destruct (parse_server_directive _ _ _) as [[c1 s1]|] eqn:ED; cbn [bind fst snd]; [|discriminate].
    apply server_kept in ED; auto. destruct ED. intros X. eapply R_trans; eauto. }
  destruct (_ =? LEX_EOL); [apply IH; auto|]. destruct (_ =? LEX_ERR); intros X; (eapply R_trans; [eapply R_err|]); eapply IH; try exact X; auto.
  unfold skip_line. apply skip_toks_t. exact A.
Qed.
Lemma toks_kept c ts c' : Forall (fun p => T (fst p)) ts -> parse_toks E c ts = Ok c' -> R c c'.
Proof. unfold parse_toks. intros A. apply config_kept. exact A. Qed.
Lemma read_kept c f c' : (forall k, T k) -> read_config E c f = Ok c' -> R c c'.
Proof.
  intros A. unfold read_config. destruct (lex_all _ _ _) as [[ts l]|]; cbn [bind fst]; [|discriminate]. apply toks_kept.
  apply Forall_forall. auto.
Qed.
End Kept.

(** ** What process_console() does to the settings: only objects and errno *)
Lemma console_shape E c name d n c' bad : process_console E c name d n = Ok (c', bad) ->
  exists objs er, c' = set_objs c objs er.
Proof.
  assert (I : c = set_objs c (c_objs c) (c_erange c)) by (destruct c; reflexivity).
  unfold process_console. destruct (dev_args _ _ _) as [[args|]|]; cbn [bind]; [| |discriminate].
  2:{ intros X. injection X as <- <-. eauto. }
  destruct (find_dev _ _ _ _) as [[[dv|] er]|]; cbn [bind]; [| |discriminate].
  2:{ intros X. injection X as <- <-. eauto. }
  destruct (create_console _ _ _ _) as [[objs|]|]; cbn [bind]; [| |discriminate].
  2:{ intros X. injection X as <- <-. eauto. }
  destruct (log_name _ _); [|intros X; injection X as <- <-; eauto].
  destruct (match n_lopts n with None => _ | Some s => _ end); [|intros X; injection X as <- <-; eauto].
  destruct (create_logfile _ _ _ _ _ _ _) as [[ls|]|]; cbn [bind]; [| |discriminate].
  2:{ intros X. injection X as <- <-. eauto. }
  destruct (rev ls); [discriminate|]. intros X. injection X as <- <-. eexists _, _. reflexivity.
Qed.

(** ** Port and PID file *)
Definition kept_ports (c c' : conf) : Prop :=
  (0 <= c_port c -> c_port c' = c_port c) /\ (c_pidfile c <> None -> c_pidfile c' = c_pidfile c).
Lemma kept_ports_trans a b c : kept_ports a b -> kept_ports b c -> kept_ports a c.
Proof.
  intros [A1 A2] [B1 B2]. split.
  - intros H. rewrite B1, A1 by (try rewrite A1; auto). reflexivity.
  - intros H. rewrite B2, A2 by (try rewrite A2; auto). reflexivity.
Qed.

Ltac settle := repeat match goal with
  | |- (if ?b then _ else _) = _ -> _ => destruct b
  | |- (do _ <- ?r; _) = _ -> _ => destruct r; cbn [bind]
  | |- (match ?x with _ => _ end) = _ -> _ => destruct x
  | |- Ok (if ?b then _ else _) = Ok _ -> _ => destruct b
  | |- Ok (match ?x with _ => _ end) = Ok _ -> _ => destruct x
  | |- Ok _ = Ok _ -> _ => let X := fresh in intros X; injection X; clear X; intros; subst
  | |- UB _ = Ok _ -> _ => discriminate
  end.

Lemma global_shape E tok c k x c' e : global_val E tok c k x = Ok (c', e) ->
  c_port c' = c_port c /\ c_pidfile c' = c_pidfile c /\ c_objs c' = c_objs c.
Proof. unfold global_val. settle; repeat split; reflexivity. Qed.

Lemma server_ports E c0 tok c k x c' e : kept_ports c0 c ->
  server_val E (match c_pidfile c0 with Some _ => true | None => false end) (0 <=? c_port c0) tok c k x = Ok (c', e) -> kept_ports c0 c'.
Proof.
  intros K. unfold server_val, on_off.
  destruct (0 <=? c_port c0) eqn:P0, (c_pidfile c0) eqn:F0; settle; try exact K; destruct K as [K1 K2]; split; intros H; cbn;
    try lia; try congruence; auto; try (rewrite F0 in *; auto).
Qed.

Lemma ports_kept E c f c' : read_config E c f = Ok c' -> kept_ports c c'.
Proof.
  apply (read_kept E (fun _ => True)); auto.
  - intros d. split; auto.
  - apply kept_ports_trans.
  - intros d e. split; auto.
  - intros d name dv n d' bad H. apply console_shape in H. destruct H as (o & er & ->). split; auto.
  - intros tok d k x d' e _ _ H. apply global_shape in H. destruct H as (P & F & O). unfold kept_ports. rewrite P, F. auto.
  - intros. eapply server_ports; eauto.
  - intros d v _. split; auto.
Qed.

(** ** Objects *)
Lemma create_console_ok E name d objs objs' : create_console E name d objs = Ok (Some objs') ->
  objs' = objs ++ [OCon name d] /\ existsb (fun o => has_name name o || same_dev d o) objs = false /\
  match d with UnixSock p => (length p <= e_sun E)%nat | Telnet _ port _ => 0 < port | _ => True end.
Proof.
  unfold create_console. destruct (assert_if _ _); cbn [bind]; [|discriminate].
  destruct (_ || existsb _ _) eqn:B; [discriminate|]. intros X. injection X as <-. apply orb_false_iff in B. destruct B as [B1 B2].
  split; [auto|]. split; [auto|]. destruct d; auto.
  - apply Nat.ltb_ge in B1. exact B1.
  - apply Z.leb_gt in B1. exact B1.
Qed.

Lemma insert_fresh name x objs : existsb (has_name name) objs = false -> forall d,
  insert_before name x (objs ++ [OCon name d]) = objs ++ [x; OCon name d].
Proof.
  intros H d. induction objs as [|o objs IH]; cbn [app insert_before existsb] in *.
  - cbn [has_name]. rewrite (proj2 (strcmp_eq name name) eq_refl). reflexivity.
  - apply orb_false_iff in H. destruct H as [H1 H2]. rewrite H1, IH; auto.
Qed.
Lemma existsb_or {A} (f g : A -> bool) l : existsb (fun x => f x || g x) l = false -> existsb f l = false /\ existsb g l = false.
Proof.
  induction l as [|a l IH]; cbn [existsb]; [auto|]. intros H. apply orb_false_iff in H. destruct H as [H1 H2].
  apply orb_false_iff in H1. destruct H1 as [-> ->]. apply IH in H2. exact H2.
Qed.

(** The three ways a CONSOLE line can end *)
Definition console_adds (E : env) (objs : list cobj) (name : list Z) (more : list cobj) : Prop :=
  more = [] \/ exists d, existsb (fun o => has_name name o || same_dev d o) objs = false /\ dev_good E d /\
    (more = [OCon name d] \/
     exists l lo ls tm buf lname, more = [OLog l lo; OCon name d] /\ l_con l = view name d /\ ls = logs_of objs ++ [l] /\
       create_logfile (e_iso E) (e_pid E) tm buf lname (view name d) (logs_of objs) = Ok (Some ls)).

Lemma logs_app a b : logs_of (a ++ b) = logs_of a ++ logs_of b.
Proof. induction a as [|[]]; cbn; auto. f_equal; auto. Qed.

Lemma at_colon_ok s : forall a b, at_colon s = Some (a, b) -> s = a ++ COLON :: b /\ ~ In COLON a.
Proof.
  induction s as [|c s IH]; intros a b; cbn [at_colon]; [discriminate|]. destruct (Z.eqb_spec c COLON) as [->|N].
  - intros X. injection X as <- <-. split; [reflexivity|intros []].
  - destruct (at_colon s) as [[a' b']|]; [|discriminate]. intros X. injection X as <- <-.
    destruct (IH _ _ eq_refl) as [-> NI]. split; [reflexivity|]. intros [H|H]; [congruence|auto].
Qed.
Lemma atoi_max s v : atoi s = Ok v -> v <= INT_MAX.
Proof.
  unfold atoi. match goal with |- (if ?b then _ else _) = _ -> _ => destruct b eqn:B end; [|discriminate].
  intros X. injection X as <-. apply andb_prop in B. destruct B as [_ B]. apply Z.leb_le in B. exact B.
Qed.

Lemma serial_ok E s p : is_serial_dev E s = Some p -> e_stat E p = Chr.
Proof.
  unfold is_serial_dev. destruct (full_path _ _) as [q|]; [|discriminate]. destruct (e_stat E q) eqn:ES; try discriminate.
  intros X. injection X as <-. exact ES.
Qed.
Lemma process_ok E path s p : is_process_dev E path s = Some p -> e_stat E p = Reg /\ e_x E p = true.
Proof.
  unfold is_process_dev. destruct (match _ with Some f => Some f | None => _ end) as [q|]; [|discriminate].
  destruct (e_stat E q) eqn:ES; try discriminate. destruct (e_x E q) eqn:EX; [|discriminate]. intros X. injection X as <-. auto.
Qed.
Lemma telnet_ok s h port : is_telnet_dev s = Ok (Some (h, port)) -> port <= INT_MAX /\ ~ In COLON h.
Proof.
  unfold is_telnet_dev. destruct (_ <=? _)%nat; [discriminate|]. destruct (at_colon s) as [[a b]|] eqn:EC; [|discriminate].
  apply at_colon_ok in EC. destruct EC as [_ NI]. destruct b as [|c b]; [discriminate|]. destruct (forallb _ _); [|discriminate].
  destruct (atoi _) as [v|] eqn:EA; cbn [bind]; [|discriminate]. intros X. injection X as <- <-. split; [eapply atoi_max; eauto|auto].
Qed.
Lemma ipmi_ok s h : is_ipmi_dev s = Some h -> h <> [].
Proof. unfold is_ipmi_dev. destruct (starts _ _); [|discriminate]. destruct (skipn 5 s); [discriminate|]. intros X. injection X as <-. discriminate. Qed.

Lemma find_dev_good E c n args d er : find_dev E c n args = Ok (Some d, er) ->
  match d with UnixSock p => (length p <= e_sun E)%nat | Telnet _ port _ => 0 < port | _ => True end -> dev_good E d.
Proof.
  unfold find_dev. destruct args as [|a0 more]; [discriminate|].
  destruct (is_unixsock_dev E a0).
  { destruct more; [|discriminate]. intros X. injection X as <- <-. auto. }
  destruct (is_telnet_dev a0) as [[[h port]|]|] eqn:ET; cbn [bind]; [| |discriminate].
  { apply telnet_ok in ET. destruct more; [|discriminate]. intros X. injection X as <- <-. intros P. cbn [dev_good]. tauto. }
  destruct (is_serial_dev E a0) as [p|] eqn:ES.
  { apply serial_ok in ES. destruct more; cbn [negb]; [|discriminate]. destruct (e_rw E p) eqn:RW; cbn [negb]; [|discriminate].
    destruct (n_sopts n) as [so|]; [destruct (parse_serial_opts _ _ so); [|discriminate]|]; intros X; injection X as <- <-; intros _; cbn [dev_good]; auto. }
  destruct (is_process_dev E (c_execpath c) a0) as [p|] eqn:EP.
  { apply process_ok in EP. intros X; injection X as <- <-; intros _; cbn [dev_good]; auto. }
  destruct (if e_ipmi E then is_ipmi_dev a0 else None) as [h|] eqn:EI.
  { destruct (e_ipmi E) eqn:EJ; [|discriminate]. apply ipmi_ok in EI. destruct more; cbn [negb]; [|discriminate].
    destruct (n_iopts n) as [io|]; [destruct (parse_ipmi_opts _ _ io) as [[o|]|]; cbn [bind]; try discriminate|];
      intros X; injection X as <- <-; intros _; cbn [dev_good]; auto. }
  destruct (_ || _); [discriminate|]. destruct (n_topts n) as [s|]; [|intros X; injection X as <- <-; intros _; exact I].
  destruct (parse_test_opts _ _ s) as [[o|] er']; [|discriminate]. intros X. injection X as <- <-. intros _. exact I.
Qed.

Lemma create_logfile_shape iso pid tm buf name con logs ls :
  create_logfile iso pid tm buf name con logs = Ok (Some ls) -> exists l, ls = logs ++ [l] /\ l_con l = con.
Proof.
  unfold create_logfile. settle; try discriminate;
    try (match goal with H : Some _ = Some _ |- _ => injection H as <- end); eexists; split; reflexivity.
Qed.

Lemma console_objs E c name d n c' bad : process_console E c name d n = Ok (c', bad) ->
  exists more, c_objs c' = c_objs c ++ more /\ console_adds E (c_objs c) name more.
Proof.
  unfold process_console. destruct (dev_args _ _ _) as [[args|]|]; cbn [bind]; [| |discriminate].
  2:{ intros X. injection X as <- <-. exists []. rewrite app_nil_r. split; [auto|left; auto]. }
  destruct (find_dev _ _ _ _) as [[[dv|] er]|] eqn:EF; cbn [bind]; [| |discriminate].
  2:{ intros X. injection X as <- <-. exists []. rewrite app_nil_r. split; [auto|left; auto]. }
  destruct (create_console _ _ _ _) as [[objs|]|] eqn:EC; cbn [bind]; [| |discriminate].
  2:{ intros X. injection X as <- <-. exists []. rewrite app_nil_r. split; [auto|left; auto]. }
  apply create_console_ok in EC. destruct EC as (-> & EX & DV). pose proof (find_dev_good _ _ _ _ _ _ EF DV) as DG.
  assert (ONE : forall (c' : conf) (bad : bool), Ok (set_objs c (c_objs c ++ [OCon name dv]) er, bad) = Ok (c', bad) ->
    exists more, c_objs c' = c_objs c ++ more /\ console_adds E (c_objs c) name more).
  { intros c1 b1 X. injection X as <-. exists [OCon name dv]. split; [reflexivity|]. right. exists dv. auto. }
  destruct (log_name _ _) as [lname|]; [|intros X; injection X as <- <-; exact (ONE _ true eq_refl)].
  destruct (match n_lopts n with None => _ | Some s => _ end) as [lo|]; [|intros X; injection X as <- <-; exact (ONE _ true eq_refl)].
  rewrite logs_app. cbn [logs_of]. rewrite app_nil_r.
  destruct (create_logfile _ _ _ _ _ _ _) as [[ls|]|] eqn:EL; cbn [bind]; [| |discriminate].
  2:{ intros X; injection X as <- <-; exact (ONE _ true eq_refl). }
  destruct (create_logfile_shape _ _ _ _ _ _ _ _ EL) as (l & -> & LC). rewrite rev_app_distr. cbn [rev app].
  intros X. injection X as <- <-. apply existsb_or in EX as EX'. destruct EX' as [E1 E2].
  rewrite (insert_fresh _ _ _ E1). exists [OLog l lo; OCon name dv]. split; [reflexivity|].
  right. exists dv. split; [auto|]. split; [auto|]. right. exists l, lo, (logs_of (c_objs c) ++ [l]), (e_tm E), (repeat 0 MAX_LINE), lname. auto.
Qed.

(** Later lines only add. *)
Definition only_adds (c c' : conf) : Prop := exists more, c_objs c' = c_objs c ++ more.
Lemma server_objs E p t tok c k x c' e : server_val E p t tok c k x = Ok (c', e) -> c_objs c' = c_objs c.
Proof. unfold server_val, on_off. settle; try reflexivity; destruct p, t; reflexivity. Qed.
Lemma adds_kept E c f c' : read_config E c f = Ok c' -> only_adds c c'.
Proof.
  apply (read_kept E (fun _ => True)); auto.
  - intros d. exists []. rewrite app_nil_r. auto.
  - intros a b d [m1 H1] [m2 H2]. exists (m1 ++ m2). rewrite H2, H1, app_assoc. auto.
  - intros d e. exists []. rewrite app_nil_r. auto.
  - intros d name dv n d' bad H. apply console_objs in H. destruct H as (m & H & _). exists m. auto.
  - intros tok d k x d' e _ _ H. apply global_shape in H. destruct H as (P & F & O). exists []. rewrite app_nil_r. auto.
  - intros c0 tok d k x d' e _ _ [m H] S. exists m. rewrite (server_objs _ _ _ _ _ _ _ _ _ S). auto.
  - intros d v _. exists []. rewrite app_nil_r. auto.
Qed.

(** ** The objects stay good *)
Lemma names_app a b : names (a ++ b) = names a ++ names b.
Proof. unfold names. apply flat_map_app. Qed.
Lemma sockets_app a b : sockets (a ++ b) = sockets a ++ sockets b.
Proof. unfold sockets. apply flat_map_app. Qed.
Lemma serials_app a b : serials (a ++ b) = serials a ++ serials b.
Proof. unfold serials. apply flat_map_app. Qed.
Lemma ipmis_app a b : ipmis (a ++ b) = ipmis a ++ ipmis b.
Proof. unfold ipmis. apply flat_map_app. Qed.
Lemma paired_app a b : paired a -> paired b -> paired (a ++ b).
Proof.
  intros A B. assert (G : forall n a, (length a <= n)%nat -> paired a -> paired (a ++ b)); [|eapply G; eauto].
  clear a A. induction n as [|n IH]; intros [|o a] L A; cbn [length] in L; try lia; auto.
  cbn [app]. destruct o as [nm d|l o]; cbn [paired] in *; [apply IH; auto; lia|].
  destruct a as [|[nm d|? ?] a]; try contradiction. cbn [app]. cbn [length] in L. destruct A as [A1 A2]. split; auto. apply IH; auto; lia.
Qed.
Lemma nodup_snoc {A} (l : list A) x : NoDup l -> ~ In x l -> NoDup (l ++ [x]).
Proof.
  induction l as [|a l IH]; intros N I; cbn [app]; [constructor; auto|]. inversion N; subst. constructor.
  - intros X. apply in_app_or in X. destruct X as [X|[X|[]]]; [auto|]. apply I. left. auto.
  - apply IH; auto. intros X. apply I. right. auto.
Qed.
Lemma no_name name objs : existsb (has_name name) objs = false -> ~ In name (names objs).
Proof.
  intros H I. unfold names in I. apply in_flat_map in I. destruct I as (o & I & X). destruct o as [n d|]; [|destruct X].
  destruct X as [->|[]]. assert (existsb (has_name name) objs = true); [|congruence]. apply existsb_exists. eexists. split; [exact I|].
  cbn. rewrite (proj2 (strcmp_eq name name) eq_refl). reflexivity.
Qed.
Lemma no_dev d objs : existsb (same_dev d) objs = false ->
  match d with
  | UnixSock p => ~ In p (sockets objs) | Serial p _ => ~ In p (serials objs) | Ipmi h _ => ~ In h (ipmis objs) | _ => True
  end.
Proof.
  intros H. assert (F : forall o, In o objs -> same_dev d o = false).
  { intros o I. destruct (same_dev d o) eqn:EQ; auto. rewrite <- H. symmetry. apply existsb_exists. eauto. }
  destruct d; auto; intros I; [unfold sockets in I|unfold serials in I|unfold ipmis in I];
    apply in_flat_map in I; destruct I as (q & I & X); destruct q as [n d|]; try destruct X; destruct d; try destruct X; subst; try contradiction;
    apply F in I; cbn [same_dev] in I; rewrite (proj2 (strcmp_eq _ _) eq_refl) in I; discriminate.
Qed.

Lemma adds_good E objs name more : console_adds E objs name more -> objs_good E objs -> objs_good E (objs ++ more).
Proof.
  intros [->|(d & EX & DG & M)] G; [rewrite app_nil_r; exact G|]. apply existsb_or in EX. destruct EX as [E1 E2].
  apply no_name in E1. apply no_dev in E2.
  assert (H : forall m, (m = [OCon name d] \/ exists l lo, m = [OLog l lo; OCon name d]) ->
     names m = [name] /\ NoDup (sockets objs ++ sockets m) /\ NoDup (serials objs ++ serials m) /\ NoDup (ipmis objs ++ ipmis m)).
  { intros m [->|(l & lo & ->)]; (split; [reflexivity|]); destruct G; destruct d; cbn [sockets serials ipmis flat_map app];
      rewrite ?app_nil_r; (split; [|split]); auto; apply nodup_snoc; auto. }
  destruct M as [->|(l & lo & ls & tm & buf & lname & -> & LC & -> & CL)].
  - destruct (H _ (or_introl eq_refl)) as (N & S1 & S2 & S3). destruct G. constructor.
    + rewrite names_app, N. apply nodup_snoc; auto.
    + rewrite sockets_app; auto.
    + rewrite serials_app; auto.
    + rewrite ipmis_app; auto.
    + apply paired_app; cbn; auto.
    + rewrite logs_app. cbn [logs_of]. rewrite app_nil_r. auto.
    + intros n d' I. apply in_app_or in I. destruct I as [I|[I|[]]]; eauto. injection I as <- <-. auto.
  - destruct (H _ (or_intror (ex_intro _ l (ex_intro _ lo eq_refl)))) as (N & S1 & S2 & S3). destruct G. constructor.
    + rewrite names_app, N. apply nodup_snoc; auto.
    + rewrite sockets_app; auto.
    + rewrite serials_app; auto.
    + rewrite ipmis_app; auto.
    + apply paired_app; cbn; auto.
    + rewrite logs_app. cbn [logs_of]. eapply C_add; eauto.
    + intros n d' I. apply in_app_or in I. destruct I as [I|[I|[I|[]]]]; eauto; [discriminate|]. injection I as <- <-. auto.
Qed.

Definition keeps_good E (c c' : conf) : Prop := objs_good E (c_objs c) -> objs_good E (c_objs c').
Lemma good_kept E c f c' : read_config E c f = Ok c' -> keeps_good E c c'.
Proof.
  apply (read_kept E (fun _ => True)); unfold keeps_good; auto.
  - intros d name dv n d' bad H G. apply console_objs in H. destruct H as (m & H & A). rewrite H. eapply adds_good; eauto.
  - intros tok d k x d' e _ _ H G. apply global_shape in H. destruct H as (P & F & O). rewrite O. auto.
  - intros c0 tok d k x d' e _ _ H S G. rewrite (server_objs _ _ _ _ _ _ _ _ _ S). auto.
Qed.
Lemma good_nil E : objs_good E [].
Proof. constructor; cbn; try constructor. intros n d []. Qed.

(** ** No PORT (PIDFILE) in the file *)
Definition same_port (c c' : conf) : Prop := c_port c' = c_port c.
Lemma port_unset E c ts c' : ~ In (kw E "PORT") (map fst ts) -> parse_toks E c ts = Ok c' -> c_port c' = c_port c.
Proof.
  intros N. apply (toks_kept E (fun k => k <> kw E "PORT") ) with (R := same_port).
  - destruct E as [? ? ? ? ? ? ? [] ? ? ? ? ?]; vm_compute; congruence.
  - reflexivity.
  - unfold same_port. congruence.
  - reflexivity.
  - intros d name dv n d' bad H. apply console_shape in H. destruct H as (o & er & ->). reflexivity.
  - intros tok d k x d' e _ _ H. apply global_shape in H. apply H.
  - unfold same_port. intros c0 tok d k x d' e _ NT K. unfold server_val, on_off. apply Z.eqb_neq in NT. rewrite NT.
    settle; auto; destruct (c_pidfile c0); auto.
  - reflexivity.
  - apply Forall_forall. intros [k x] I. cbn. intros ->. apply N. apply in_map_iff. exists (kw E "PORT", x). auto.
Qed.
Definition same_pid (c c' : conf) : Prop := c_pidfile c' = c_pidfile c.
Lemma pid_unset E c ts c' : ~ In (kw E "PIDFILE") (map fst ts) -> parse_toks E c ts = Ok c' -> c_pidfile c' = c_pidfile c.
Proof.
  intros N. apply (toks_kept E (fun k => k <> kw E "PIDFILE") ) with (R := same_pid).
  - destruct E as [? ? ? ? ? ? ? [] ? ? ? ? ?]; vm_compute; congruence.
  - reflexivity.
  - unfold same_pid. congruence.
  - reflexivity.
  - intros d name dv n d' bad H. apply console_shape in H. destruct H as (o & er & ->). reflexivity.
  - intros tok d k x d' e _ _ H. apply global_shape in H. apply H.
  - unfold same_pid. intros c0 tok d k x d' e _ NT K. unfold server_val, on_off. apply Z.eqb_neq in NT. rewrite NT.
    settle; auto; destruct (0 <=? c_port c0); auto.
  - reflexivity.
  - apply Forall_forall. intros [k x] I. cbn. intros ->. apply N. apply in_map_iff. exists (kw E "PIDFILE", x). auto.
Qed.

(** Errors are only added. *)
Definition errs_add (c c' : conf) : Prop := exists more, c_errs c' = c_errs c ++ more.
Lemma errs_kept E c f c' : read_config E c f = Ok c' -> errs_add c c'.
Proof.
  apply (read_kept E (fun _ => True)); auto.
  - intros d. exists []. rewrite app_nil_r. auto.
  - intros a b d [m1 H1] [m2 H2]. exists (m1 ++ m2). rewrite H2, H1, app_assoc. auto.
  - intros d e. exists [e]. reflexivity.
  - intros d name dv n d' bad H. apply console_shape in H. destruct H as (o & er & ->). exists []. rewrite app_nil_r. reflexivity.
  - intros tok d k x d' e _ _ H. exists []. rewrite app_nil_r. revert H. unfold global_val. settle; reflexivity.
  - intros c0 tok d k x d' e _ _ [m H] S. exists m. rewrite <- H. revert S. unfold server_val, on_off. settle; try reflexivity;
      destruct (c_pidfile c0), (0 <=? c_port c0); reflexivity.
  - intros d v _. exists []. rewrite app_nil_r. auto.
Qed.

(** ** Defaults change only by GLOBAL, settings only by SERVER *)
Lemma no_token E k ts : ~ In (kw E k) (map fst ts) -> Forall (fun p : Z * list Z => fst p <> kw E k) ts.
Proof.
  intros N. apply Forall_forall. intros [k1 x] I. cbn. intros ->. apply N. apply in_map_iff. exists (kw E k, x). auto.
Qed.
Lemma defaults_unset E c ts c' : ~ In (kw E "GLOBAL") (map fst ts) -> parse_toks E c ts = Ok c' -> defaults c' = defaults c.
Proof.
  intros N. apply (toks_kept E (fun k => k <> kw E "GLOBAL")) with (R := fun a b => defaults b = defaults a).
  - apply not_eq_sym. apply kw_neq. cbn. auto.
  - reflexivity.
  - congruence.
  - reflexivity.
  - intros d name dv n d' bad H. apply console_shape in H. destruct H as (o & er & ->). reflexivity.
  - intros tok d k x d' e NG. congruence.
  - intros c0 tok d k x d' e _ _ <-. unfold server_val, on_off. settle; auto; destruct (c_pidfile c0), (0 <=? c_port c0); auto.
  - reflexivity.
  - apply no_token. auto.
Qed.
Lemma settings_unset E c ts c' : ~ In (kw E "SERVER") (map fst ts) -> parse_toks E c ts = Ok c' -> settings c' = settings c.
Proof.
  intros N. apply (toks_kept E (fun k => k <> kw E "SERVER")) with (R := fun a b => settings b = settings a).
  - apply not_eq_sym. apply kw_neq. cbn. auto.
  - reflexivity.
  - congruence.
  - reflexivity.
  - intros d name dv n d' bad H. apply console_shape in H. destruct H as (o & er & ->). reflexivity.
  - intros tok d k x d' e _ _. unfold global_val. settle; reflexivity.
  - intros c0 tok d k x d' e NG. congruence.
  - congruence.
  - apply no_token. auto.
Qed.
