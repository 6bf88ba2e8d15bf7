(** The effect of whole directives. *)
From Coq Require Import String.
From Verif Require Import Base BaseProof Chars Fmt LexModel StrModel FnameModel FnameSpec FnameProof OptModel StrSpec StrProof QuerySpec QueryProof LexSpec LexProof
  ConfModel ConfSpec ConfLex ConfLines ConfProof ConfText ConfDev.
Local Open Scope Z_scope.
Local Open Scope list_scope.

(** ** The loop over the keywords *)
Inductive steps {A} (E : env) (val : Z -> A -> Z -> list Z -> res (A * option cerr)) : A -> list (string * value) -> A -> Prop :=
| S_nil a : steps E val a [] a
| S_cons a k v kvs a1 a2 : val (kw E k) a (fst (val_tok E v)) (snd (val_tok E v)) = Ok (a1, None) -> steps E val a1 kvs a2 ->
    steps E val a ((k, v) :: kvs) a2.

Lemma at_end_kw E k : at_end (kw E k) = false.
Proof.
  unfold at_end. rewrite orb_false_iff, !Z.eqb_neq. split; apply kw_neq; cbn; auto.
Qed.
Lemma err_kw E k : (kw E k =? LEX_ERR) = false.
Proof. apply Z.eqb_neq. apply kw_neq. cbn. auto. Qed.

Lemma loop_pairs {A} E (val : Z -> A -> Z -> list Z -> res (A * option cerr)) (kwd : A -> strm -> res (A * option cerr * strm)) kvs :
  (forall k a s, In k (map fst kvs) -> prev s = kw E k -> kwd a s = valued (val (kw E k)) a s) ->
  forall a a' n k x t r, steps E val a kvs a' -> (length kvs < n)%nat ->
  dir_loop kwd n a (mkStrm k x (flat_map (pair_toks E) kvs ++ (LEX_EOL, t) :: r)) = Ok (a', None, mkStrm LEX_EOL t r).
Proof.
  induction kvs as [|[k1 v1] kvs IH]; intros K a a' n k x t r S L; (destruct n as [|n]; [cbn [length] in L; lia|]).
  - inversion S; subst. reflexivity.
  - inversion S as [|? ? ? ? a1 ? V S']; subst. cbn [flat_map pair_toks app fst snd]. cbn [dir_loop next rest prev].
    rewrite at_end_kw, err_kw. rewrite (K k1) by (try reflexivity; left; reflexivity). unfold valued, eq_val. cbn [next rest prev text].
    rewrite Z.eqb_refl. cbn [negb]. destruct (val_tok E v1) as [vk vx] eqn:EV. cbn [next rest prev text]. cbn [fst snd] in V. rewrite V. cbn [bind fst snd].
    apply IH; auto.
    + intros k0 b s I. apply K. right. exact I.
    + cbn [length] in L. lia.
Qed.
Lemma pairs_length E kvs : length (flat_map (pair_toks E) kvs) = (3 * length kvs)%nat.
Proof. induction kvs as [|kv kvs IH]; cbn [flat_map length]; auto. rewrite app_length, IH. cbn. lia. Qed.

(** ** Blank strings *)
Lemma is_empty_ok E s : plain_text E s -> is_empty_string (e_iso E) s = Ok (forallb isspace s).
Proof.
  intros (C & I). unfold is_empty_string. induction s as [|c s IH]; [reflexivity|]. inversion C; subst.
  rewrite ctype_ok; [|apply lf_space|unfold char_ok in *; lia|intros J; specialize (I J); inversion I; auto].
  cbn [bind forallb]. destruct (isspace c); cbn [andb]; [|reflexivity]. apply IH; auto. intros J. specialize (I J). inversion I; auto.
Qed.
Lemma blank_ok s : forallb isspace s = true <-> blank_text s.
Proof. unfold blank_text. rewrite forallb_forall, Forall_forall. reflexivity. Qed.
Lemma full_ok E s : plain_text E s -> ~ blank_text s -> full_str E LEX_STR s = Ok true.
Proof.
  intros P N. unfold full_str. rewrite Z.eqb_refl, is_empty_ok by auto. cbn [bind]. destruct (forallb isspace s) eqn:B; [|reflexivity].
  apply blank_ok in B. contradiction.
Qed.

(** ** CONSOLE *)
Definition log_of (c : conf) (s : list Z) : list Z :=
  if forallb isspace s then [] else if absolute s then s else c_logdir c ++ SLASH :: s.
Definition or_else {A} (a b : option A) : option A := match a with Some _ => a | None => b end.
Definition updated (c : conf) (n : constrs) (kvs : list (string * value)) : constrs :=
  mkStrs (or_else (last_str "NAME" kvs) (n_name n)) (or_else (last_str "DEV" kvs) (n_dev n))
    (or_else (option_map (log_of c) (last_str "LOG" kvs)) (n_log n)) (or_else (last_str "LOGOPTS" kvs) (n_lopts n))
    (or_else (last_str "SEROPTS" kvs) (n_sopts n)) (or_else (last_str "IPMIOPTS" kvs) (n_iopts n)) (or_else (last_str "TESTOPTS" kvs) (n_topts n)).

Lemma last_str_cons E k k' s t : Forall (console_pair E) t -> last_str k ((k', VStr s) :: t) =
  or_else (last_str k t) (if String.eqb k k' then Some s else None).
Proof.
  intros F. unfold last_str, or_else. cbn [last_val]. destruct (last_val k t) as [v|] eqn:LV; [|destruct (String.eqb k k'); reflexivity].
  assert (I : exists k1, In (k1, v) t).
  { clear F. revert v LV. induction t as [|[k1 v1] t IH]; intros v LV; cbn [last_val] in LV; [discriminate|].
    destruct (last_val k t) as [w|]; [injection LV as <-; destruct (IH _ eq_refl) as [k2 I]; exists k2; right; auto|].
    destruct (String.eqb k k1); [injection LV as <-; exists k1; left; auto|discriminate]. }
  destruct I as [k1 I]. rewrite Forall_forall in F. specialize (F _ I). unfold console_pair in F. cbn [fst snd] in F. destruct v; try contradiction. reflexivity.
Qed.

Ltac decide_kw := repeat match goal with |- context [kw ?E ?a =? kw ?E ?b] =>
  let t := constr:(Z.eqb (kw E a) (kw E b)) in
  first [ replace t with true by (destruct E as [? ? ? ? ? ? ? [] ? ? ? ? ?]; vm_compute; reflexivity)
        | replace t with false by (destruct E as [? ? ? ? ? ? ? [] ? ? ? ? ?]; vm_compute; reflexivity) ] end.

Lemma console_step E c n k s : console_pair E (k, VStr s) -> plain_text E s ->
  console_val E c (kw E k) n LEX_STR s = Ok (updated c n [(k, VStr s)], None).
Proof.
  intros (Q & H) P. cbn [fst snd] in H. destruct n. unfold updated, last_str. cbn [last_val].
  destruct H as [[I N]|[[-> N]|[->|[-> EI]]]].
  - unfold console_val. cbn [In] in I. destruct I as [<-|[<-|[<-|[<-|[]]]]]; decide_kw; rewrite full_ok by auto; reflexivity.
  - transitivity (Ok (upd_log (mkStrs n_name n_dev n_log n_lopts n_sopts n_iopts n_topts) (Some (log_of c s)), @None cerr)); [|reflexivity].
    unfold console_val. decide_kw. change (LEX_STR =? LEX_STR) with true. cbn [negb].
    destruct (has_char AMP s) eqn:HA; [apply has_char_ok in HA; contradiction|]. rewrite is_empty_ok by auto. cbn [bind].
    unfold log_of. destruct (forallb isspace s); [reflexivity|]. destruct (absolute s); reflexivity.
  - unfold console_val. decide_kw. reflexivity.
  - unfold console_val.
    replace (kw E "IPMIOPTS" =? kw E "LOG") with false by (destruct E as [? ? ? ? ? ? ? [] ? ? ? ? ?]; vm_compute; reflexivity).
    rewrite Z.eqb_refl. reflexivity.
Qed.
Lemma console_steps E c kvs : Forall (console_pair E) kvs -> Forall (fun kv => plain_text E (show (snd kv))) kvs ->
  forall n, steps E (console_val E c) n kvs (updated c n kvs).
Proof.
  induction 1 as [|[k v] kvs H F IH]; intros P n.
  - replace (updated c n []) with n by (destruct n; reflexivity). constructor.
  - inversion P as [|? ? PV P']; subst. cbn [fst snd] in *. destruct v as [s| |]; try (destruct H; fail); try contradiction.
    assert (PS : plain_text E s).
    { destruct PV as [C I]. cbn [show] in *. split.
      - inversion C; subst. match goal with X : Forall _ (s ++ _) |- _ => apply Forall_app in X; apply X end.
      - intros J. specialize (I J). inversion I; subst. match goal with X : Forall _ (s ++ _) |- _ => apply Forall_app in X; apply X end. }
    econstructor; [cbn [val_tok fst snd]; apply console_step; auto|].
    replace (updated c n ((k, VStr s) :: kvs)) with (updated c (updated c n [(k, VStr s)]) kvs); [apply IH; auto|].
    unfold updated. cbn [n_name n_dev n_log n_lopts n_sopts n_iopts n_topts].
    rewrite !(last_str_cons E _ k s kvs F). rewrite !(last_str_cons E _ k s [] (Forall_nil _)).
    unfold last_str at 2 4 6 8 10 12 14. cbn [last_val].
    f_equal; unfold or_else, option_map; repeat match goal with |- context [last_str ?a kvs] => destruct (last_str a kvs) end;
      repeat match goal with |- context [String.eqb ?a k] => destruct (String.eqb a k) end; reflexivity.
Qed.

Lemma show_plain E d kvs : plain_text E (directive d kvs) -> Forall (fun kv => plain_text E (show (snd kv))) kvs.
Proof.
  unfold directive. intros P. assert (P1 : plain_text E (flat_map (fun kv => SPACE :: zs (fst kv) ++ EQUALS :: show (snd kv)) kvs)).
  { destruct P as [C I]. split; [apply Forall_app in C; destruct C as [_ C]; apply Forall_app in C; apply C|].
    intros J. specialize (I J). apply Forall_app in I; destruct I as [_ I]; apply Forall_app in I; apply I. }
  clear P. apply Forall_forall. intros kv I. destruct P1 as [C IS]. split.
  - apply Forall_forall. intros x X. unfold chars_ok in C. rewrite Forall_forall in C. apply C. apply in_flat_map. exists kv. split; auto.
    right. apply in_or_app. right. right. auto.
  - intros J. specialize (IS J). apply Forall_forall. intros x X. rewrite Forall_forall in IS. apply IS. apply in_flat_map. exists kv. split; auto.
    right. apply in_or_app. right. right. auto.
Qed.
Lemma console_pairs_kw E kvs : Forall (console_pair E) kvs -> Forall (fun kv => is_kw E (fst kv) /\ value_ok E (snd kv)) kvs.
Proof.
  intros F. eapply Forall_impl; [|exact F]. intros [k v] H. unfold console_pair in H. cbn [fst snd] in *. destruct v; try contradiction.
  destruct H as [Q H]. split; [|exact Q]. destruct H as [[I _]|[[-> _]|[->|[-> EI]]]]; [|apply kws_ok; cbn; tauto..|apply ipmi_kw; auto].
  apply kws_ok. cbn [In] in I. destruct I as [<-|[<-|[<-|[<-|[]]]]]; cbn; tauto.
Qed.
Lemma console_key E kvs k : Forall (console_pair E) kvs -> In k (map fst kvs) -> In k console_kws.
Proof.
  intros F I. apply in_map_iff in I. destruct I as ([k1 v] & EQ & I). cbn [fst] in EQ. subst k1. rewrite Forall_forall in F. specialize (F _ I).
  unfold console_pair in F. cbn [fst snd] in F. destruct v; try contradiction. unfold console_kws. cbn [In] in *. destruct F as [_ F]. intuition.
Qed.

Lemma console_line E c kvs name dev : plain_text E (directive "CONSOLE" kvs) -> Forall (console_pair E) kvs ->
  last_str "NAME" kvs = Some name -> last_str "DEV" kvs = Some dev ->
  read_config E c (directive "CONSOLE" kvs) =
  do r <- process_console E c name dev (updated c (mkStrs None None None None None None None) kvs);
  let '(c', bad) := r in Ok (if bad then add_err c' EConsole else c').
Proof.
  intros P F LN LD. rewrite read_config_tokens by auto. rewrite directive_toks; [|apply kws_ok; cbn; tauto|apply console_pairs_kw; auto|apply P].
  unfold parse_toks, fuel_of. cbn [rest length].
  rewrite app_length. cbn [length]. rewrite Nat.add_comm. cbn [Nat.add]. cbn [config_loop next rest prev].
  replace (kw E "CONSOLE" =? LEX_EOF) with false by (symmetry; apply Z.eqb_neq, kw_neq; cbn; auto). rewrite Z.eqb_refl.
  unfold parse_console_directive.
  rewrite (loop_pairs E (console_val E c) _ kvs) with (a' := updated c (mkStrs None None None None None None None) kvs).
  2:{ intros k a s I EQ. unfold console_kwd. rewrite EQ. replace (among E (kw E k) console_kws) with true; [reflexivity|].
      symmetry. apply existsb_exists. exists k. split; [eapply console_key; eauto|apply Z.eqb_refl]. }
  2:{ apply console_steps; auto. eapply show_plain; eauto. }
  2:{ unfold fuel_of. cbn [rest]. rewrite app_length, pairs_length. lia. }
  cbn [bind]. unfold updated at 1 2. cbn [n_name n_dev]. rewrite LN, LD. cbn [or_else].
  destruct (process_console _ _ _ _ _) as [[c1 bad]|]; cbn [bind]; [|reflexivity].
  destruct bad; cbn [finish bind fst snd].
  - unfold skip_line. cbn [prev text rest skip_toks]. reflexivity.
  - reflexivity.
Qed.

(** ** What a CONSOLE line makes *)
Lemma unused_ok objs name d : unused objs name d -> existsb (fun o => has_name name o || same_dev d o) objs = false.
Proof.
  intros [N D]. destruct (existsb _ objs) eqn:EX; auto. exfalso. apply existsb_exists in EX. destruct EX as (o & I & H). apply orb_prop in H.
  destruct o as [n d'|]; [|destruct H; discriminate]. cbn [has_name same_dev] in H. destruct H as [H|H].
  - apply Z.eqb_eq, strcmp_eq in H. subst. apply N. unfold names. apply in_flat_map. exists (OCon name d'). split; [auto|left; auto].
  - destruct d', d; try discriminate; apply Z.eqb_eq, strcmp_eq in H; subst; apply D;
      [unfold sockets|unfold serials|unfold ipmis]; apply in_flat_map; (eexists; split; [exact I|left; reflexivity]).
Qed.
Lemma used_ok objs name d : ~ unused objs name d -> existsb (fun o => has_name name o || same_dev d o) objs = true.
Proof.
  intros N. destruct (existsb _ objs) eqn:EX; auto. destruct N. apply existsb_or in EX. destruct EX as [E1 E2]. split; [apply no_name; auto|].
  apply no_dev in E2. destruct d; auto.
Qed.
Lemma plain_gchar E s : plain_text E s -> Forall (gchar (e_iso E)) s.
Proof.
  intros [C I]. apply Forall_forall. intros c IC. unfold chars_ok in C. rewrite Forall_forall in C. specialize (C _ IC). split; [exact C|].
  intros J. specialize (I J). rewrite Forall_forall in I. apply I. auto.
Qed.
Lemma shown_view name d : conv (view name d) = (name, shown d).
Proof. destruct d; reflexivity. Qed.
Lemma conv_inj a b : conv a = conv b -> a = b.
Proof. destruct a as [n [| |]], b as [n' [| |]]; unfold conv; cbn; congruence. Qed.
Lemma view_ok E name d : plain_text E name -> dev_text E d -> obj_ok (e_iso E) (Some (view name d)).
Proof. intros N D. split; cbn; [apply plain_gchar; auto|]. destruct d; cbn in *; auto; apply plain_gchar; auto. Qed.

Lemma in_dir_eq dir s p : in_dir dir s p -> (if absolute s then s else dir ++ SLASH :: s) = p.
Proof.
  intros [[A ->]|[N ->]]; [apply absolute_ok in A; rewrite A; reflexivity|].
  destruct (absolute s) eqn:AB; [apply absolute_ok in AB; destruct AB as [t ->]; destruct (N t eq_refl)|reflexivity].
Qed.
Lemma log_none c kvs n0 : log_wanted c kvs None -> n_log n0 = None -> log_name c (updated c n0 kvs) = None.
Proof.
  unfold log_wanted, log_name, updated. cbn [n_log]. intros H ->. destruct (last_str "LOG" kvs) as [s|]; cbn [option_map or_else].
  - destruct H as [[B _]|[_ (p & _ & H)]]; [|discriminate]. unfold log_of. apply blank_ok in B. rewrite B. reflexivity.
  - destruct (g_log c) as [g|]; [|reflexivity]. destruct H as (p & _ & H). discriminate.
Qed.
Lemma log_some c kvs n0 p : log_wanted c kvs (Some p) -> (length p < MAX_LINE)%nat -> n_log n0 = None -> log_name c (updated c n0 kvs) = Some p.
Proof.
  unfold log_wanted, log_name, updated. cbn [n_log]. intros H L ->. 
  assert (F : firstn (MAX_LINE - 1) p = p) by (apply firstn_all2; lia).
  destruct (last_str "LOG" kvs) as [s|]; cbn [option_map or_else].
  - destruct H as [[_ H]|[B (q & D & H)]]; [discriminate|]. injection H as <-. unfold log_of.
    destruct (forallb isspace s) eqn:BL; [apply blank_ok in BL; contradiction|]. rewrite (in_dir_eq _ _ _ D).
    destruct p as [|a p]; [|rewrite F; reflexivity]. apply in_dir_eq in D. destruct (absolute s) eqn:AB.
    + subst s. discriminate.
    + destruct (c_logdir c); discriminate.
  - destruct (g_log c) as [g|]; [|discriminate]. destruct H as (q & D & H). injection H as <-. rewrite (in_dir_eq _ _ _ D), F. reflexivity.
Qed.

Lemma create_ok E c kvs name d args : means E c kvs args d -> unused (c_objs c) name d ->
  create_console E name d (c_objs c) = Ok (Some (c_objs c ++ [OCon name d])).
Proof.
  intros M U. unfold create_console. rewrite (unused_ok _ _ _ U).
  destruct M; cbn [assert_if]; try (destruct (e_dbg E); reflexivity).
  - apply Nat.ltb_ge in H0. rewrite H0. destruct (e_dbg E); reflexivity.
  - destruct host; [congruence|]. destruct (Z.leb_spec (number port) 0); [lia|]. destruct (e_dbg E); reflexivity.
Qed.

Notation no_strs := (mkStrs None None None None None None None).
Lemma console_makes E c kvs name dev args d more : plain_text E dev -> plain_text E name -> dev_text E d -> tm_ok (e_tm E) ->
  ~ lone_quote dev -> device_words name dev args -> means E c kvs args d -> unused (c_objs c) name d ->
  adds E c kvs name d more ->
  exists er, process_console E c name dev (updated c no_strs kvs) = Ok (set_objs c (c_objs c ++ more) er, false).
Proof.
  intros PD PN DT TM NL DW M U A. unfold process_console. rewrite (dev_args_ok E name dev args) by (auto; apply PN). cbn [bind].
  destruct (means_find E c kvs (updated c no_strs kvs) args d) as [er ->]; auto;
    try (cbn [updated n_sopts n_iopts n_topts]; destruct (last_str _ kvs); reflexivity).
  cbn [bind]. rewrite (create_ok E c kvs name d args) by auto. cbn [bind]. exists er.
  assert (LN : forall o, log_name (set_objs c o er) (updated c no_strs kvs) = log_name c (updated c no_strs kvs)) by reflexivity.
  rewrite LN. destruct A as [W|p t o l W CP LP X LT NC LO L1 L2 L3].
  - rewrite log_none by auto. reflexivity.
  - rewrite <- shown_view in X, L2. apply conv_inj in L2. rewrite (log_some _ _ _ _ W LP) by auto.
    replace (match n_lopts (updated c no_strs kvs) with None => Some (g_lopts (set_objs c (c_objs c ++ [OCon name d]) er)) | Some s => parse_logfile_opts (g_lopts (set_objs c (c_objs c ++ [OCon name d]) er)) s end) with (Some o).
    2:{ unfold log_options in LO. cbn [updated n_lopts]. destruct (last_str "LOGOPTS" kvs); cbn [or_else]; [symmetry; exact LO|subst; reflexivity]. }
    rewrite logs_app. cbn [logs_of]. rewrite app_nil_r.
    rewrite (create_eq (e_iso E) (e_pid E) (e_tm E) (repeat 0 MAX_LINE) p (view name d) (logs_of (c_objs c)) t); auto; try (rewrite repeat_length; auto; unfold MAX_LINE; lia).
    + replace (existsb _ (logs_of (c_objs c))) with false.
      2:{ symmetry. destruct (existsb _ (logs_of (c_objs c))) eqn:EX; auto. apply clash_iff in EX. destruct EX as (x & I & H). destruct (NC _ I H). }
      cbn [bind]. rewrite rev_app_distr. cbn [rev app]. apply unused_ok in U. apply existsb_or in U. destruct U as [U1 _].
      rewrite (insert_fresh _ _ _ U1). destruct l as [l1 l2 l3]. cbn [l_name l_fmt l_con] in *. subst. reflexivity.
    + apply view_ok; auto.
Qed.
Lemma console_taken E c kvs name dev args d : plain_text E dev -> plain_text E name ->
  ~ lone_quote dev -> device_words name dev args -> means E c kvs args d -> ~ unused (c_objs c) name d ->
  exists er, process_console E c name dev (updated c no_strs kvs) = Ok (set_objs c (c_objs c) er, true).
Proof.
  intros PD PN NL DW M U. unfold process_console. rewrite (dev_args_ok E name dev args) by (auto; apply PN). cbn [bind].
  destruct (means_find E c kvs (updated c no_strs kvs) args d) as [er ->]; auto;
    try (cbn [updated n_sopts n_iopts n_topts]; destruct (last_str _ kvs); reflexivity).
  cbn [bind]. exists er. unfold create_console. rewrite (used_ok _ _ _ U), orb_true_r.
  assert (AS : assert_if (e_dbg E) (match d with Telnet [] _ _ => false | _ => true end) = Ok tt).
  { destruct M; try (destruct (e_dbg E); reflexivity). destruct host; [congruence|]. destruct (e_dbg E); reflexivity. }
  rewrite AS. reflexivity.
Qed.

Lemma console_unlogged E c kvs name dev args d : plain_text E dev -> plain_text E name -> dev_text E d -> tm_ok (e_tm E) ->
  ~ lone_quote dev -> device_words name dev args -> means E c kvs args d -> unused (c_objs c) name d ->
  log_taken E c kvs name d ->
  exists er, process_console E c name dev (updated c no_strs kvs) = Ok (set_objs c (c_objs c ++ [OCon name d]) er, true).
Proof.
  intros PD PN DT TM NL DW M U A. unfold process_console. rewrite (dev_args_ok E name dev args) by (auto; apply PN). cbn [bind].
  destruct (means_find E c kvs (updated c no_strs kvs) args d) as [er ->]; auto;
    try (cbn [updated n_sopts n_iopts n_topts]; destruct (last_str _ kvs); reflexivity).
  cbn [bind]. rewrite (create_ok E c kvs name d args) by auto. cbn [bind]. exists er.
  assert (LN : forall o, log_name (set_objs c o er) (updated c no_strs kvs) = log_name c (updated c no_strs kvs)) by reflexivity.
  rewrite LN. destruct A as [p t o x W CP LP LO X LT I NC].
  - rewrite <- shown_view in X. rewrite (log_some _ _ _ _ W LP) by auto.
    replace (match n_lopts (updated c no_strs kvs) with None => Some (g_lopts (set_objs c (c_objs c ++ [OCon name d]) er)) | Some s => parse_logfile_opts (g_lopts (set_objs c (c_objs c ++ [OCon name d]) er)) s end) with (Some o).
    2:{ unfold log_options in LO. cbn [updated n_lopts]. destruct (last_str "LOGOPTS" kvs); cbn [or_else]; [symmetry; exact LO|subst; reflexivity]. }
    rewrite logs_app. cbn [logs_of]. rewrite app_nil_r.
    rewrite (create_eq (e_iso E) (e_pid E) (e_tm E) (repeat 0 MAX_LINE) p (view name d) (logs_of (c_objs c)) t); auto; try (rewrite repeat_length; auto; unfold MAX_LINE; lia).
    + replace (existsb _ (logs_of (c_objs c))) with true; [reflexivity|].
      symmetry. apply clash_iff. eauto.
    + apply view_ok; auto.
Qed.
Lemma console_refused E c kvs name dev args : plain_text E dev -> plain_text E name ->
  ~ lone_quote dev -> device_words name dev args -> refused E c kvs args ->
  exists er, process_console E c name dev (updated c no_strs kvs) = Ok (set_objs c (c_objs c) er, true).
Proof.
  intros PD PN NL DW M. unfold process_console. rewrite (dev_args_ok E name dev args) by (auto; apply PN). cbn [bind].
  destruct (refused_find E c kvs (updated c no_strs kvs) name args (c_objs c)) as (r & er & -> & H); auto;
    try (cbn [updated n_sopts n_iopts n_topts]; destruct (last_str _ kvs); reflexivity).
  cbn [bind]. exists er. destruct r; [rewrite H; reflexivity|reflexivity].
Qed.

(** No device of that kind. *)
Lemma incomplete_line E c kvs : plain_text E (directive "CONSOLE" kvs) -> Forall (console_pair E) kvs ->
  last_str "NAME" kvs = None \/ last_str "DEV" kvs = None ->
  read_config E c (directive "CONSOLE" kvs) = Ok (add_err c EIncomplete).
Proof.
  intros P F LN. rewrite read_config_tokens by auto. rewrite directive_toks; [|apply kws_ok; cbn; tauto|apply console_pairs_kw; auto|apply P].
  unfold parse_toks, fuel_of. cbn [rest length].
  rewrite app_length. cbn [length]. rewrite Nat.add_comm. cbn [Nat.add]. cbn [config_loop next rest prev].
  replace (kw E "CONSOLE" =? LEX_EOF) with false by (symmetry; apply Z.eqb_neq, kw_neq; cbn; auto). rewrite Z.eqb_refl.
  unfold parse_console_directive.
  rewrite (loop_pairs E (console_val E c) _ kvs) with (a' := updated c no_strs kvs).
  2:{ intros k a s I EQ. unfold console_kwd. rewrite EQ. replace (among E (kw E k) console_kws) with true; [reflexivity|].
      symmetry. apply existsb_exists. exists k. split; [eapply console_key; eauto|apply Z.eqb_refl]. }
  2:{ apply console_steps; auto. eapply show_plain; eauto. }
  2:{ unfold fuel_of. cbn [rest]. rewrite app_length, pairs_length. lia. }
  cbn [bind]. unfold updated at 1 2. cbn [n_name n_dev or_else]. destruct (last_str "NAME" kvs); [destruct LN as [LN|LN]; [discriminate|rewrite LN]|]; reflexivity.
Qed.

(** ** GLOBAL and SERVER lines *)
Lemma global_line E c kvs c' : plain_text E (directive "GLOBAL" kvs) ->
  Forall (fun kv => is_kw E (fst kv) /\ value_ok E (snd kv)) kvs -> Forall (fun kv => In (fst kv) global_kws) kvs ->
  steps E (global_val E) c kvs c' -> read_config E c (directive "GLOBAL" kvs) = Ok c'.
Proof.
  intros P F G S. rewrite read_config_tokens by auto. rewrite directive_toks; [|apply kws_ok; cbn; tauto|auto|apply P].
  unfold parse_toks, fuel_of. cbn [rest length].
  rewrite app_length. cbn [length]. rewrite Nat.add_comm. cbn [Nat.add]. cbn [config_loop next rest prev].
  replace (kw E "GLOBAL" =? LEX_EOF) with false by (symmetry; apply Z.eqb_neq, kw_neq; cbn; auto).
  replace (kw E "GLOBAL" =? kw E "CONSOLE") with false by (destruct E as [? ? ? ? ? ? ? [] ? ? ? ? ?]; vm_compute; reflexivity). rewrite Z.eqb_refl.
  unfold parse_global_directive.
  rewrite (loop_pairs E (global_val E) _ kvs) with (a' := c').
  2:{ intros k a s I EQ. unfold global_kwd. rewrite EQ. replace (among E (kw E k) global_kws) with true; [reflexivity|].
      symmetry. apply existsb_exists. exists k. split; [|apply Z.eqb_refl]. apply in_map_iff in I. destruct I as (kv & <- & I). rewrite Forall_forall in G. auto. }
  2:{ exact S. }
  2:{ unfold fuel_of. cbn [rest]. rewrite app_length, pairs_length. lia. }
  reflexivity.
Qed.
Lemma server_line E c kvs c' : plain_text E (directive "SERVER" kvs) ->
  Forall (fun kv => is_kw E (fst kv) /\ value_ok E (snd kv)) kvs -> Forall (fun kv => In (fst kv) server_kws) kvs ->
  steps E (server_val E (match c_pidfile c with Some _ => true | None => false end) (0 <=? c_port c)) c kvs c' ->
  read_config E c (directive "SERVER" kvs) = Ok c'.
Proof.
  intros P F G S. rewrite read_config_tokens by auto. rewrite directive_toks; [|apply kws_ok; cbn; tauto|auto|apply P].
  unfold parse_toks, fuel_of. cbn [rest length].
  rewrite app_length. cbn [length]. rewrite Nat.add_comm. cbn [Nat.add]. cbn [config_loop next rest prev].
  replace (kw E "SERVER" =? LEX_EOF) with false by (symmetry; apply Z.eqb_neq, kw_neq; cbn; auto).
  replace (kw E "SERVER" =? kw E "CONSOLE") with false by (destruct E as [? ? ? ? ? ? ? [] ? ? ? ? ?]; vm_compute; reflexivity).
  replace (kw E "SERVER" =? kw E "GLOBAL") with false by (destruct E as [? ? ? ? ? ? ? [] ? ? ? ? ?]; vm_compute; reflexivity). rewrite Z.eqb_refl.
  unfold parse_server_directive.
  rewrite (loop_pairs E (server_val E (match c_pidfile c with Some _ => true | None => false end) (0 <=? c_port c)) _ kvs) with (a' := c').
  2:{ intros k a s I EQ. unfold server_kwd. rewrite EQ. apply in_map_iff in I. destruct I as (kv & <- & I). rewrite Forall_forall in G. specialize (G _ I).
      replace (among E (kw E (fst kv)) server_kws) with true.
      2:{ symmetry. apply existsb_exists. exists (fst kv). split; [auto|apply Z.eqb_refl]. }
      assert (N : forall t, t = "TIMESTAMP"%string \/ t = "TCPWRAPPERS"%string -> (kw E (fst kv) =? kw E t) = false).
      { intros t T. assert (FB : forall b, forallb (fun k => forallb (fun t => match position (zs k) LEX_TOK_OFFSET (server_conf_strs b), position (zs t) LEX_TOK_OFFSET (server_conf_strs b) with
            Some x, Some y => negb (x =? y) | _, _ => false end) ["TIMESTAMP"; "TCPWRAPPERS"]%string) server_kws = true) by (intros []; vm_compute; reflexivity).
        specialize (FB (e_ipmi E)). rewrite forallb_forall in FB. specialize (FB _ G). rewrite forallb_forall in FB. specialize (FB t ltac:(cbn; destruct T as [-> | ->]; auto)).
        unfold kw. destruct (position (zs (fst kv)) _ _); [|discriminate]. destruct (position (zs t) _ _); [|discriminate]. apply negb_true_iff. exact FB. }
      rewrite !N by auto. reflexivity. }
  2:{ exact S. }
  2:{ unfold fuel_of. cbn [rest]. rewrite app_length, pairs_length. lia. }
  reflexivity.
Qed.
