(** Proofs for GlobProps. *)
From Coq Require Import String.
From Verif Require Import Base BaseProof Chars Fmt LexModel StrModel FnameModel FnameSpec FnameProof OptModel StrSpec StrProof QuerySpec QueryProof LexSpec LexProof
  ConfModel ConfSpec ConfLex ConfLines ConfProof ConfText ConfDev ConfEffect ConfProps SetSpec SetProof GlobSpec.
Local Open Scope Z_scope.
Local Open Scope list_scope.

Lemma known_kw E k : known_word E k -> is_kw E k.
Proof. intros [H|[-> H]]; [apply kws_ok; cbn in H |- *; tauto|apply ipmi_kw; exact H]. Qed.
Lemma pairs_plain E d kvs : plain_text E (directive d kvs) -> Forall (fun kv => val_plain E (snd kv)) kvs.
Proof.
  intros P. pose proof (show_plain _ _ _ P) as SP. rewrite Forall_forall in SP |- *. intros [k v] I. specialize (SP _ I). cbn [snd] in *.
  destruct v as [s| |]; cbn [val_plain show] in *; auto. destruct SP as [C IS]. split.
  - inversion C as [|? ? _ C1]. apply Forall_app in C1. apply C1.
  - intros X. specialize (IS X). inversion IS as [|? ? _ C1]. apply Forall_app in C1. apply C1.
Qed.

(** The loop over a line that is rejected somewhere. *)
Lemma loop_refused {A} E (val : Z -> A -> Z -> list Z -> res (A * option cerr)) (kwd : A -> strm -> res (A * option cerr * strm)) good k v more K X a a1 a2 e :
  (forall k a s, In k (map fst good) -> prev s = kw E k -> kwd a s = valued (val (kw E k)) a s) ->
  steps E val a good a1 ->
  (forall r, exists s, kwd a1 (mkStrm (kw E k) (zs k) ((EQUALS, [EQUALS]) :: val_tok E v :: r)) = Ok (a2, Some e, s) /\
    (s = mkStrm (kw E k) (zs k) ((EQUALS, [EQUALS]) :: val_tok E v :: r) \/ s = mkStrm (fst (val_tok E v)) (snd (val_tok E v)) r)) ->
  let st := mkStrm K X (flat_map (pair_toks E) (good ++ (k, v) :: more) ++ [(LEX_EOL, [LF]); (LEX_EOF, [])]) in
  exists s, dir_loop kwd (fuel_of st) a st = Ok (a2, Some e, s) /\ skip_line s = mkStrm LEX_EOL [LF] [(LEX_EOF, [])].
Proof.
  intros KW ST R. cbv zeta. unfold fuel_of. cbn [rest].
  set (tl := flat_map (pair_toks E) more ++ [(LEX_EOL, [LF]); (LEX_EOF, [])]).
  assert (EQ : flat_map (pair_toks E) (good ++ (k, v) :: more) ++ [(LEX_EOL, [LF]); (LEX_EOF, [])] =
    flat_map (pair_toks E) good ++ (kw E k, zs k) :: (EQUALS, [EQUALS]) :: val_tok E v :: tl).
  { rewrite flat_map_app. cbn [flat_map pair_toks fst snd]. rewrite <- !app_assoc. reflexivity. }
  rewrite EQ. assert (LN : exists n, S (length (flat_map (pair_toks E) good ++ (kw E k, zs k) :: (EQUALS, [EQUALS]) :: val_tok E v :: tl)) = (length good + S n)%nat).
  { rewrite app_length, pairs_length. cbn [length]. exists (2 * length good + S (S (S (length tl))))%nat. lia. }
  destruct LN as [n LN]. rewrite LN.
  destruct (loop_prefix E val kwd good KW a a1 (S n) K X ((kw E k, zs k) :: (EQUALS, [EQUALS]) :: val_tok E v :: tl) ST) as (k' & x' & LP).
  rewrite LP. clear LP. cbn [dir_loop next rest prev]. rewrite at_end_kw, err_kw.
  destruct (R tl) as (s & RS & SS). rewrite RS. cbn [bind]. exists s. split; [reflexivity|].
  unfold skip_line. destruct SS as [-> | ->]; cbn [prev text rest]; unfold tl.
  - change ((EQUALS, [EQUALS]) :: val_tok E v :: flat_map (pair_toks E) more ++ [(LEX_EOL, [LF]); (LEX_EOF, [])])
      with (((EQUALS, [EQUALS]) :: val_tok E v :: flat_map (pair_toks E) more) ++ [(LEX_EOL, [LF]); (LEX_EOF, [])]).
    apply skip_toks_clean; [|apply at_end_kw]. constructor; [reflexivity|]. constructor; [apply val_clean|apply pairs_clean].
  - apply skip_toks_clean; [apply pairs_clean|apply val_clean].
Qed.

(** The tokens of a line that follows nothing else. *)
Lemma global_read E c ts : plain_text E ts -> forall us, tokens_of E ts = (kw E "GLOBAL", zs "GLOBAL") :: us ->
  read_config E c ts = do r <- parse_global_directive E c (mkStrm (kw E "GLOBAL") (zs "GLOBAL") us); config_loop (S (length us)) E (fst r) (snd r).
Proof.
  intros P us EQ. rewrite read_config_tokens by auto. rewrite EQ. unfold parse_toks, fuel_of. cbn [rest length]. cbn [config_loop next rest prev].
  replace (kw E "GLOBAL" =? LEX_EOF) with false by (symmetry; apply Z.eqb_neq, kw_neq; cbn; auto).
  replace (kw E "GLOBAL" =? kw E "CONSOLE") with false by (destruct E as [? ? ? ? ? ? ? [] ? ? ? ? ?]; vm_compute; reflexivity). rewrite Z.eqb_refl. reflexivity.
Qed.
Lemma console_read E c ts : plain_text E ts -> forall us, tokens_of E ts = (kw E "CONSOLE", zs "CONSOLE") :: us ->
  read_config E c ts = do r <- parse_console_directive E c (mkStrm (kw E "CONSOLE") (zs "CONSOLE") us); config_loop (S (length us)) E (fst r) (snd r).
Proof.
  intros P us EQ. rewrite read_config_tokens by auto. rewrite EQ. unfold parse_toks, fuel_of. cbn [rest length]. cbn [config_loop next rest prev].
  replace (kw E "CONSOLE" =? LEX_EOF) with false by (symmetry; apply Z.eqb_neq, kw_neq; cbn; auto). rewrite Z.eqb_refl. reflexivity.
Qed.

(** ** GLOBAL *)
Definition g_same (c c' : conf) : Prop := table c' = table c /\ c_objs c' = c_objs c /\ c_errs c' = c_errs c.
Lemma g_trans a b c : g_same a b -> g_same b c -> g_same a c.
Proof. unfold g_same. intros (A & B & C) (A' & B' & C'). repeat split; congruence. Qed.
Lemma per_ok s : per_console s <-> negb (has_spec 78 s) && negb (has_spec 68 s) = false.
Proof.
  split.
  - intros (a & x & b & PC & X). destruct X as [-> | ->]; [replace (has_spec 78 s) with true by (symmetry; apply has_spec_ok; eauto); reflexivity|].
    replace (has_spec 68 s) with true by (symmetry; apply has_spec_ok; eauto). apply andb_false_r.
  - intros H. apply andb_false_iff in H. destruct H as [H|H]; apply negb_false_iff, has_spec_ok in H; destruct H as (a & b & H); red; eauto 10.
Qed.

Lemma gives_val E c k v d er : gives E (c_erange c) (in_force c) k v d er -> val_plain E v ->
  exists c1, global_val E (kw E k) c (fst (val_tok E v)) (snd (val_tok E v)) = Ok (c1, None) /\ in_force c1 = d /\ c_erange c1 = er /\ g_same c c1.
Proof.
  intros H P. destruct H as [s B|s B NA PC|s o B PO|s o B PO|s o EI B PO|s o er B PO]; cbn [val_plain val_tok fst snd in_force d_log d_lopts d_sopts d_iopts d_topts] in *;
    (eexists; split; [unfold global_val; decide_kw|]).
  - change (LEX_STR =? LEX_STR) with true. cbn [negb]. rewrite is_empty_ok by auto. apply blank_ok in B. rewrite B. reflexivity.
  - repeat split.
  - change (LEX_STR =? LEX_STR) with true. cbn [negb]. rewrite is_empty_ok by auto. cbn [bind]. rewrite not_blank_eq, amp_no by auto.
    apply per_ok in PC. rewrite PC. reflexivity.
  - repeat split.
  - rewrite full_ok by auto. cbn [bind negb]. rewrite PO. reflexivity.
  - repeat split.
  - rewrite full_ok by auto. cbn [bind negb]. rewrite PO. reflexivity.
  - repeat split.
  - rewrite full_ok by auto. cbn [bind negb]. rewrite PO. reflexivity.
  - repeat split.
  - rewrite full_ok by auto. cbn [bind negb]. rewrite PO. reflexivity.
  - repeat split.
Qed.
Lemma gives_steps E kvs : forall c d er, gives_all E (c_erange c) (in_force c) kvs d er -> Forall (fun kv => val_plain E (snd kv)) kvs ->
  exists c1, steps E (global_val E) c kvs c1 /\ in_force c1 = d /\ c_erange c1 = er /\ g_same c c1.
Proof.
  induction kvs as [|[k v] kvs IH]; intros c d er H F.
  - inversion H; subst. exists c. split; [constructor|]. repeat split.
  - inversion H as [|? ? ? ? d1 er1 ? ? ? G GA]; subst. inversion F as [|? ? P F']; subst. cbn [snd] in P.
    destruct (gives_val E c k v d1 er1 G P) as (c1 & X & D & R & S). subst d1 er1.
    destruct (IH c1 d er GA F') as (c2 & ST & D2 & R2 & S2). exists c2. split; [econstructor; eauto|]. repeat split; auto; apply (g_trans c c1 c2 S S2).
Qed.
Lemma gives_kw E er d k v d' er' : gives E er d k v d' er' -> In k global_kws /\ is_kw E k /\ kw E k <> kw E "TIMESTAMP".
Proof.
  intros H. destruct H; (split; [cbn; tauto|]; split; [first [apply kws_ok; cbn; tauto|apply ipmi_kw; assumption]|]);
      clear; destruct E as [? ? ? ? ? ? ? [] ? ? ? ? ?]; vm_compute; congruence.
Qed.
Lemma gives_kws E er d kvs d' er' : gives_all E er d kvs d' er' ->
  Forall (fun kv => In (fst kv) global_kws /\ is_kw E (fst kv) /\ kw E (fst kv) <> kw E "TIMESTAMP") kvs.
Proof. induction 1; constructor; auto. cbn [fst]. eapply gives_kw; eauto. Qed.
Lemma global_key E k a s : In k global_kws -> prev s = kw E k -> global_kwd E a s = valued (global_val E (kw E k)) a s.
Proof.
  intros I EQ. unfold global_kwd. rewrite EQ. replace (among E (kw E k) global_kws) with true; [reflexivity|].
  symmetry. apply existsb_exists. exists k. split; [auto|apply Z.eqb_refl].
Qed.

Lemma defaults_line E c kvs d er : plain_text E (directive "GLOBAL" kvs) -> Forall (fun kv => value_ok E (snd kv)) kvs ->
  gives_all E (c_erange c) (in_force c) kvs d er ->
  whole_lines E (directive "GLOBAL" kvs) /\
  exists c1, read_config E c (directive "GLOBAL" kvs) = Ok c1 /\ in_force c1 = d /\ c_erange c1 = er /\ g_same c c1.
Proof.
  intros P V G. pose proof (gives_kws _ _ _ _ _ _ G) as K.
  assert (KV : Forall (fun kv => is_kw E (fst kv) /\ value_ok E (snd kv)) kvs).
  { rewrite Forall_forall in K, V |- *. intros kv I. split; [apply (K _ I)|auto]. }
  split.
  { apply line_whole; auto; [apply kws_ok; cbn; tauto|clear; destruct E as [? ? ? ? ? ? ? [] ? ? ? ? ?]; vm_compute; congruence|].
    eapply Forall_impl; [|exact K]. cbn. tauto. }
  destruct (gives_steps E kvs c d er G (pairs_plain _ _ _ P)) as (c1 & ST & D & R & S). exists c1. split; [|auto].
  eapply global_line; eauto. eapply Forall_impl; [|exact K]. cbn. tauto.
Qed.

Lemma kind_str E v : (forall s, v <> VStr s) -> (fst (val_tok E v) =? LEX_STR) = false.
Proof.
  intros N. destruct v as [s|n|w]; [destruct (N s eq_refl)|reflexivity|]. cbn [val_tok fst]. apply Z.eqb_neq, kw_neq. cbn. auto 10.
Qed.
Lemma full_kind E v x : (forall s, v <> VStr s) -> full_str E (fst (val_tok E v)) x = Ok false.
Proof. intros N. unfold full_str. rewrite kind_str by auto. reflexivity. Qed.
Lemma full_blank E s : plain_text E s -> blank_text s -> full_str E LEX_STR s = Ok false.
Proof. intros P B. unfold full_str. rewrite Z.eqb_refl, is_empty_ok by auto. cbn [bind]. apply blank_ok in B. rewrite B. reflexivity. Qed.
Lemma full_any E s : plain_text E s -> full_str E LEX_STR s = Ok (negb (forallb isspace s)).
Proof. intros P. unfold full_str. rewrite Z.eqb_refl, is_empty_ok by auto. reflexivity. Qed.

Lemma not_given_val E c k v : not_given E (c_erange c) (in_force c) k v -> In k global_kws -> val_plain E v ->
  exists c1 e, global_val E (kw E k) c (fst (val_tok E v)) (snd (val_tok E v)) = Ok (c1, Some e) /\ in_force c1 = in_force c /\ g_same c c1.
Proof.
  intros H I P.
  assert (G : forall e, global_val E (kw E k) c (fst (val_tok E v)) (snd (val_tok E v)) = Ok (c, Some e) ->
    exists c1 e, global_val E (kw E k) c (fst (val_tok E v)) (snd (val_tok E v)) = Ok (c1, Some e) /\ in_force c1 = in_force c /\ g_same c c1).
  { intros e G. exists c, e. repeat split. exact G. }
  destruct H as [k v I1 N|v EI N|k s I1 B|s EI B|s A|s B N|s N|s N|s EI N|s er N|k v I1]; cbn [val_plain in_force d_lopts d_sopts d_iopts d_topts] in *.
  - cbn [In] in I1. destruct I1 as [<-|[<-|[<-|[<-|[]]]]]; eapply G; unfold global_val; decide_kw; rewrite ?kind_str, ?full_kind by auto; reflexivity.
  - eapply G. unfold global_val. decide_kw. rewrite full_kind by auto. reflexivity.
  - cbn [val_tok fst snd] in *. cbn [In] in I1. destruct I1 as [<-|[<-|[<-|[]]]]; eapply G; unfold global_val; decide_kw; rewrite full_blank by auto; reflexivity.
  - cbn [val_tok fst snd] in *. eapply G. unfold global_val. decide_kw. rewrite full_blank by auto. reflexivity.
  - cbn [val_tok fst snd] in *. eapply G. unfold global_val. decide_kw. change (LEX_STR =? LEX_STR) with true. cbn [negb].
    rewrite is_empty_ok by auto. cbn [bind].
    assert (NB : forallb isspace s = false).
    { apply not_blank_eq. intros B. unfold blank_text in B. rewrite Forall_forall in B. specialize (B _ A). discriminate. }
    rewrite NB. replace (has_char AMP s) with true; [reflexivity|]. symmetry. apply has_char_ok. exact A.
  - cbn [val_tok fst snd] in *. eapply G. unfold global_val. decide_kw. change (LEX_STR =? LEX_STR) with true. cbn [negb].
    rewrite is_empty_ok by auto. cbn [bind]. rewrite not_blank_eq by auto. destruct (has_char AMP s); [reflexivity|].
    destruct (negb (has_spec 78 s) && negb (has_spec 68 s)) eqn:PC; [reflexivity|]. apply per_ok in PC. contradiction.
  - cbn [val_tok fst snd] in *. destruct (forallb isspace s) eqn:B; eapply G; unfold global_val; decide_kw; rewrite full_any by auto; rewrite B; cbn [bind negb]; rewrite ?N; reflexivity.
  - cbn [val_tok fst snd] in *. destruct (forallb isspace s) eqn:B; eapply G; unfold global_val; decide_kw; rewrite full_any by auto; rewrite B; cbn [bind negb]; rewrite ?N; reflexivity.
  - cbn [val_tok fst snd] in *. destruct (forallb isspace s) eqn:B; eapply G; unfold global_val; decide_kw; rewrite full_any by auto; rewrite B; cbn [bind negb]; rewrite ?N; reflexivity.
  - cbn [val_tok fst snd] in *. unfold global_val. decide_kw. rewrite full_any by auto. cbn [bind]. rewrite N. destruct (forallb isspace s); cbn [negb].
    + exists c. eexists. repeat split.
    + eexists _, _. repeat split.
  - exfalso. clear - I I1. cbn [no_default In] in I1. cbn [global_kws In] in I. repeat (destruct I1 as [<-|I1]; [intuition discriminate|]). destruct I1.
Qed.
Lemma not_given_known E er d k v : not_given E er d k v -> In k global_kws \/ In k no_default.
Proof. intros H. destruct H; try (left; cbn in *; tauto). right. auto. Qed.
Lemma not_given_kwd E c k v : not_given E (c_erange c) (in_force c) k v -> val_plain E v ->
  exists c1 e, in_force c1 = in_force c /\ g_same c c1 /\
  forall r, exists s, global_kwd E c (mkStrm (kw E k) (zs k) ((EQUALS, [EQUALS]) :: val_tok E v :: r)) = Ok (c1, Some e, s) /\
    (s = mkStrm (kw E k) (zs k) ((EQUALS, [EQUALS]) :: val_tok E v :: r) \/ s = mkStrm (fst (val_tok E v)) (snd (val_tok E v)) r).
Proof.
  intros H P. destruct (not_given_known _ _ _ _ _ H) as [I|I].
  - destruct (not_given_val E c k v H I P) as (c1 & e & X & D & S). exists c1, e. split; [auto|]. split; [auto|]. intros r.
    rewrite (global_key E k) by auto. unfold valued, eq_val. cbn [next rest prev text]. rewrite Z.eqb_refl. destruct (val_tok E v) as [vk vx]. cbn [fst snd] in X |- *.
    cbn [next rest prev text negb]. rewrite X. cbn [bind fst snd]. eexists. split; [reflexivity|auto].
  - exists c, (EToken (zs k)). split; [auto|]. split; [repeat split|]. intros r. eexists. split; [|left; reflexivity].
    unfold global_kwd, among. cbn [prev text global_kws existsb].
    cbn [no_default In] in I. repeat (destruct I as [<-|I]; [decide_kw; cbn [orb]; reflexivity|]). destruct I.
Qed.

Lemma loop_eol E n c : (2 <= n)%nat -> config_loop n E c (mkStrm LEX_EOL [LF] [(LEX_EOF, [])]) = Ok c.
Proof. intros L. destruct n as [|[|n]]; [lia|lia|]. reflexivity. Qed.

Lemma defaults_bad E c good k v more d er : plain_text E (directive "GLOBAL" (good ++ (k, v) :: more)) ->
  Forall (fun kv => is_kw E (fst kv) /\ value_ok E (snd kv)) (good ++ (k, v) :: more) ->
  gives_all E (c_erange c) (in_force c) good d er -> not_given E er d k v ->
  exists c1 e, read_config E c (directive "GLOBAL" (good ++ (k, v) :: more)) = Ok c1 /\ in_force c1 = d /\
    table c1 = table c /\ c_objs c1 = c_objs c /\ c_errs c1 = c_errs c ++ [e].
Proof.
  intros P KV GA H. pose proof (gives_kws _ _ _ _ _ _ GA) as K. pose proof (pairs_plain _ _ _ P) as PS.
  apply Forall_app in PS. destruct PS as [PS PB]. inversion PB as [|? ? PV _]; subst. cbn [snd] in PV.
  destruct (gives_steps E good c d er GA PS) as (c1 & ST & D & R & S). rewrite <- D, <- R in H.
  destruct (not_given_kwd E c1 k v H PV) as (c2 & e & D2 & S2 & X).
  rewrite (global_read E c _ P _ (directive_toks E "GLOBAL" _ ltac:(apply kws_ok; cbn; tauto) KV (proj1 P))).
  unfold parse_global_directive.
  destruct (loop_refused E (global_val E) (global_kwd E) good k v more (kw E "GLOBAL") (zs "GLOBAL") c c1 c2 e) as (s & L & SK); auto.
  { intros k0 a s I EQ. apply in_map_iff in I. destruct I as (kv & <- & I). rewrite Forall_forall in K. apply global_key; auto. apply (K _ I). }
  rewrite L. cbn [bind finish fst snd]. rewrite SK. rewrite loop_eol by (rewrite app_length; cbn [length]; lia).
  exists (add_err c2 e), e. split; [reflexivity|]. split; [rewrite <- D, <- D2; reflexivity|].
  destruct S as (S1 & S3 & S4), S2 as (T1 & T3 & T4). repeat split.
  - change (table (add_err c2 e)) with (table c2). congruence.
  - change (c_objs (add_err c2 e)) with (c_objs c2). congruence.
  - change (c_errs (add_err c2 e)) with (c_errs c2 ++ [e]). congruence.
Qed.

Lemma in_force_eq c c' : defaults c' = defaults c <-> in_force c' = in_force c.
Proof. unfold defaults, in_force. split; intros H; injection H; intros; congruence. Qed.

(** ** CONSOLE *)
Lemma no_pair_known E k v : no_pair E k v -> In k console_kws \/ In k not_console.
Proof. intros H. destruct H; try (left; cbn in *; tauto). right. auto. Qed.
Lemma no_pair_val E c n k v : no_pair E k v -> In k console_kws -> val_plain E v ->
  exists e, console_val E c (kw E k) n (fst (val_tok E v)) (snd (val_tok E v)) = Ok (n, Some e).
Proof.
  intros H I P. destruct H as [k v I1 N|v EI N|k s I1 B|s A|k v I1]; cbn [val_plain] in *.
  - cbn [In] in I1. destruct I1 as [<-|[<-|[<-|[<-|[<-|[<-|[]]]]]]]; eexists; unfold console_val; decide_kw; rewrite ?kind_str, ?full_kind by auto; reflexivity.
  - eexists. unfold console_val.
    replace (kw E "IPMIOPTS" =? kw E "LOG") with false by (destruct E as [? ? ? ? ? ? ? [] ? ? ? ? ?]; vm_compute; reflexivity).
    rewrite Z.eqb_refl, kind_str by auto. reflexivity.
  - cbn [val_tok fst snd] in *. cbn [In] in I1. destruct I1 as [<-|[<-|[<-|[<-|[]]]]]; eexists; unfold console_val; decide_kw; rewrite full_blank by auto; reflexivity.
  - cbn [val_tok fst snd] in *. eexists. unfold console_val. decide_kw. change (LEX_STR =? LEX_STR) with true. cbn [negb].
    replace (has_char AMP s) with true; [reflexivity|]. symmetry. apply has_char_ok. exact A.
  - exfalso. clear - I I1. cbn [not_console In] in I1. cbn [console_kws In] in I. repeat (destruct I1 as [<-|I1]; [intuition discriminate|]). destruct I1.
Qed.
Lemma no_pair_kwd E c n k v : no_pair E k v -> val_plain E v -> exists e,
  forall r, exists s, console_kwd E c n (mkStrm (kw E k) (zs k) ((EQUALS, [EQUALS]) :: val_tok E v :: r)) = Ok (n, Some e, s) /\
    (s = mkStrm (kw E k) (zs k) ((EQUALS, [EQUALS]) :: val_tok E v :: r) \/ s = mkStrm (fst (val_tok E v)) (snd (val_tok E v)) r).
Proof.
  intros H P. destruct (no_pair_known _ _ _ H) as [I|I].
  - destruct (no_pair_val E c n k v H I P) as (e & X). exists e. intros r. unfold console_kwd. cbn [prev].
    replace (among E (kw E k) console_kws) with true by (symmetry; apply existsb_exists; exists k; split; [auto|apply Z.eqb_refl]).
    unfold valued, eq_val. cbn [next rest prev text]. rewrite Z.eqb_refl. destruct (val_tok E v) as [vk vx]. cbn [fst snd] in X |- *.
    cbn [next rest prev text negb]. rewrite X. cbn [bind fst snd]. eexists. split; [reflexivity|auto].
  - exists (EToken (zs k)). intros r. eexists. split; [|left; reflexivity].
    unfold console_kwd, among. cbn [prev text console_kws existsb].
    cbn [not_console In] in I. repeat (destruct I as [<-|I]; [decide_kw; cbn [orb]; reflexivity|]). destruct I.
Qed.
Lemma console_bad E c good k v more : plain_text E (directive "CONSOLE" (good ++ (k, v) :: more)) ->
  Forall (fun kv => is_kw E (fst kv) /\ value_ok E (snd kv)) (good ++ (k, v) :: more) ->
  Forall (console_pair E) good -> no_pair E k v ->
  exists e, read_config E c (directive "CONSOLE" (good ++ (k, v) :: more)) = Ok (add_err c e).
Proof.
  intros P KV GA H. pose proof (pairs_plain _ _ _ P) as PS.
  apply Forall_app in PS. destruct PS as [_ PB]. inversion PB as [|? ? PV _]; subst. cbn [snd] in PV.
  pose proof (show_plain _ _ _ P) as SP. apply Forall_app in SP. destruct SP as [SP _].
  pose proof (console_steps E c good GA SP no_strs) as ST.
  destruct (no_pair_kwd E c (updated c no_strs good) k v H PV) as (e & X).
  rewrite (console_read E c _ P _ (directive_toks E "CONSOLE" _ ltac:(apply kws_ok; cbn; tauto) KV (proj1 P))).
  unfold parse_console_directive.
  destruct (loop_refused E (console_val E c) (console_kwd E c) good k v more (kw E "CONSOLE") (zs "CONSOLE") no_strs (updated c no_strs good) (updated c no_strs good) e) as (s & L & SK); auto.
  { intros k0 a s I EQ. unfold console_kwd. rewrite EQ. replace (among E (kw E k0) console_kws) with true; [reflexivity|].
    symmetry. apply existsb_exists. exists k0. split; [eapply console_key; eauto|apply Z.eqb_refl]. }
  rewrite L. cbn [bind finish fst snd]. rewrite SK. rewrite loop_eol by (rewrite app_length; cbn [length]; lia).
  exists e. reflexivity.
Qed.
