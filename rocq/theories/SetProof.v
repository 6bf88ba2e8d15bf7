(** The settings of the daemon: proofs. *)
From Coq Require Import String.
From Verif Require Import Base BaseProof Chars Fmt LexModel StrModel FnameModel FnameSpec FnameProof OptModel StrSpec StrProof QuerySpec QueryProof LexSpec LexProof
  ConfModel ConfSpec ConfLex ConfLines ConfProof ConfText ConfDev ConfEffect SetSpec.
Local Open Scope Z_scope.
Local Open Scope list_scope.

(** ** Names of syslog *)
Lemma skip_isspace_ok E s : plain_text E s -> exists sp w, s = sp ++ w /\ blank_text sp /\
  match w with c :: _ => isspace c = false | [] => True end /\ skip_isspace (e_iso E) s = Ok w.
Proof.
  induction s as [|c s IH]; intros [C I].
  - exists [], []. repeat split. constructor.
  - inversion C; subst. cbn [skip_isspace]. rewrite ctype_ok; [|apply lf_space|unfold char_ok in *; lia|intros J; specialize (I J); inversion I; auto].
    cbn [bind]. destruct (isspace c) eqn:SP.
    + destruct IH as (sp & w & -> & B & W & R); [split; [auto|intros J; specialize (I J); inversion I; auto]|].
      exists (c :: sp), w. split; [reflexivity|]. split; [constructor; auto|]. auto.
    + exists [], (c :: s). split; [reflexivity|]. split; [constructor|]. split; [exact SP|reflexivity].
Qed.

Definition flat (t : list (Z * list string)) : list (string * Z) := flat_map (fun p => map (fun s => (s, fst p)) (snd p)) t.
Lemma flat_in t n ns name : In (n, ns) t -> In name ns -> In (name, n) (flat t).
Proof. intros I J. apply in_flat_map. exists (n, ns). split; [exact I|]. cbn [fst snd]. apply in_map_iff. eauto. Qed.
Lemma in_flat t n name : In (name, n) (flat t) -> exists ns, In (n, ns) t /\ In name ns.
Proof.
  intros I. apply in_flat_map in I. destruct I as ([m ns] & I & J). cbn [fst snd] in J. apply in_map_iff in J. destruct J as (s & EQ & J).
  injection EQ as -> ->. eauto.
Qed.
Definition same_entry (p q : string * Z) : bool := String.eqb (fst p) (fst q) && (snd p =? snd q).
Definition tables_agree (t : list (Z * list string)) (l : list (string * Z)) : bool :=
  forallb (fun p => existsb (same_entry p) l) (flat t) && forallb (fun p => existsb (same_entry p) (flat t)) l &&
  forallb (fun p => 0 <=? snd p) l &&
  forallb (fun p => forallb (fun q => negb (strcasecmp (zs (fst p)) (zs (fst q)) =? 0) || (snd p =? snd q)) l) l &&
  forallb (fun p => match zs (fst p) with c :: _ => negb (isspace c) && negb (isspace (tolower c)) | [] => false end) l.
Lemma agree_in a l : existsb (same_entry a) l = true -> In a l.
Proof.
  intros H. apply existsb_exists in H. destruct H as (b & I & H). unfold same_entry in H. apply andb_prop in H. destruct H as [H1 H2].
  apply String.eqb_eq in H1. apply Z.eqb_eq in H2. destruct a, b. cbn [fst snd] in *. subst. exact I.
Qed.
Lemma find_tag_found l : forall name n w, In (name, n) l -> strcasecmp (zs name) w = 0 ->
  exists k, In (k, find_tag w l) l /\ strcasecmp (zs k) w = 0.
Proof.
  induction l as [|[k v] l IH]; intros name n w I C; [destruct I|]. cbn [find_tag]. destruct (Z.eqb_spec (strcasecmp (zs k) w) 0) as [X|X].
  - exists k. split; [left; reflexivity|exact X].
  - destruct I as [I|I]; [injection I as -> ->; contradiction|]. destruct (IH _ _ _ I C) as (k' & J & C'). exists k'. split; [right; exact J|exact C'].
Qed.
Lemma find_tag_none l w : (forall name n, In (name, n) l -> strcasecmp (zs name) w <> 0) -> find_tag w l = -1.
Proof.
  induction l as [|[k v] l IH]; intros H; [reflexivity|]. cbn [find_tag]. destruct (Z.eqb_spec (strcasecmp (zs k) w) 0) as [X|X].
  - destruct (H k v (or_introl eq_refl) X).
  - apply IH. intros name n I. apply (H name n). right. exact I.
Qed.
Lemma space_lower c : isspace c = true -> tolower c = c.
Proof.
  intros H. unfold tolower. destruct (isupper c) eqn:U; [|reflexivity]. exfalso. unfold isupper in U. unfold isspace in H.
  rewrite ?orb_true_iff, ?andb_true_iff, ?Z.leb_le, ?Z.eqb_eq in *. lia.
Qed.
Lemma lookup_tag_ok E t l s n : tables_agree t l = true -> plain_text E s -> named t s n ->
  lookup_tag (e_iso E) l s = Ok n /\ 0 <= n.
Proof.
  intros T P (sp & w & ns & name & -> & B & I & J & L).
  unfold tables_agree in T. rewrite !andb_true_iff in T. destruct T as ((((T1 & T2) & T3) & T4) & T5).
  rewrite forallb_forall in T1, T3, T4, T5. specialize (T1 _ (flat_in _ _ _ _ I J)). apply agree_in in T1.
  assert (W : match w with c :: _ => isspace c = false | [] => True end).
  { specialize (T5 _ T1). cbn [fst] in T5. destruct (zs name) as [|a q]; [discriminate|]. apply andb_prop in T5. destruct T5 as [T5 T6].
    destruct w as [|c w]; [exact Logic.I|]. injection L as L _. destruct (isspace c) eqn:SC; [|reflexivity].
    rewrite space_lower in L by exact SC. subst c. rewrite SC in T6. discriminate. }
  assert (R : skip_isspace (e_iso E) (sp ++ w) = Ok w).
  { destruct P as [C IS]. revert C IS. clear - B W. induction sp as [|c sp IH]; intros C IS; cbn [app] in *.
    - destruct w as [|c w]; [reflexivity|]. cbn [skip_isspace]. inversion C; subst.
      rewrite ctype_ok; [|apply lf_space|unfold char_ok in *; lia|intros J; specialize (IS J); inversion IS; auto]. cbn [bind]. rewrite W. reflexivity.
    - inversion B as [|? ? SC B']; subst. cbn [skip_isspace]. inversion C; subst.
      rewrite ctype_ok; [|apply lf_space|unfold char_ok in *; lia|intros J; specialize (IS J); inversion IS; auto]. cbn [bind]. rewrite SC.
      apply IH; auto. intros J. specialize (IS J). inversion IS; auto. }
  unfold lookup_tag. rewrite R. cbn [bind].
  assert (C : strcasecmp (zs name) w = 0) by (apply cmp_zero; auto).
  destruct (find_tag_found l name n w T1 C) as (k & K & CK).
  specialize (T4 _ T1). rewrite forallb_forall in T4. specialize (T4 _ K). cbn [fst snd] in T4. apply orb_prop in T4.
  assert (EN : find_tag w l = n).
  { destruct T4 as [T4|T4]; [|apply Z.eqb_eq in T4; auto]. exfalso. apply negb_true_iff, Z.eqb_neq in T4. apply T4.
    apply cmp_zero. apply cmp_zero in C. apply cmp_zero in CK. congruence. }
  rewrite EN. split; [reflexivity|]. specialize (T3 _ T1). cbn [snd] in T3. lia.
Qed.
Lemma lookup_tag_no E t l s : tables_agree t l = true -> plain_text E s -> (forall n, ~ named t s n) -> lookup_tag (e_iso E) l s = Ok (-1).
Proof.
  intros T P N. unfold tables_agree in T. rewrite !andb_true_iff in T. destruct T as ((((T1 & T2) & T3) & T4) & T5). rewrite forallb_forall in T2.
  destruct (skip_isspace_ok E s P) as (sp & w & -> & B & W & R). unfold lookup_tag. rewrite R. cbn [bind]. f_equal. apply find_tag_none.
  intros name n I C. specialize (T2 _ I). apply agree_in in T2. apply in_flat in T2. destruct T2 as (ns & J1 & J2).
  apply (N n). exists sp, w, ns, name. repeat split; auto. apply cmp_zero in C. auto.
Qed.
Lemma prio_agree : tables_agree priorities logPriorities = true.
Proof. vm_compute. reflexivity. Qed.
Lemma fac_agree : tables_agree facilities logFacilities = true.
Proof. vm_compute. reflexivity. Qed.

(** ** Slashes and commas *)
Lemma drop_cons c t : t <> [] -> drop_slashes (c :: t) =
  match drop_slashes t with [d] => if d =? SLASH then [c] else [c; d] | t' => c :: t' end.
Proof. intros N. destruct t; [congruence|reflexivity]. Qed.
Lemma drop_slashes_only n c : drop_slashes (c :: repeat SLASH n) = [c].
Proof.
  revert c. induction n as [|n IH]; intros c; [reflexivity|]. cbn [repeat]. rewrite drop_cons by discriminate. rewrite IH. reflexivity.
Qed.
Lemma drop_slashes_ok q n : q <> [] -> (length q = 1%nat \/ forall r, q <> r ++ [SLASH]) -> drop_slashes (q ++ repeat SLASH n) = q.
Proof.
  induction q as [|c q IH]; intros N H; [congruence|]. destruct q as [|d q]; [apply drop_slashes_only|].
  assert (H' : forall r, d :: q <> r ++ [SLASH]). { intros r EQ. destruct H as [H|H]; [discriminate|]. apply (H (c :: r)). cbn [app]. rewrite <- EQ. reflexivity. }
  change ((c :: d :: q) ++ repeat SLASH n) with (c :: ((d :: q) ++ repeat SLASH n)). rewrite drop_cons by discriminate.
  rewrite IH by (try discriminate; auto). destruct q as [|e q]; [|reflexivity].
  destruct (Z.eqb_spec d SLASH) as [->|]; [destruct (H' []); reflexivity|reflexivity].
Qed.
Lemma without_ok p q : without_slashes p q -> drop_slashes p = q.
Proof. intros (N & (n & ->) & H). apply drop_slashes_ok; auto. Qed.

Lemma comma_none s : ~ In COMMA s -> at_last_comma s = None.
Proof.
  induction s as [|c s IH]; intros N; [reflexivity|]. cbn [at_last_comma]. rewrite IH by (intros I; apply N; right; exact I).
  destruct (Z.eqb_spec c COMMA) as [->|]; [destruct N; left; reflexivity|reflexivity].
Qed.
Lemma comma_some a b : ~ In COMMA b -> at_last_comma (a ++ COMMA :: b) = Some (a, b).
Proof.
  intros N. induction a as [|c a IH]; cbn [app at_last_comma]; [rewrite comma_none by exact N; reflexivity|]. rewrite IH. reflexivity.
Qed.

(** ** One setting *)
Definition rest_same (c c' : conf) : Prop := c_objs c' = c_objs c /\ defaults c' = defaults c.
Lemma rest_trans a b c : rest_same a b -> rest_same b c -> rest_same a c.
Proof. unfold rest_same. intros [] []. split; congruence. Qed.

Ltac same_table K := intros k'; unfold put_in, shown, table; destruct (String.eqb k' K) eqn:EK;
  [apply String.eqb_eq in EK; subst k'; reflexivity|cbn [look]; rewrite EK; reflexivity].

Definition is_fixed (c : conf) : (string -> Prop) -> Prop := fun fx => forall k, fx k <-> decided c k.
Lemma fixed_port c : decided c "PORT" <-> (0 <=? c_port c) = true.
Proof. unfold decided. rewrite Z.leb_le. split; [intros [[_ H]|[H _]]; [exact H|discriminate]|intros H; left; auto]. Qed.
Lemma fixed_pid c : decided c "PIDFILE" <-> (match c_pidfile c with Some _ => true | None => false end) = true.
Proof.
  unfold decided. split; [intros [[H _]|[_ H]]; [discriminate|destruct (c_pidfile c); congruence]|]. intros H. right. split; [reflexivity|]. destruct (c_pidfile c); congruence.
Qed.

Definition val_plain (E : env) (v : value) : Prop := match v with VStr s => plain_text E s | _ => True end.
Lemma amp_no s : ~ In 38 s -> has_char AMP s = false.
Proof. intros N. destruct (has_char AMP s) eqn:H; [|reflexivity]. apply has_char_ok in H. contradiction. Qed.
Lemma not_blank_eq s : ~ blank_text s -> forallb isspace s = false.
Proof. intros N. destruct (forallb isspace s) eqn:H; [|reflexivity]. apply blank_ok in H. contradiction. Qed.
Lemma absolute_comma a b : absolute (a ++ COMMA :: b) = absolute a.
Proof. destruct a; reflexivity. Qed.
Lemma path_short (s : list Z) : (length s < LEX_MAX_STR)%nat -> (PATH_MAX <=? length s)%nat = false.
Proof. intros L. apply Nat.leb_gt. eapply Nat.lt_trans; [exact L|]. apply Nat.ltb_lt. vm_compute. reflexivity. Qed.
Lemma named_not_blank t l s n : tables_agree t l = true -> named t s n -> ~ blank_text s.
Proof.
  intros T (sp & w & ns & name & -> & B & I & J & L) BL.
  unfold tables_agree in T. rewrite !andb_true_iff in T. destruct T as ((((T1 & T2) & T3) & T4) & T5).
  rewrite forallb_forall in T1, T5. specialize (T1 _ (flat_in _ _ _ _ I J)). apply agree_in in T1. specialize (T5 _ T1). cbn [fst] in T5.
  destruct (zs name) as [|a q]; [discriminate|]. apply andb_prop in T5. destruct T5 as [T5 T6]. destruct w as [|c w]; [discriminate|].
  injection L as L _. apply Forall_app in BL. destruct BL as [_ BL]. inversion BL as [|? ? SC _]; subst. rewrite space_lower in L by exact SC. subst c.
  rewrite SC in T6. discriminate.
Qed.

Lemma says_val E c0 c k v w : says E (decided c0) (shown c) k v w -> val_plain E v -> value_ok E v ->
  exists c1, server_val E (match c_pidfile c0 with Some _ => true | None => false end) (0 <=? c_port c0) (kw E k) c (fst (val_tok E v)) (snd (val_tok E v)) = Ok (c1, None) /\
    (forall k', shown c1 k' = put_in (shown c) k w k') /\ rest_same c c1 /\ c_errs c1 = c_errs c.
Proof.
  intros H P V. destruct H; cbn [val_plain value_ok val_tok fst snd] in *.
  - cbn [switches In] in H. destruct H as [<-|[<-|[<-|[<-|[]]]]]; eexists; (split; [unfold server_val, on_off; decide_kw; reflexivity|]).
    + split; [same_table "COREDUMP"%string|]. repeat split.
    + split; [same_table "KEEPALIVE"%string|]. repeat split.
    + split; [same_table "LOOPBACK"%string|]. repeat split.
    + split; [same_table "TCPWRAPPERS"%string|]. repeat split.
  - cbn [switches In] in H. destruct H as [<-|[<-|[<-|[<-|[]]]]]; eexists; (split; [unfold server_val, on_off; decide_kw; reflexivity|]).
    + split; [same_table "COREDUMP"%string|]. repeat split.
    + split; [same_table "KEEPALIVE"%string|]. repeat split.
    + split; [same_table "LOOPBACK"%string|]. repeat split.
    + split; [same_table "TCPWRAPPERS"%string|]. repeat split.
  - destruct H as (N & D & L & M). eexists. split; [unfold server_val; decide_kw; change (LEX_INT =? LEX_INT) with true; cbn [negb]; rewrite atoi_digits by auto; reflexivity|].
    split; [same_table "NOFILE"%string|]. repeat split.
  - destruct H as (N & D & L & M). pose proof (number_nonneg n D) as NN.
    eexists. split; [unfold server_val; decide_kw; change (LEX_INT =? LEX_INT) with true; cbn [negb]; rewrite atoi_digits by auto; cbn [bind]|].
    { destruct (Z.ltb_spec (number n) 0); [lia|]. rewrite fixed_port in H0. destruct (0 <=? c_port c0); [congruence|]. reflexivity. }
    split; [same_table "PORT"%string|]. repeat split.
  - destruct H as (N & D & L & M). pose proof (number_nonneg n D) as NN.
    eexists. split; [unfold server_val; decide_kw; change (LEX_INT =? LEX_INT) with true; cbn [negb]; rewrite atoi_digits by auto; cbn [bind]|].
    { destruct (Z.ltb_spec (number n) 0); [lia|]. rewrite fixed_port in H0. rewrite H0. reflexivity. }
    split; [same_table "PORT"%string|]. repeat split.
  - eexists. split; [unfold server_val; decide_kw; rewrite full_ok by auto; cbn [bind negb]|].
    { rewrite fixed_pid in H0. destruct (c_pidfile c0); [congruence|]. apply in_dir_eq in H1. rewrite H1. reflexivity. }
    split; [same_table "PIDFILE"%string|]. repeat split.
  - eexists. split; [unfold server_val; decide_kw; rewrite full_ok by auto; cbn [bind negb]|].
    { rewrite fixed_pid in H0. rewrite H0. reflexivity. }
    split; [same_table "PIDFILE"%string|]. repeat split.
  - eexists. split; [unfold server_val; decide_kw; change (LEX_STR =? LEX_STR) with true; cbn [negb]; rewrite is_empty_ok by auto; cbn [bind]|].
    { apply blank_ok in H. rewrite H. reflexivity. }
    split; [same_table "COREDUMPDIR"%string|]. repeat split.
  - eexists. split; [unfold server_val; decide_kw; change (LEX_STR =? LEX_STR) with true; cbn [negb]; rewrite is_empty_ok by auto; cbn [bind]|].
    { rewrite not_blank_eq by auto. rewrite H0. apply in_dir_eq in H1. rewrite H1. apply without_ok in H2. rewrite H2. reflexivity. }
    split; [same_table "COREDUMPDIR"%string|]. repeat split.
  - eexists. split; [unfold server_val; decide_kw; change (LEX_STR =? LEX_STR) with true; cbn [negb]; rewrite path_short by apply V; rewrite is_empty_ok by auto; cbn [bind]|].
    { apply blank_ok in H. rewrite H. reflexivity. }
    split; [same_table "EXECPATH"%string|]. repeat split.
  - eexists. split; [unfold server_val; decide_kw; change (LEX_STR =? LEX_STR) with true; cbn [negb]; rewrite path_short by apply V; rewrite is_empty_ok by auto; cbn [bind]|].
    { rewrite not_blank_eq by auto. reflexivity. }
    split; [same_table "EXECPATH"%string|]. repeat split.
  - eexists. split; [unfold server_val; decide_kw; change (LEX_STR =? LEX_STR) with true; cbn [negb]; rewrite is_empty_ok by auto; cbn [bind]|].
    { apply blank_ok in H. rewrite H. reflexivity. }
    split; [same_table "LOGDIR"%string|]. repeat split.
  - eexists. split; [unfold server_val; decide_kw; change (LEX_STR =? LEX_STR) with true; cbn [negb]; rewrite is_empty_ok by auto; cbn [bind]|].
    { rewrite not_blank_eq by auto. apply in_dir_eq in H0. rewrite H0. reflexivity. }
    split; [same_table "LOGDIR"%string|]. repeat split.
  - change (SText (Some (c_logdir c)) = SText (Some d)) in H0. change (SLog (c_logfile c) (c_loglevel c) = SLog f lv) in H1.
    injection H0 as H0. injection H1 as H1 H1'.
    eexists. split; [unfold server_val; decide_kw; rewrite full_ok by auto; cbn [bind negb]|].
    { apply in_dir_eq in H2. rewrite H0, H2, comma_none by auto. reflexivity. }
    rewrite <- H1'. split; [same_table "LOGFILE"%string|]. repeat split.
  - change (SText (Some (c_logdir c)) = SText (Some d)) in H. injection H as H.
    assert (NB : ~ blank_text (a ++ COMMA :: b)).
    { intros B. apply Forall_app in B. destruct B as [_ B]. inversion B as [|? ? X _]; subst. discriminate. }
    assert (PB : plain_text E b).
    { destruct P as [C I]. split; [apply Forall_app in C; destruct C as [_ C]; inversion C; auto|].
      intros J. specialize (I J). apply Forall_app in I. destruct I as [_ I]. inversion I; auto. }
    destruct (lookup_tag_ok E _ _ _ _ prio_agree PB H2) as [LT NN].
    eexists. split; [unfold server_val; decide_kw; rewrite full_ok by auto; cbn [bind negb]|].
    { apply in_dir_eq in H0. rewrite absolute_comma, H.
      replace (if absolute a then a ++ COMMA :: b else d ++ SLASH :: a ++ COMMA :: b) with (p ++ COMMA :: b).
      2:{ rewrite <- H0. destruct (absolute a); [reflexivity|]. rewrite <- app_assoc. reflexivity. }
      rewrite comma_some by auto. rewrite LT. cbn [bind]. destruct (Z.ltb_spec n 0); [lia|]. reflexivity. }
    split; [same_table "LOGFILE"%string|]. repeat split.
  - eexists. split; [unfold server_val; decide_kw; rewrite full_ok by auto; cbn [bind negb]; rewrite amp_no by auto; reflexivity|].
    split; [same_table "RESETCMD"%string|]. repeat split.
  - destruct (lookup_tag_ok E _ _ _ _ fac_agree P H) as [LT NN]. pose proof (named_not_blank _ _ _ _ fac_agree H) as NB.
    eexists. split; [unfold server_val; decide_kw; rewrite full_ok by auto; cbn [bind negb]; rewrite LT; cbn [bind]|].
    { destruct (Z.ltb_spec n 0); [lia|]. reflexivity. }
    split; [same_table "SYSLOG"%string|]. repeat split.
Qed.

(** ** A line *)
Definition setting_kws : list string := ["COREDUMP"; "COREDUMPDIR"; "EXECPATH"; "KEEPALIVE"; "LOGDIR"; "LOGFILE"; "LOOPBACK"; "NOFILE"; "PIDFILE"; "PORT";
   "RESETCMD"; "SYSLOG"; "TCPWRAPPERS"]%string.
Lemma says_kw E fx st k v w : says E fx st k v w -> In k setting_kws /\ (k = "TCPWRAPPERS"%string -> e_tcpw E = true).
Proof.
  intros H. destruct H; try (split; [cbn; tauto|discriminate]).
  - split; [cbn in *; tauto|auto].
  - split; [cbn in *; tauto|auto].
Qed.
Lemma setting_known E k : In k setting_kws -> is_kw E k /\ kw E k <> kw E "TIMESTAMP".
Proof.
  intros I. split; [apply kws_ok; cbn in *; tauto|]. cbn [setting_kws In] in I. repeat (destruct I as [<-|I]; [clear; destruct E as [? ? ? ? ? ? ? [] ? ? ? ? ?]; vm_compute; congruence|]). destruct I.
Qed.
Lemma kwd_setting E p t k c s : In k setting_kws -> (k = "TCPWRAPPERS"%string -> e_tcpw E = true) -> prev s = kw E k ->
  server_kwd E p t c s = valued (server_val E p t (kw E k)) c s.
Proof.
  intros I T EQ. unfold server_kwd, among. rewrite EQ. cbn [server_kws existsb].
  cbn [setting_kws In] in I. destruct I as [<-|[<-|[<-|[<-|[<-|[<-|[<-|[<-|[<-|[<-|[<-|[<-|[<-|[]]]]]]]]]]]]]]; decide_kw; rewrite ?orb_true_r; cbn [orb]; try reflexivity.
  rewrite T by reflexivity. reflexivity.
Qed.

Lemma says_ext E fx st st' k v w : (forall k, st k = st' k) -> says E fx st k v w -> says E fx st' k v w.
Proof.
  intros H S. destruct S; try (econstructor; eassumption).
  - rewrite H. constructor; auto.
  - rewrite H. constructor; auto.
  - rewrite H in H1, H2. econstructor; eauto.
  - rewrite H in H0. eapply Y_logfile_level; eauto.
Qed.
Lemma says_all_ext E fx st kvs st1 : says_all E fx st kvs st1 -> forall st', (forall k, st k = st' k) ->
  exists st1', says_all E fx st' kvs st1' /\ forall k, st1 k = st1' k.
Proof.
  induction 1 as [st|st k v w kvs st1 S SA IH]; intros st' H.
  - exists st'. split; [constructor|exact H].
  - destruct (IH (put_in st' k w)) as (st1' & A & B). { intros k'. unfold put_in. rewrite H. reflexivity. }
    exists st1'. split; [|exact B]. econstructor; [eapply says_ext; eauto|exact A].
Qed.

Lemma says_steps E c0 kvs : forall c st, says_all E (decided c0) (shown c) kvs st -> Forall (fun kv => val_plain E (snd kv) /\ value_ok E (snd kv)) kvs ->
  exists c1, steps E (server_val E (match c_pidfile c0 with Some _ => true | None => false end) (0 <=? c_port c0)) c kvs c1 /\
    (forall k, shown c1 k = st k) /\ rest_same c c1 /\ c_errs c1 = c_errs c.
Proof.
  induction kvs as [|[k v] kvs IH]; intros c st S F.
  - inversion S; subst. exists c. split; [constructor|]. repeat split.
  - inversion S as [|? ? ? w ? ? SV SA]; subst. inversion F as [|? ? [P V] F']; subst. cbn [snd] in *.
    destruct (says_val E c0 c k v w SV P V) as (c1 & X & T & R & ER).
    destruct (says_all_ext _ _ _ _ _ SA (shown c1)) as (st' & SA' & Q). { intros k'. symmetry. apply T. }
    destruct (IH c1 st' SA' F') as (c2 & ST & T2 & R2 & ER2). exists c2. split; [econstructor; eauto|].
    split; [intros k'; rewrite T2; symmetry; apply Q|]. split; [eapply rest_trans; eauto|congruence].
Qed.
Lemma says_all_kws E fx st kvs st' : says_all E fx st kvs st' -> Forall (fun kv => In (fst kv) setting_kws /\ (fst kv = "TCPWRAPPERS"%string -> e_tcpw E = true)) kvs.
Proof. induction 1; constructor; auto. cbn [fst]. eapply says_kw; eauto. Qed.

(** The loop over a beginning of a line. *)
Lemma loop_prefix {A} E (val : Z -> A -> Z -> list Z -> res (A * option cerr)) (kwd : A -> strm -> res (A * option cerr * strm)) kvs :
  (forall k a s, In k (map fst kvs) -> prev s = kw E k -> kwd a s = valued (val (kw E k)) a s) ->
  forall a a' n k x r, steps E val a kvs a' ->
  exists k' x', dir_loop kwd (length kvs + n) a (mkStrm k x (flat_map (pair_toks E) kvs ++ r)) = dir_loop kwd n a' (mkStrm k' x' r).
Proof.
  induction kvs as [|[k1 v1] kvs IH]; intros K a a' n k x r S.
  - inversion S; subst. exists k, x. reflexivity.
  - inversion S as [|? ? ? ? a1 ? V S']; subst.
    destruct (IH ltac:(intros; apply K; [right|]; auto) a1 a' n (fst (val_tok E v1)) (snd (val_tok E v1)) r S') as (k' & x' & EQ).
    exists k', x'. rewrite <- EQ. clear EQ IH.
    cbn [flat_map pair_toks app fst snd length Nat.add]. cbn [dir_loop next rest prev].
    rewrite at_end_kw, err_kw. rewrite (K k1) by (try reflexivity; left; reflexivity). unfold valued, eq_val. cbn [next rest prev text].
    rewrite Z.eqb_refl. cbn [negb]. destruct (val_tok E v1) as [vk vx] eqn:EV. cbn [next rest prev text]. cbn [fst snd] in V. rewrite V. cbn [bind fst snd].
    reflexivity.
Qed.

Lemma word_kw E w : at_end (kw E w) = false.
Proof. apply at_end_kw. Qed.
Lemma val_clean E v : at_end (fst (val_tok E v)) = false.
Proof. destruct v; [reflexivity|reflexivity|apply at_end_kw]. Qed.
Lemma pairs_clean E kvs : clean (flat_map (pair_toks E) kvs).
Proof.
  induction kvs as [|kv kvs IH]; [constructor|]. cbn [flat_map pair_toks app]. constructor; [apply at_end_kw|]. constructor; [reflexivity|].
  constructor; [apply val_clean|exact IH].
Qed.

(** The tokens of a SERVER line that follows nothing else. *)
Lemma server_read E c ts : plain_text E ts -> forall us, tokens_of E ts = (kw E "SERVER", zs "SERVER") :: us ->
  read_config E c ts = do r <- parse_server_directive E c (mkStrm (kw E "SERVER") (zs "SERVER") us); config_loop (S (length us)) E (fst r) (snd r).
Proof.
  intros P us EQ. rewrite read_config_tokens by auto. rewrite EQ. unfold parse_toks, fuel_of. cbn [rest length]. cbn [config_loop next rest prev].
  replace (kw E "SERVER" =? LEX_EOF) with false by (symmetry; apply Z.eqb_neq, kw_neq; cbn; auto).
  replace (kw E "SERVER" =? kw E "CONSOLE") with false by (destruct E as [? ? ? ? ? ? ? [] ? ? ? ? ?]; vm_compute; reflexivity).
  replace (kw E "SERVER" =? kw E "GLOBAL") with false by (destruct E as [? ? ? ? ? ? ? [] ? ? ? ? ?]; vm_compute; reflexivity). rewrite Z.eqb_refl. reflexivity.
Qed.

Lemma good_line E c kvs st : plain_text E (directive "SERVER" kvs) -> Forall (fun kv => value_ok E (snd kv)) kvs ->
  says_all E (decided c) (shown c) kvs st ->
  Forall (fun kv => is_kw E (fst kv) /\ value_ok E (snd kv)) kvs /\ Forall (fun kv => kw E (fst kv) <> kw E "TIMESTAMP") kvs /\
  exists c1, read_config E c (directive "SERVER" kvs) = Ok c1 /\ (forall k, shown c1 k = st k) /\ rest_same c c1 /\ c_errs c1 = c_errs c.
Proof.
  intros P V S. pose proof (says_all_kws _ _ _ _ _ S) as K.
  assert (KV : Forall (fun kv => is_kw E (fst kv) /\ value_ok E (snd kv)) kvs).
  { rewrite Forall_forall in K, V |- *. intros kv I. split; [|auto]. apply setting_known. apply (K _ I). }
  assert (PS : Forall (fun kv => val_plain E (snd kv) /\ value_ok E (snd kv)) kvs).
  { pose proof (show_plain _ _ _ P) as SP. rewrite Forall_forall in SP, V |- *. intros [k v] I. specialize (SP _ I). specialize (V _ I). cbn [snd] in *.
    split; [|exact V]. destruct v as [s| |]; cbn [val_plain show] in *; auto. destruct SP as [C IS]. split.
    - inversion C as [|? ? _ C1]. apply Forall_app in C1. apply C1.
    - intros X. specialize (IS X). inversion IS as [|? ? _ C1]. apply Forall_app in C1. apply C1. }
  split; [exact KV|]. split; [rewrite Forall_forall in K |- *; intros kv I; apply setting_known; apply (K _ I)|].
  destruct (says_steps E c kvs c st S PS) as (c1 & ST & T & R & ER). exists c1. split; [|auto].
  rewrite (server_read E c _ P _ (directive_toks E "SERVER" kvs ltac:(apply kws_ok; cbn; tauto) KV (proj1 P))).
  unfold parse_server_directive.
  rewrite (loop_pairs E (server_val E (match c_pidfile c with Some _ => true | None => false end) (0 <=? c_port c)) _ kvs) with (a' := c1).
  - reflexivity.
  - intros k a s I EQ. apply in_map_iff in I. destruct I as (kv & <- & I). rewrite Forall_forall in K. destruct (K _ I). apply kwd_setting; auto.
  - exact ST.
  - unfold fuel_of. cbn [rest]. rewrite app_length, pairs_length. lia.
Qed.

(** ** What is refused *)
Lemma refused_val E c p t k v : refused E k v -> In k setting_kws -> (k = "TCPWRAPPERS"%string -> e_tcpw E = true) -> val_plain E v -> value_ok E v ->
  exists c1 e, server_val E p t (kw E k) c (fst (val_tok E v)) (snd (val_tok E v)) = Ok (c1, Some e) /\
    (forall k', shown c1 k' = shown c k') /\ rest_same c c1 /\ c_errs c1 = c_errs c.
Proof.
  intros H I T P V.
  assert (G : forall e, server_val E p t (kw E k) c (fst (val_tok E v)) (snd (val_tok E v)) = Ok (c, Some e) ->
    exists c1 e, server_val E p t (kw E k) c (fst (val_tok E v)) (snd (val_tok E v)) = Ok (c1, Some e) /\
    (forall k', shown c1 k' = shown c k') /\ rest_same c c1 /\ c_errs c1 = c_errs c).
  { intros e G. exists c, e. split; [exact G|]. repeat split. }
  assert (NW : forall w s, kw E s =? LEX_STR = false /\ (kw E s =? LEX_INT) = false /\ (LEX_STR =? kw E w) = false /\ (LEX_INT =? kw E w) = false).
  { intros w s. rewrite !Z.eqb_neq. repeat split; try (apply kw_neq; cbn; auto 10); apply not_eq_sym; apply kw_neq; cbn; auto 10. }
  destruct H as [k v I1 N|v N|k v I1 N|k v I1 N|k s I1 B|s NB ND|s A|s N|k v I1].
  - cbn [switches In] in I1. destruct v as [s|n|w]; [| |destruct (N w eq_refl)];
      (destruct I1 as [<-|[<-|[<-|[<-|[]]]]]; eapply G; unfold server_val, on_off; decide_kw; cbn [val_tok fst snd];
       rewrite !(proj1 (proj2 (proj2 (NW _ ""%string)))) || rewrite !(proj2 (proj2 (proj2 (NW _ ""%string)))); reflexivity).
  - rewrite T in N by reflexivity. discriminate.
  - destruct v as [s|n|w]; [|destruct (N n eq_refl)|]; (destruct I1 as [<-|[<-|[]]]; eapply G; unfold server_val; decide_kw; cbn [val_tok fst snd];
      [change (LEX_STR =? LEX_INT) with false || rewrite (proj1 (proj2 (NW w w)))..]; reflexivity).
  - assert (FS : forall x, full_str E (fst (val_tok E v)) x = Ok false /\ (fst (val_tok E v) =? LEX_STR) = false).
    { intros x. destruct v as [s|n|w]; [destruct (N s eq_refl)|split; reflexivity|]. cbn [val_tok fst]. unfold full_str.
      destruct (NW w w) as (-> & _). auto. }
    cbn [strings In] in I1. destruct I1 as [<-|[<-|[<-|[<-|[<-|[<-|[<-|[]]]]]]]]; eapply G; unfold server_val; decide_kw; destruct (FS (snd (val_tok E v))) as [F1 F2];
      rewrite ?F2, ?F1; reflexivity.
  - cbn [val_plain value_ok val_tok fst snd] in *.
    assert (FS : full_str E LEX_STR s = Ok false).
    { unfold full_str. rewrite Z.eqb_refl, is_empty_ok by auto. cbn [bind]. apply blank_ok in B. rewrite B. reflexivity. }
    cbn [In] in I1. destruct I1 as [<-|[<-|[<-|[<-|[]]]]]; eapply G; unfold server_val; decide_kw; rewrite FS; reflexivity.
  - cbn [val_plain value_ok val_tok fst snd] in *.
    exists (set_erange c (stat_er E s (c_erange c))), (EValue (kw E "COREDUMPDIR")). split; [|repeat split].
    unfold server_val. decide_kw. change (LEX_STR =? LEX_STR) with true. cbn [negb]. rewrite is_empty_ok by auto. cbn [bind]. rewrite not_blank_eq by auto.
    destruct (e_stat E s); try reflexivity. congruence.
  - cbn [val_plain value_ok val_tok fst snd] in *. eapply G. unfold server_val. decide_kw. rewrite full_ok; [|auto|].
    2:{ intros B. unfold blank_text in B. rewrite Forall_forall in B. specialize (B _ A). discriminate. }
    cbn [bind negb]. replace (has_char AMP s) with true; [reflexivity|]. symmetry. apply has_char_ok. exact A.
  - cbn [val_plain value_ok val_tok fst snd] in *. destruct (forallb isspace s) eqn:B.
    + eapply G. unfold server_val. decide_kw. unfold full_str. rewrite Z.eqb_refl, is_empty_ok by auto. cbn [bind]. rewrite B. reflexivity.
    + eapply G. unfold server_val. decide_kw. unfold full_str. rewrite Z.eqb_refl, is_empty_ok by auto. cbn [bind]. rewrite B. cbn [negb bind].
      rewrite (lookup_tag_no E _ _ _ fac_agree P N). reflexivity.
  - exfalso. clear - I I1. cbn [no_settings In] in I1. cbn [setting_kws In] in I. repeat (destruct I1 as [<-|I1]; [intuition discriminate|]). destruct I1.
Qed.
Lemma refused_known E k v : refused E k v -> In k setting_kws \/ In k no_settings.
Proof. intros H. destruct H; try (left; cbn in *; tauto). right. auto. Qed.
Lemma refused_kwd E c p t k v r : refused E k v -> val_plain E v -> value_ok E v ->
  exists c1 e s, server_kwd E p t c (mkStrm (kw E k) (zs k) ((EQUALS, [EQUALS]) :: val_tok E v :: r)) = Ok (c1, Some e, s) /\
    (forall k', shown c1 k' = shown c k') /\ rest_same c c1 /\ c_errs c1 = c_errs c /\
    (s = mkStrm (kw E k) (zs k) ((EQUALS, [EQUALS]) :: val_tok E v :: r) \/ s = mkStrm (fst (val_tok E v)) (snd (val_tok E v)) r).
Proof.
  intros H P V. destruct (refused_known E k v H) as [I|I].
  - assert (D : k = "TCPWRAPPERS"%string /\ e_tcpw E = false \/ (k = "TCPWRAPPERS"%string -> e_tcpw E = true)).
    { destruct (e_tcpw E); [right; auto|]. destruct (String.eqb_spec k "TCPWRAPPERS"); [left; auto|right; congruence]. }
    destruct D as [[-> T]|T].
    + eexists c, _, _. split; [unfold server_kwd; cbn [prev]; decide_kw; rewrite T; reflexivity|]. repeat split. left. reflexivity.
    + destruct (refused_val E c p t k v H I T P V) as (c1 & e & X & A & B & D). rewrite (kwd_setting E p t k) by auto.
      unfold valued, eq_val. cbn [next rest prev text]. rewrite Z.eqb_refl. destruct (val_tok E v) as [vk vx]. cbn [fst snd] in X |- *. cbn [next rest prev text negb]. rewrite X. cbn [bind fst snd].
      eexists c1, e, _. split; [reflexivity|]. repeat split; try apply B; auto.
  - eexists c, _, _. split; [unfold server_kwd, among; cbn [prev server_kws existsb]|].
    { cbn [no_settings In] in I. destruct I as [<-|[<-|[<-|[<-|[<-|[<-|[<-|[<-|[<-|[<-|[<-|[]]]]]]]]]]]]; decide_kw; cbn [orb]; reflexivity. }
    repeat split. left. reflexivity.
Qed.
Lemma refused_kws E k v : refused E k v -> is_kw E k /\ kw E k <> kw E "TIMESTAMP".
Proof.
  intros H. destruct (refused_known E k v H) as [I|I]; [apply setting_known; auto|]. split; [apply kws_ok; cbn in *; tauto|].
  cbn [no_settings In] in I. repeat (destruct I as [<-|I]; [clear; destruct E as [? ? ? ? ? ? ? [] ? ? ? ? ?]; vm_compute; congruence|]). destruct I.
Qed.

Lemma bad_line E c good k v more st : plain_text E (directive "SERVER" (good ++ (k, v) :: more)) ->
  Forall (fun kv => is_kw E (fst kv) /\ value_ok E (snd kv)) (good ++ (k, v) :: more) ->
  says_all E (decided c) (shown c) good st -> refused E k v ->
  exists c1 e, read_config E c (directive "SERVER" (good ++ (k, v) :: more)) = Ok c1 /\ (forall k, shown c1 k = st k) /\ rest_same c c1 /\ c_errs c1 = c_errs c ++ [e].
Proof.
  intros P KV SA H. pose proof (says_all_kws _ _ _ _ _ SA) as K.
  assert (PS : Forall (fun kv => val_plain E (snd kv) /\ value_ok E (snd kv)) (good ++ (k, v) :: more)).
  { pose proof (show_plain _ _ _ P) as SP. rewrite Forall_forall in SP, KV |- *. intros [k0 v0] I. specialize (SP _ I). specialize (KV _ I). cbn [snd] in *.
    split; [|apply KV]. destruct v0 as [s| |]; cbn [val_plain show] in *; auto. destruct SP as [C IS]. split.
    - inversion C as [|? ? _ C1]. apply Forall_app in C1. apply C1.
    - intros X. specialize (IS X). inversion IS as [|? ? _ C1]. apply Forall_app in C1. apply C1. }
  apply Forall_app in PS. destruct PS as [PS PB]. inversion PB as [|? ? [PV VV] _]; subst. cbn [snd] in *.
  destruct (says_steps E c good c st SA PS) as (c1 & ST & T & R & ER).
  rewrite (server_read E c _ P _ (directive_toks E "SERVER" _ ltac:(apply kws_ok; cbn; tauto) KV (proj1 P))).
  unfold parse_server_directive, fuel_of. cbn [rest].
  set (tl := flat_map (pair_toks E) more ++ [(LEX_EOL, [LF]); (LEX_EOF, [])]).
  assert (EQ : flat_map (pair_toks E) (good ++ (k, v) :: more) ++ [(LEX_EOL, [LF]); (LEX_EOF, [])] =
    flat_map (pair_toks E) good ++ (kw E k, zs k) :: (EQUALS, [EQUALS]) :: val_tok E v :: tl).
  { rewrite flat_map_app. cbn [flat_map pair_toks fst snd]. rewrite <- !app_assoc. reflexivity. }
  rewrite EQ. assert (LN : exists n, S (length (flat_map (pair_toks E) good ++ (kw E k, zs k) :: (EQUALS, [EQUALS]) :: val_tok E v :: tl)) = (length good + S n)%nat).
  { rewrite app_length, pairs_length. cbn [length]. exists (2 * length good + S (S (S (length tl))))%nat. lia. }
  destruct LN as [n LN]. rewrite LN.
  destruct (loop_prefix E (server_val E (match c_pidfile c with Some _ => true | None => false end) (0 <=? c_port c))
    (server_kwd E (match c_pidfile c with Some _ => true | None => false end) (0 <=? c_port c)) good) with (a := c) (a' := c1) (n := S n) (k := kw E "SERVER")
    (x := zs "SERVER") (r := (kw E k, zs k) :: (EQUALS, [EQUALS]) :: val_tok E v :: tl) as (k' & x' & LP).
  { intros k0 a s I EQ0. apply in_map_iff in I. destruct I as (kv & <- & I). rewrite Forall_forall in K. destruct (K _ I). apply kwd_setting; auto. }
  { exact ST. }
  rewrite LP. clear LP. cbn [dir_loop next rest prev]. rewrite at_end_kw, err_kw.
  destruct (refused_kwd E c1 (match c_pidfile c with Some _ => true | None => false end) (0 <=? c_port c) k v tl H PV VV) as (c2 & e & s & X & A & B & D & SS).
  rewrite X. cbn [bind finish fst snd].
  assert (SK : skip_line s = mkStrm LEX_EOL [LF] [(LEX_EOF, [])]).
  { unfold skip_line. destruct SS as [-> | ->]; cbn [prev text rest]; unfold tl.
    - change ((EQUALS, [EQUALS]) :: val_tok E v :: flat_map (pair_toks E) more ++ [(LEX_EOL, [LF]); (LEX_EOF, [])])
        with (((EQUALS, [EQUALS]) :: val_tok E v :: flat_map (pair_toks E) more) ++ [(LEX_EOL, [LF]); (LEX_EOF, [])]).
      apply skip_toks_clean; [|apply at_end_kw]. constructor; [reflexivity|]. constructor; [apply val_clean|apply pairs_clean].
    - apply skip_toks_clean; [apply pairs_clean|apply val_clean]. }
  rewrite SK. exists (add_err c2 e), e. split; [destruct (length good + S n)%nat eqn:Z0; [lia|reflexivity]|].
  split; [intros k0; rewrite <- T, <- A; reflexivity|]. split; [eapply rest_trans; [exact R|]; exact B|].
  change (c_errs (add_err c2 e)) with (c_errs c2 ++ [e]). congruence.
Qed.

(** ** Between the lines *)
Lemma shown_unset E c ts c' : ~ In (kw E "SERVER") (map fst ts) -> parse_toks E c ts = Ok c' -> forall k, shown c' k = shown c k.
Proof.
  intros N H k. revert H. apply (toks_kept E (fun k => k <> kw E "SERVER")) with (R := fun a b => shown b k = shown a k).
  - apply not_eq_sym. apply kw_neq. cbn. auto.
  - reflexivity.
  - congruence.
  - reflexivity.
  - intros d name dv n d' bad H. apply console_shape in H. destruct H as (o & er & ->). reflexivity.
  - intros tok d k0 x d' e _ _. unfold global_val. settle; reflexivity.
  - intros c0 tok d k0 x d' e NG. congruence.
  - congruence.
  - apply no_token. auto.
Qed.
