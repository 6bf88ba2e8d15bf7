(** Proofs about the protocol. *)
From Coq Require Import String.
From Verif Require Import Base BaseProof Mem Chars Fmt LexModel LexSpec LexProof LexProps StrModel StrSpec StrProof
  FileModel FileSpec FileProof FileProps ProtoModel ProtoSpec.
Local Open Scope Z_scope.
Local Notation len := (@List.length Z).

(** ** Building lines *)
Lemma M_pos : (2 <= MAX_SOCK_LINE)%nat.
Proof. unfold MAX_SOCK_LINE. rewrite <- (Nat2Z.id 2). apply Z2Nat.inj_le; lia. Qed.
Lemma ML_eq : MAX_LINE = LEX_MAX_STR.
Proof. reflexivity. Qed.
Lemma ML_M : (MAX_LINE + 300 < MAX_SOCK_LINE)%nat.
Proof. unfold MAX_LINE, MAX_SOCK_LINE. rewrite <- (Nat2Z.id 300), <- Z2Nat.inj_add by lia. apply Z2Nat.inj_lt; lia. Qed.
Lemma ML_300 : (300 < MAX_LINE)%nat.
Proof. unfold MAX_LINE. rewrite <- (Nat2Z.id 300). apply Z2Nat.inj_lt; lia. Qed.
Lemma ML_M2 : (3 * MAX_LINE < MAX_SOCK_LINE)%nat.
Proof. unfold MAX_LINE, MAX_SOCK_LINE. rewrite <- (Nat2Z.id 3), <- Z2Nat.inj_mul by lia. apply Z2Nat.inj_lt; lia. Qed.
Global Opaque MAX_SOCK_LINE MAX_LINE.

Definition built (st : list Z * Z) (s : list Z) : Prop :=
  holds (fst st) (firstn (MAX_SOCK_LINE - 1) s) /\ len (fst st) = MAX_SOCK_LINE /\ chars_ok s /\
  (snd st < 0 <-> (MAX_SOCK_LINE <= len s)%nat).

Lemma built_new : built new_buf [].
Proof.
  unfold built, new_buf. cbn [fst snd]. rewrite firstn_nil, repeat_length. pose proof M_pos. split.
  - split; [constructor|]. exists (repeat NUL (MAX_SOCK_LINE - 1)). cbn [List.app].
    change (NUL :: repeat NUL (MAX_SOCK_LINE - 1)) with (repeat NUL (S (MAX_SOCK_LINE - 1))).
    replace (S (MAX_SOCK_LINE - 1)) with MAX_SOCK_LINE by lia. reflexivity.
  - split; auto. split; [constructor|]. cbn [List.length]. lia.
Qed.

Lemma app_built st s t : built st s -> chars_ok t -> t <> [] -> exists st', ProtoModel.app st t = Ok st' /\ built st' (s ++ t).
Proof.
  intros (H & L & C & R) CT NT. unfold ProtoModel.app.
  destruct (append_ok MAX_SOCK_LINE (fst st) _ t H L CT) as (b & E & HB & LB).
  rewrite E. eexists. split; [reflexivity|]. pose proof M_pos.
  assert (0 < len t)%nat by (destruct t; [congruence|cbn; lia]).
  unfold built. cbn [fst snd]. split.
  - unfold appended in HB. destruct (le_lt_dec (MAX_SOCK_LINE - 1) (len s)).
    + rewrite firstn_app in HB. rewrite firstn_firstn in HB. rewrite firstn_length in HB.
      replace (MAX_SOCK_LINE - 1 - Nat.min (MAX_SOCK_LINE - 1) (len s))%nat with 0%nat in HB by lia.
      rewrite Nat.min_id in HB. cbn [firstn] in HB. rewrite app_nil_r in HB. rewrite firstn_app.
      replace (MAX_SOCK_LINE - 1 - len s)%nat with 0%nat by lia. cbn [firstn]. rewrite app_nil_r. exact HB.
    + rewrite (firstn_all2 s) in HB by lia. exact HB.
  - split; auto. split; [apply Forall_app; auto|]. unfold append_rv.
    rewrite !app_length, firstn_length.
    destruct (Nat.ltb_spec (Nat.min (MAX_SOCK_LINE - 1) (len s) + 1) MAX_SOCK_LINE);
    destruct (Nat.ltb_spec (Nat.min (MAX_SOCK_LINE - 1) (len s) + len t) MAX_SOCK_LINE); cbn [andb]; lia.
Qed.

Lemma app_if_built b st s t : built st s -> chars_ok t -> t <> [] ->
  exists st', app_if b st t = Ok st' /\ built st' (s ++ if b then t else []).
Proof.
  intros B C N. unfold app_if. destruct b; [apply app_built; auto|]. exists st. rewrite app_nil_r. auto.
Qed.

(** Strings that can be encoded. *)
Definition can (dbg : bool) (s : list Z) : Prop := chars_ok s /\ (dbg = true -> Forall (fun c => c < 128) s).
Lemma enc_can dbg s : can dbg s -> lex_encode dbg s = Ok (enc s) /\ chars_ok (enc s).
Proof.
  intros [C D]. unfold lex_encode. split.
  - assert (assert_if dbg (forallb (fun c => c <? 128) s) = Ok tt) as ->.
    { destruct dbg; [|reflexivity]. cbn [assert_if]. unfold assert_.
      assert (forallb (fun c => c <? 128) s = true) as ->; auto.
      apply forallb_forall. intros x X. specialize (D eq_refl). rewrite Forall_forall in D. specialize (D x X). cbv beta in D. lia. }
    cbn [bind]. f_equal. unfold enc. apply map_ext. intros c.
    destruct (Z.eqb_spec c QUOTE) as [-> |]; [reflexivity|]. destruct (Z.eqb_spec c DQUOTE) as [-> |]; reflexivity.
  - unfold chars_ok, enc in *. apply Forall_forall. intros x X. apply in_map_iff in X. destruct X as (c & <- & X).
    rewrite Forall_forall in C. specialize (C c X). unfold char_ok in *.
    destruct (Z.eqb_spec c QUOTE) as [-> |]; [unfold QUOTE; cbn; lia|]. destruct (Z.eqb_spec c DQUOTE) as [-> |]; [unfold DQUOTE; cbn; lia|cbn; auto].
Qed.

Lemma zs_chars_b s : forallb (fun c => (1 <=? c) && (c <? 256)) s = true -> chars_ok s.
Proof. intros H. apply Forall_forall. intros x X. rewrite forallb_forall in H. specialize (H x X). unfold char_ok. lia. Qed.
Ltac zc := apply zs_chars_b; vm_compute; reflexivity.
Lemma field_eq key s : str_fmt (zs key) (enc s) = quoted_field key s.
Proof.
  unfold str_fmt, quoted_field. unfold zs. rewrite !app_assoc. do 2 f_equal.
  assert (H : forall a b, List.map (fun a => Z.of_nat (Ascii.nat_of_ascii a)) (list_ascii_of_string (a ++ b)) =
    List.map (fun a => Z.of_nat (Ascii.nat_of_ascii a)) (list_ascii_of_string a) ++ List.map (fun a => Z.of_nat (Ascii.nat_of_ascii a)) (list_ascii_of_string b)).
  { induction a as [|c a IH]; intros b; cbn; [auto|]. f_equal. apply IH. }
  rewrite !H. cbn. reflexivity.
Qed.
Lemma field_chars key s : chars_ok (zs (" " ++ key ++ "='")) -> chars_ok (enc s) -> chars_ok (quoted_field key s).
Proof. intros A B. unfold quoted_field. repeat (apply Forall_app; split); auto. zc. Qed.
Lemma field_ne key s : quoted_field key s <> [].
Proof. unfold quoted_field. cbn. discriminate. Qed.

Lemma consoles_built dbg l : Forall (can dbg) l -> forall st s, built st s ->
  exists st', app_consoles dbg st l = Ok st' /\ built st' (s ++ List.concat (List.map (quoted_field "CONSOLE") l)).
Proof.
  induction 1 as [|c l C F IH]; intros st s B; cbn [app_consoles List.map List.concat].
  - exists st. rewrite app_nil_r. auto.
  - destruct (enc_can dbg c C) as [-> EC]. cbn [bind].
    change (TOK2STR TOK_CONSOLE) with (zs "CONSOLE"). rewrite field_eq.
    destruct (app_built st s _ B (field_chars "CONSOLE" c ltac:(zc) EC) (field_ne _ _)) as (st1 & -> & B1). cbn [bind].
    destruct (IH st1 _ B1) as (st2 & E & B2). exists st2. rewrite E. split; auto. rewrite app_assoc. auto.
Qed.

Lemma write_str_ok sched out buf s : holds buf s ->
  exists out' ok s1, write_str sched out buf = Ok (out', ok, s1) /\ suffix s1 sched /\
    (ok = true /\ out' = out ++ s \/ ok = false /\ In Fail sched /\ exists k, (k < len s)%nat /\ out' = out ++ firstn k s).
Proof.
  intros H. unfold write_str. rewrite (strlen_ok buf s) by auto. cbn [bind].
  destruct H as (C & j & ->).
  destruct (C23_write_n sched out (s ++ NUL :: j) (len s)) as (out' & rv & s1 & E & S1 & R).
  { rewrite app_length. lia. }
  rewrite E. cbn [bind]. destruct R as [(-> & R)|(-> & F & k & K & R)].
  - exists out', true, s1. destruct (Z.ltb_spec (Z.of_nat (len s)) 0); [lia|]. split; auto. split; auto. left. split; auto.
    rewrite firstn_app, Nat.sub_diag, firstn_all in R. cbn [firstn] in R. rewrite app_nil_r in R. auto.
  - exists out', false, s1. split; auto. split; auto. right. split; auto. split; auto. exists k. split; auto.
    rewrite firstn_app in R. replace (k - len s)%nat with 0%nat in R by lia. cbn [firstn] in R. rewrite app_nil_r in R. auto.
Qed.

(** What sending a finished line comes to. *)
Definition sent (sched : list io_ev) (out : list Z) (line : list Z) (r : list Z * Z * list io_ev) : Prop :=
  let '(out', rv, s1) := r in
  suffix s1 sched /\
  (rv = 0 /\ out' = out ++ line /\ (len line < MAX_SOCK_LINE)%nat \/
   rv = -1 /\ out' = out /\ (MAX_SOCK_LINE <= len line)%nat \/
   rv = -1 /\ In Fail sched /\ exists k, (k < len line)%nat /\ out' = out ++ firstn k line).

Lemma finish_sent sched out st line : built st line ->
  exists r, (if snd st <? 0 then Ok (out, -1, sched)
             else do w <- write_str sched out (fst st);
                  let '(out1, ok, s1) := w in Ok (out1, if ok then 0 else -1, s1)) = Ok r /\ sent sched out line r.
Proof.
  intros (H & L & C & R). destruct (Z.ltb_spec (snd st) 0) as [N|N].
  - eexists. split; [reflexivity|]. cbn [sent]. split; [apply suffix_refl|]. right. left. repeat split; auto. apply R. auto.
  - assert (len line < MAX_SOCK_LINE)%nat by (destruct (le_lt_dec MAX_SOCK_LINE (len line)) as [X|X]; auto; apply R in X; lia).
    rewrite firstn_all2 in H by lia.
    destruct (write_str_ok sched out (fst st) line H) as (out' & ok & s1 & E & S1 & X). rewrite E. cbn [bind].
    eexists. split; [reflexivity|]. cbn [sent]. split; auto.
    destruct X as [[-> X]|(-> & X)]; [left; auto|right; right; auto].
Qed.

Lemma send_req_ok dbg sched out q : q_cmd q <> CmdNone -> Forall (can dbg) (q_cons q) ->
  exists out' rv s1, send_req dbg sched out q = Ok (out', rv, s1, set_cons q []) /\ sent sched out (request_line q) (out', rv, s1).
Proof.
  intros NC F. unfold send_req.
  set (cm := match q_cmd q with CmdQuery => _ | _ => _ end).
  assert (CM : cm = Ok (zs (cmd_word (q_cmd q)))) by (unfold cm; destruct (q_cmd q); try reflexivity; congruence).
  rewrite CM. clear cm CM. cbn [bind].
  assert (CH : chars_ok (zs (cmd_word (q_cmd q))) /\ zs (cmd_word (q_cmd q)) <> []).
  { destruct (q_cmd q); try congruence; (split; [zc|discriminate]). }
  destruct CH as [CH CN].
  destruct (app_built _ _ _ built_new CH CN) as (st1 & -> & B1). cbn [bind List.app] in *.
  change (opt_fmt (TOK2STR TOK_OPTION) (TOK2STR TOK_QUIET)) with (zs " OPTION=QUIET").
  change (opt_fmt (TOK2STR TOK_OPTION) (TOK2STR TOK_REGEX)) with (zs " OPTION=REGEX").
  change (opt_fmt (TOK2STR TOK_OPTION) (TOK2STR TOK_FORCE)) with (zs " OPTION=FORCE").
  change (opt_fmt (TOK2STR TOK_OPTION) (TOK2STR TOK_JOIN)) with (zs " OPTION=JOIN").
  change (opt_fmt (TOK2STR TOK_OPTION) (TOK2STR TOK_BROADCAST)) with (zs " OPTION=BROADCAST").
  destruct (app_if_built (q_quiet q) st1 _ (zs " OPTION=QUIET") B1 ltac:(zc) ltac:(discriminate)) as (st2 & -> & B2). cbn [bind].
  destruct (app_if_built (q_regex q) st2 _ (zs " OPTION=REGEX") B2 ltac:(zc) ltac:(discriminate)) as (st3 & -> & B3). cbn [bind].
  set (cn := match q_cmd q with CmdConnect => true | _ => false end).
  destruct (app_if_built (cn && q_force q) st3 _ (zs " OPTION=FORCE") B3 ltac:(zc) ltac:(discriminate)) as (st4 & -> & B4). cbn [bind].
  destruct (app_if_built (cn && q_join q) st4 _ (zs " OPTION=JOIN") B4 ltac:(zc) ltac:(discriminate)) as (st5 & -> & B5). cbn [bind].
  destruct (app_if_built (cn && q_bcast q) st5 _ (zs " OPTION=BROADCAST") B5 ltac:(zc) ltac:(discriminate)) as (st6 & -> & B6). cbn [bind].
  destruct (consoles_built dbg (q_cons q) F st6 _ B6) as (st7 & -> & B7). cbn [bind].
  destruct (app_built st7 _ [LF] B7 ltac:(zc) ltac:(discriminate)) as (st8 & -> & B8). cbn [bind].
  assert (EL : forall x, built st8 x -> x = request_line q -> built st8 (request_line q)) by (intros; subst; auto).
  apply EL in B8; clear EL.
  2:{ unfold request_line, is_connect, when. fold cn. destruct cn; cbn [andb]; rewrite <- ?app_assoc; cbn [List.app]; auto. }
  destruct (finish_sent sched out st8 _ B8) as ([[out' rv] s1] & E & S). exists out', rv, s1. split; auto.
  destruct (snd st8 <? 0); [congruence|]. destruct (write_str sched out (fst st8)) as [[[o k] s]|]; cbn [bind] in *; [congruence|discriminate].
Qed.

Lemma send_greeting_ok dbg sched out user tty : can dbg user -> (forall t, tty = Some t -> can dbg t) ->
  exists r, send_greeting dbg sched out user tty = Ok r /\ sent sched out (greeting_line user tty) r.
Proof.
  intros CU CT. unfold send_greeting. destruct (enc_can dbg user CU) as [-> EU]. cbn [bind].
  assert (E1 : TOK2STR TOK_HELLO ++ zs " " ++ TOK2STR TOK_USER ++ zs "='" ++ enc user ++ zs "'" = zs "HELLO" ++ quoted_field "USER" user).
  { rewrite <- field_eq. reflexivity. }
  rewrite E1.
  destruct (app_built _ _ (zs "HELLO" ++ quoted_field "USER" user) built_new) as (st1 & -> & B1).
  { apply Forall_app. split; [zc|]. apply field_chars; auto. zc. }
  { discriminate. }
  cbn [bind List.app] in *.
  assert (X : exists st2, (match tty with Some t => do et <- lex_encode dbg t; ProtoModel.app st1 (str_fmt (TOK2STR TOK_TTY) et) | None => Ok st1 end) = Ok st2 /\
    built st2 ((zs "HELLO" ++ quoted_field "USER" user) ++ match tty with Some t => quoted_field "TTY" t | None => [] end)).
  { destruct tty as [t|].
    - destruct (enc_can dbg t (CT t eq_refl)) as [-> ET]. cbn [bind]. change (TOK2STR TOK_TTY) with (zs "TTY"). rewrite field_eq.
      apply app_built; auto; [apply field_chars; auto; zc|apply field_ne].
    - exists st1. rewrite app_nil_r. auto. }
  destruct X as (st2 & -> & B2). cbn [bind].
  destruct (app_built st2 _ [LF] B2 ltac:(zc) ltac:(discriminate)) as (st3 & -> & B3). cbn [bind].
  unfold greeting_line. replace (zs "HELLO" ++ quoted_field "USER" user ++ match tty with Some t => quoted_field "TTY" t | None => [] end ++ [LF])
    with (((zs "HELLO" ++ quoted_field "USER" user) ++ match tty with Some t => quoted_field "TTY" t | None => [] end) ++ [LF]) by (rewrite <- !app_assoc; reflexivity).
  apply finish_sent. auto.
Qed.

(** ** Parsing *)
Definition lat (l : lex) (r : list Z) : Prop := is_at l r /\ x_toks l = proto_strs.
Lemma proto_sorted : sorted_table proto_strs.
Proof. apply C18_tables_sorted. Qed.

Lemma nx l r k txt rest : lat l r -> next_token proto_strs r = (k, txt, rest) ->
  exists l', lex_next false l = Ok (k, l') /\ lat l' rest /\ x_text l' = txt /\ x_buf l' = x_buf l.
Proof.
  intros [A T] E. destruct (next_ok false l r A ltac:(discriminate)) as (l' & H1 & H2 & H3 & H4 & H5 & H6 & _).
  { rewrite T. apply proto_sorted. }
  rewrite T, E in *. cbn [fst snd] in *. exists l'. split; auto. split; [|auto]. split; auto; congruence.
Qed.
Lemma lat_fuel l r : lat l r -> (len r < fuel_of l)%nat.
Proof. intros [(C & pre & post & E & _) _]. unfold fuel_of. rewrite E, !app_length. cbn [List.length]. lia. Qed.
Lemma lat_chars l r : lat l r -> chars_ok r.
Proof. intros [[C _] _]. auto. Qed.

(** One round of a parser's loop. *)
Lemma loop_step {S} (body : Z -> lex -> S -> res (lex * S * bool)) n l r st k txt rest :
  lat l r -> (len r < n)%nat -> next_token proto_strs r = (k, txt, rest) -> k <> LEX_EOF -> k <> LEX_EOL ->
  exists n' l', lat l' rest /\ (len rest < n')%nat /\ x_text l' = txt /\
    parse_loop n false body l st =
      (do r2 <- body k l' st; let '(l2, st2, done) := r2 in if done then Ok (l2, st2) else parse_loop n' false body l2 st2).
Proof.
  intros A N E K1 K2. destruct n as [|n]; [lia|]. destruct (nx l r k txt rest A E) as (l' & H1 & H2 & H3 & _).
  exists n, l'. split; auto. split.
  - pose proof (next_progress proto_strs r (lat_chars _ _ A)) as [_ P]. rewrite E in P. cbn [fst snd] in P. specialize (P K1). lia.
  - split; auto. cbn [parse_loop]. rewrite H1. cbn [bind].
    destruct (Z.eqb_spec k LEX_EOF); [congruence|]. destruct (Z.eqb_spec k LEX_EOL); [congruence|]. reflexivity.
Qed.
Lemma loop_stop {S} (body : Z -> lex -> S -> res (lex * S * bool)) n l r st k txt rest :
  lat l r -> (len r < n)%nat -> next_token proto_strs r = (k, txt, rest) -> k = LEX_EOF \/ k = LEX_EOL ->
  exists l', lat l' rest /\ parse_loop n false body l st = Ok (l', st).
Proof.
  intros A N E K. destruct n as [|n]; [lia|]. destruct (nx l r k txt rest A E) as (l' & H1 & H2 & H3 & _).
  exists l'. split; auto. cbn [parse_loop]. rewrite H1. cbn [bind]. destruct K as [-> | ->]; reflexivity.
Qed.

Lemma enc_encb s : Forall (fun c => 1 <= c < 128 /\ c <> CR /\ c <> LF) s -> enc s = List.map encb s.
Proof.
  intros F. unfold enc. apply map_ext. intros c. unfold encb.
  destruct (Z.eqb_spec c QUOTE) as [-> |]; [reflexivity|]. destruct (Z.eqb_spec c DQUOTE) as [-> |]; reflexivity.
Qed.
Lemma send_basic s : sendable s -> Forall (fun c => 1 <= c < 128) s /\ noeol s /\ (len s < LEX_MAX_STR)%nat.
Proof.
  intros [F L]. split; [|split; auto].
  - eapply Forall_impl; [|exact F]. cbv beta. tauto.
  - unfold noeol. eapply Forall_impl; [|exact F]. cbv beta. intros c (_ & A & B). unfold is_eol.
    destruct (Z.eqb_spec c LF); [congruence|]. destruct (Z.eqb_spec c CR); [congruence|reflexivity].
Qed.
Lemma sendable_can dbg s : sendable s -> can dbg s.
Proof.
  intros [F _]. split; [|intros _]; eapply Forall_impl; try exact F; cbv beta; unfold char_ok; intros; lia.
Qed.
Lemma decode_enc s : sendable s -> lex_decode (enc s) = s.
Proof. intros S. rewrite enc_encb by apply S. apply decode_encode. apply send_basic. auto. Qed.
Lemma enc_nil s : enc s = [] -> s = [].
Proof. destruct s; [auto|discriminate]. Qed.

(** ='...' *)
Lemma value_ok s X l : sendable s -> lat l (zs "='" ++ enc s ++ zs "'" ++ X) ->
  exists l', lex_value false LEX_STR l = Ok (l', Some (enc s)) /\ lat l' X.
Proof.
  intros SE A. unfold lex_value.
  destruct (nx l _ EQUALS [EQUALS] (QUOTE :: enc s ++ zs "'" ++ X) A) as (l1 & E1 & A1 & T1 & _).
  { reflexivity. }
  rewrite E1. cbn [bind fst snd]. change (EQUALS =? EQUALS) with true. cbv iota.
  destruct (send_basic s SE) as (F1 & F2 & F3).
  destruct (nx l1 _ LEX_STR (enc s) X A1) as (l2 & E2 & A2 & T2 & _).
  { unfold next_token. change (skip false (QUOTE :: enc s ++ zs "'" ++ X)) with (QUOTE :: enc s ++ QUOTE :: X).
    rewrite enc_encb by apply SE. apply token_quoted; auto. }
  rewrite E2. cbn [bind fst snd]. change (LEX_STR =? LEX_STR) with true. cbv iota. rewrite T2. eauto.
Qed.

(** What may follow a word. *)
Definition sep (X : list Z) : Prop := exists c t, X = c :: t /\ (c = SPACE \/ c = LF \/ c = EQUALS).
Lemma sep_field key s X : sep (quoted_field key s ++ X).
Proof. unfold sep, quoted_field. cbn. eexists _, _. split; [reflexivity|auto]. Qed.
Lemma sep_lf X : sep ([LF] ++ X).
Proof. eexists _, _. split; [reflexivity|auto]. Qed.
Lemma sep_concat key l X : sep X -> sep (List.concat (List.map (quoted_field key) l) ++ X).
Proof. intros S. destruct l; [exact S|]. cbn [List.map List.concat]. rewrite <- app_assoc. apply sep_field. Qed.
Lemma sep_when b s X : sep (zs s ++ X) -> sep X -> sep (when b s ++ X).
Proof. destruct b; auto. Qed.
Ltac ntok := match goal with H : sep _ |- _ => destruct H as (?c & ?t & -> & [-> | [-> | ->]]); vm_compute; reflexivity end.

(** =KEYWORD *)
Lemma option_ok w k X l : sep X -> (forall X, sep X -> next_token proto_strs (zs w ++ X) = (k, zs w, X)) -> lat l (zs "=" ++ zs w ++ X) ->
  exists l', lex_option false l = Ok (l', Some k) /\ lat l' X.
Proof.
  intros S W A. unfold lex_option.
  destruct (nx l _ EQUALS [EQUALS] (zs w ++ X) A) as (l1 & E1 & A1 & T1 & _); [reflexivity|].
  rewrite E1. cbn [bind fst snd]. change (EQUALS =? EQUALS) with true. cbv iota.
  destruct (nx l1 _ _ _ _ A1 (W X S)) as (l2 & E2 & A2 & _). rewrite E2. cbn [bind fst snd]. eauto.
Qed.

Lemma tok_console X : next_token proto_strs (zs " CONSOLE='" ++ X) = (TOK_CONSOLE, zs "CONSOLE", zs "='" ++ X).
Proof. vm_compute. reflexivity. Qed.
Lemma tok_user X : next_token proto_strs (zs " USER='" ++ X) = (TOK_USER, zs "USER", zs "='" ++ X).
Proof. vm_compute. reflexivity. Qed.
Lemma tok_tty X : next_token proto_strs (zs " TTY='" ++ X) = (TOK_TTY, zs "TTY", zs "='" ++ X).
Proof. vm_compute. reflexivity. Qed.
Lemma tok_message X : next_token proto_strs (zs " MESSAGE='" ++ X) = (TOK_MESSAGE, zs "MESSAGE", zs "='" ++ X).
Proof. vm_compute. reflexivity. Qed.
Lemma tok_option X : next_token proto_strs (zs " OPTION=" ++ X) = (TOK_OPTION, zs "OPTION", zs "=" ++ X).
Proof. vm_compute. reflexivity. Qed.

(** A parser's loop has got from one place and state to another. *)
Definition goes {S} (body : Z -> lex -> S -> res (lex * S * bool)) (r : list Z) (st : S) (r' : list Z) (st' : S) : Prop :=
  forall n l, lat l r -> (len r < n)%nat ->
  exists n' l', lat l' r' /\ (len r' < n')%nat /\ parse_loop n false body l st = parse_loop n' false body l' st'.
Lemma goes_refl {S} (body : Z -> lex -> S -> res (lex * S * bool)) r st : goes body r st r st.
Proof. intros n l A N. exists n, l. auto. Qed.
Lemma goes_trans {S} (body : Z -> lex -> S -> res (lex * S * bool)) r1 s1 r2 s2 r3 s3 :
  goes body r1 s1 r2 s2 -> goes body r2 s2 r3 s3 -> goes body r1 s1 r3 s3.
Proof.
  intros G1 G2 n l A N. destruct (G1 n l A N) as (n1 & l1 & A1 & N1 & E1). destruct (G2 n1 l1 A1 N1) as (n2 & l2 & A2 & N2 & E2).
  exists n2, l2. split; auto. split; auto. congruence.
Qed.

(** A keyword with a quoted string. *)
Lemma goes_field {S} (body : Z -> lex -> S -> res (lex * S * bool)) key k txt s X st st' :
  sendable s ->
  (forall X, next_token proto_strs (zs (" " ++ key ++ "='") ++ X) = (k, txt, zs "='" ++ X)) ->
  k <> LEX_EOF -> k <> LEX_EOL ->
  (forall l, body k l st = do r <- lex_value false LEX_STR l; Ok (fst r, match snd r with Some e => st' e | None => st end, false)) ->
  goes body (quoted_field key s ++ X) st X (st' (enc s)).
Proof.
  intros SE T K1 K2 B n l A N. unfold quoted_field in A, N. rewrite <- !app_assoc in A.
  destruct (loop_step body n l _ st k txt _ A ltac:(rewrite <- !app_assoc in N; exact N) (T _) K1 K2) as (n1 & l1 & A1 & N1 & _ & E).
  destruct (value_ok s X l1 SE A1) as (l2 & E2 & A2). rewrite E, B, E2. cbn [bind fst snd].
  exists n1, l2. split; auto. split; auto. rewrite !app_length in N1. lia.
Qed.
Lemma goes_console q s X : name_ok s -> goes (opts_body false) (quoted_field "CONSOLE" s ++ X) q X (set_cons q (q_cons q ++ [s])).
Proof.
  intros [SE NE]. pose proof (goes_field (opts_body false) "CONSOLE" TOK_CONSOLE _ s X q
    (fun e => match nonempty (Some e) with Some s => set_cons q (q_cons q ++ [lex_decode s]) | None => q end) SE tok_console ltac:(discriminate) ltac:(discriminate)) as G.
  cbv beta in G. assert (EN : nonempty (Some (enc s)) = Some (enc s)) by (destruct s; [congruence|reflexivity]).
  rewrite EN, decode_enc in G by auto. apply G. intros l. unfold opts_body. change (TOK_CONSOLE =? TOK_CONSOLE) with true. cbv iota.
  destruct (lex_value false LEX_STR l) as [[l' [e|]]|]; reflexivity.
Qed.
Lemma goes_consoles l : Forall name_ok l -> forall q X, goes (opts_body false) (List.concat (List.map (quoted_field "CONSOLE") l) ++ X) q X (set_cons q (q_cons q ++ l)).
Proof.
  induction 1 as [|s l S F IH]; intros q X; cbn [List.map List.concat].
  - rewrite app_nil_r. destruct q. apply goes_refl.
  - rewrite <- app_assoc. eapply goes_trans; [apply goes_console; auto|].
    pose proof (IH (set_cons q (q_cons q ++ [s])) X) as G. unfold set_cons in *. cbn [q_user q_tty q_cmd q_bcast q_force q_join q_quiet q_regex q_reset q_cons] in *.
    rewrite <- app_assoc in G. exact G.
Qed.
(** OPTION=... *)
Lemma goes_option {S} (body : Z -> lex -> S -> res (lex * S * bool)) w k X st st' : sep X ->
  (forall X, sep X -> next_token proto_strs (zs w ++ X) = (k, zs w, X)) ->
  (forall l, body TOK_OPTION l st = do r <- lex_option false l; Ok (fst r, match snd r with Some e => st' e | None => st end, false)) ->
  goes body (zs " OPTION=" ++ zs w ++ X) st X (st' k).
Proof.
  intros SX W B n l A N.
  destruct (loop_step body n l _ st _ _ _ A N (tok_option _) ltac:(discriminate) ltac:(discriminate)) as (n1 & l1 & A1 & N1 & _ & E).
  destruct (option_ok w k X l1 SX W A1) as (l2 & E2 & A2). rewrite E, B, E2. cbn [bind fst snd].
  exists n1, l2. split; auto. split; auto. rewrite !app_length in N1. lia.
Qed.
Definition opt_set (k : Z) (q : req) : req :=
  if k =? TOK_BROADCAST then set_bcast q else if k =? TOK_FORCE then set_force q else if k =? TOK_JOIN then set_join q
  else if k =? TOK_QUIET then set_quiet q else if k =? TOK_REGEX then set_regex q else q.
Lemma goes_opt w k X q : sep X -> (forall X, sep X -> next_token proto_strs (zs w ++ X) = (k, zs w, X)) ->
  goes (opts_body false) (zs " OPTION=" ++ zs w ++ X) q X (opt_set k q).
Proof.
  intros SX W. apply (goes_option (opts_body false) w k X q (fun k => opt_set k q)); auto.
Qed.
Lemma kw_bcast X : sep X -> next_token proto_strs (zs "BROADCAST" ++ X) = (TOK_BROADCAST, zs "BROADCAST", X). Proof. intros S. ntok. Qed.
Lemma kw_force X : sep X -> next_token proto_strs (zs "FORCE" ++ X) = (TOK_FORCE, zs "FORCE", X). Proof. intros S. ntok. Qed.
Lemma kw_join X : sep X -> next_token proto_strs (zs "JOIN" ++ X) = (TOK_JOIN, zs "JOIN", X). Proof. intros S. ntok. Qed.
Lemma kw_quiet X : sep X -> next_token proto_strs (zs "QUIET" ++ X) = (TOK_QUIET, zs "QUIET", X). Proof. intros S. ntok. Qed.
Lemma kw_regex X : sep X -> next_token proto_strs (zs "REGEX" ++ X) = (TOK_REGEX, zs "REGEX", X). Proof. intros S. ntok. Qed.
Lemma kw_reset X : sep X -> next_token proto_strs (zs "RESET" ++ X) = (TOK_RESET, zs "RESET", X). Proof. intros S. ntok. Qed.
Lemma kw_ok X : sep X -> next_token proto_strs (zs "OK" ++ X) = (TOK_OK, zs "OK", X). Proof. intros S. ntok. Qed.
Lemma kw_hello X : sep X -> next_token proto_strs (zs "HELLO" ++ X) = (TOK_HELLO, zs "HELLO", X). Proof. intros S. ntok. Qed.
Lemma kw_connect X : sep X -> next_token proto_strs (zs "CONNECT" ++ X) = (TOK_CONNECT, zs "CONNECT", X). Proof. intros S. ntok. Qed.
Lemma kw_monitor X : sep X -> next_token proto_strs (zs "MONITOR" ++ X) = (TOK_MONITOR, zs "MONITOR", X). Proof. intros S. ntok. Qed.
Lemma kw_query X : sep X -> next_token proto_strs (zs "QUERY" ++ X) = (TOK_QUERY, zs "QUERY", X). Proof. intros S. ntok. Qed.
Lemma tok_lf : next_token proto_strs [LF] = (LEX_EOL, [LF], []). Proof. vm_compute. reflexivity. Qed.
Lemma tok_eof : next_token proto_strs [] = (LEX_EOF, [], []). Proof. vm_compute. reflexivity. Qed.

Lemma goes_when (b : bool) w k X q : sep X -> (forall X, sep X -> next_token proto_strs (zs w ++ X) = (k, zs w, X)) ->
  goes (opts_body false) ((if b then zs " OPTION=" ++ zs w else []) ++ X) q X (if b then opt_set k q else q).
Proof.
  intros SX W. destruct b; [rewrite <- app_assoc; apply goes_opt; auto|apply goes_refl].
Qed.

(** ** Lines *)
Lemma first_line_app body more : ~ In LF body -> first_line (body ++ LF :: more) = body ++ [LF].
Proof.
  induction body as [|c t IH]; intros NI; cbn [List.app first_line].
  - reflexivity.
  - destruct (Z.eqb_spec c LF) as [-> |]; [exfalso; apply NI; left; auto|]. f_equal. apply IH. intros X. apply NI. right. auto.
Qed.
Lemma read_whole sched body more junk : ~ In LF body -> (S (len body) < MAX_SOCK_LINE)%nat -> len junk = MAX_SOCK_LINE -> ~ In Fail sched ->
  exists s1 post, read_line sched ((body ++ [LF]) ++ more) junk MAX_SOCK_LINE = Ok ((body ++ [LF]) ++ NUL :: post, Z.of_nat (S (len body)), s1, more) /\ suffix s1 sched.
Proof.
  intros NI L LJ NF. pose proof M_pos.
  destruct (C23_read_line sched ((body ++ [LF]) ++ more) junk MAX_SOCK_LINE ltac:(lia) NF) as (buf & s1 & E & S1 & _ & B).
  rewrite <- (app_assoc body [LF] more) in *. cbn [List.app] in *. rewrite first_line_app in * by auto.
  rewrite firstn_all2 in * by (rewrite app_length; cbn [List.length]; lia).
  rewrite app_length in E. cbn [List.length] in E.
  replace (len body + 1)%nat with (S (len body)) in E by lia.
  rewrite E, B by (left; destruct body; discriminate).
  exists s1. eexists. split; [|exact S1].
  assert (SK : skipn (S (len body)) (body ++ LF :: more) = more).
  { change (LF :: more) with ([LF] ++ more). rewrite app_assoc.
    replace (S (len body)) with (len (body ++ [LF])) by (rewrite app_length; cbn; lia).
    rewrite skipn_app, Nat.sub_diag, skipn_all. reflexivity. }
  rewrite SK. reflexivity.
Qed.

(** ** The server reads a request *)
Lemma notin_app {A} (x : A) a b : ~ In x a -> ~ In x b -> ~ In x (a ++ b).
Proof. intros H1 H2 H. apply in_app_iff in H. tauto. Qed.
Lemma notin_b s : existsb (fun c => c =? LF) s = false -> ~ In LF s.
Proof. intros E I. assert (existsb (fun c => c =? LF) s = true) by (apply existsb_exists; exists LF; split; auto). congruence. Qed.
Ltac nb := apply notin_b; vm_compute; reflexivity.
Lemma enc_nolf s : sendable s -> ~ In LF (enc s).
Proof.
  intros [F _] I. unfold enc in I. apply in_map_iff in I. destruct I as (c & E & I). rewrite Forall_forall in F. destruct (F c I) as (R & A & B). unfold QUOTE, DQUOTE, LF in *.
  destruct (Z.eqb_spec c 39); cbn [orb] in E; [lia|]. destruct (Z.eqb_spec c 34); lia.
Qed.
Lemma field_nolf key s : ~ In LF (zs (" " ++ key ++ "='")) -> sendable s -> ~ In LF (quoted_field key s).
Proof. intros H S. unfold quoted_field. apply notin_app; auto. apply notin_app; [apply enc_nolf; auto|nb]. Qed.
Lemma fields_nolf key l : ~ In LF (zs (" " ++ key ++ "='")) -> Forall sendable l -> ~ In LF (List.concat (List.map (quoted_field key) l)).
Proof. intros H. induction 1; cbn [List.map List.concat]; [intros []|]. apply notin_app; auto. apply field_nolf; auto. Qed.
Lemma when_nolf b s : ~ In LF (zs s) -> ~ In LF (when b s).
Proof. destruct b; auto. Qed.
Lemma sendable_enc_chars s : sendable s -> chars_ok (enc s).
Proof. intros S. apply (enc_can false). apply sendable_can. auto. Qed.
Lemma fields_chars key l : chars_ok (zs (" " ++ key ++ "='")) -> Forall sendable l -> chars_ok (List.concat (List.map (quoted_field key) l)).
Proof. intros H. induction 1; cbn [List.map List.concat]; [constructor|]. apply Forall_app. split; auto. apply field_chars; auto. apply sendable_enc_chars; auto. Qed.
Lemma when_chars b s : chars_ok (zs s) -> chars_ok (when b s).
Proof. destruct b; auto. constructor. Qed.

Definition request_body (q : req) : list Z := removelast (request_line q).
Definition request_tail (q : req) : list Z :=
  when (q_quiet q) " OPTION=QUIET" ++ when (q_regex q) " OPTION=REGEX" ++
  (if is_connect (q_cmd q)
   then when (q_force q) " OPTION=FORCE" ++ when (q_join q) " OPTION=JOIN" ++ when (q_bcast q) " OPTION=BROADCAST"
   else []) ++
  List.concat (List.map (quoted_field "CONSOLE") (q_cons q)).
Lemma request_split q : request_line q = (zs (cmd_word (q_cmd q)) ++ request_tail q) ++ [LF].
Proof. unfold request_line, request_tail. rewrite <- !app_assoc. reflexivity. Qed.
Lemma names_sendable l : Forall name_ok l -> Forall sendable l.
Proof. apply Forall_impl. unfold name_ok. tauto. Qed.
Lemma request_nolf q : Forall name_ok (q_cons q) -> ~ In LF (zs (cmd_word (q_cmd q)) ++ request_tail q).
Proof.
  intros F. apply notin_app; [destruct (q_cmd q); nb|]. unfold request_tail.
  repeat (apply notin_app; [first [apply when_nolf; nb|destruct (is_connect (q_cmd q)); [|intros []]; repeat apply notin_app; apply when_nolf; nb]|]).
  apply fields_nolf; [nb|apply names_sendable; auto].
Qed.
Lemma request_chars q : Forall name_ok (q_cons q) -> chars_ok (request_line q).
Proof.
  intros F. rewrite request_split. repeat (apply Forall_app; split); try (apply when_chars; zc); try zc.
  - destruct (q_cmd q); zc.
  - destruct (is_connect (q_cmd q)); [|constructor]. repeat (apply Forall_app; split); apply when_chars; zc.
  - apply fields_chars; [zc|apply names_sendable; auto].
Qed.

Lemma sep_conn q X : sep X -> sep ((if is_connect (q_cmd q)
   then when (q_force q) " OPTION=FORCE" ++ when (q_join q) " OPTION=JOIN" ++ when (q_bcast q) " OPTION=BROADCAST" else []) ++ X).
Proof.
  intros S. destruct (is_connect (q_cmd q)); auto. rewrite <- !app_assoc.
  repeat (apply sep_when; [eexists _, _; split; [reflexivity|auto]|]). auto.
Qed.
Lemma sep_tail q X : sep X -> sep (request_tail q ++ X).
Proof.
  intros S. unfold request_tail. rewrite <- !app_assoc.
  apply sep_when; [eexists _, _; split; [reflexivity|auto]|]. apply sep_when; [eexists _, _; split; [reflexivity|auto]|].
  apply sep_conn. apply sep_concat. auto.
Qed.
Lemma when_goes b w o k X q : zs o = zs " OPTION=" ++ zs w -> sep X -> (forall X, sep X -> next_token proto_strs (zs w ++ X) = (k, zs w, X)) ->
  goes (opts_body false) (when b o ++ X) q X (if b then opt_set k q else q).
Proof. intros E S W. unfold when. rewrite E. apply goes_when; auto. Qed.

Lemma goes_tail q sv X : Forall name_ok (q_cons q) -> sep X -> q_cmd sv = q_cmd q ->
  q_bcast sv = false -> q_force sv = false -> q_join sv = false -> q_quiet sv = false -> q_regex sv = false -> q_cons sv = [] ->
  goes (opts_body false) (request_tail q ++ X) sv X (understood q sv).
Proof.
  intros F SX E1 E2 E3 E4 E5 E6 E7. unfold request_tail. rewrite <- !app_assoc.
  eapply goes_trans.
  { apply (when_goes _ "QUIET" " OPTION=QUIET" TOK_QUIET); [reflexivity| |apply kw_quiet].
    apply sep_when; [eexists _, _; split; [reflexivity|auto]|]. apply sep_conn, sep_concat. auto. }
  eapply goes_trans.
  { apply (when_goes _ "REGEX" " OPTION=REGEX" TOK_REGEX); [reflexivity| |apply kw_regex]. apply sep_conn, sep_concat. auto. }
  set (sv2 := if q_regex q then opt_set TOK_REGEX (if q_quiet q then opt_set TOK_QUIET sv else sv) else if q_quiet q then opt_set TOK_QUIET sv else sv).
  set (conn := is_connect (q_cmd q)).
  set (sv3 := if conn && q_force q then set_force sv2 else sv2).
  set (sv4 := if conn && q_join q then set_join sv3 else sv3).
  set (sv5 := if conn && q_bcast q then set_bcast sv4 else sv4).
  eapply (goes_trans _ _ sv2 (List.concat (List.map (quoted_field "CONSOLE") (q_cons q)) ++ X) sv5).
  { unfold sv5, sv4, sv3. destruct conn; cbn [andb]; [|apply goes_refl]. rewrite <- !app_assoc.
    eapply goes_trans.
    { apply (when_goes _ "FORCE" " OPTION=FORCE" TOK_FORCE); [reflexivity| |apply kw_force].
      repeat (apply sep_when; [eexists _, _; split; [reflexivity|auto]|]). apply sep_concat. auto. }
    eapply goes_trans.
    { apply (when_goes _ "JOIN" " OPTION=JOIN" TOK_JOIN); [reflexivity| |apply kw_join].
      repeat (apply sep_when; [eexists _, _; split; [reflexivity|auto]|]). apply sep_concat. auto. }
    apply (when_goes _ "BROADCAST" " OPTION=BROADCAST" TOK_BROADCAST); [reflexivity| |apply kw_bcast]. apply sep_concat. auto. }
  pose proof (goes_consoles (q_cons q) F sv5 X) as G.
  assert (ES : set_cons sv5 (q_cons sv5 ++ q_cons q) = understood q sv); [|rewrite ES in G; exact G].
  unfold sv5, sv4, sv3, sv2, understood. fold conn. destruct sv as [u0 t0 c0 b1 b2 b3 b4 b5 b6 cs]. cbn [q_cmd q_bcast q_force q_join q_quiet q_regex q_cons] in *. subst.
  destruct conn, (q_quiet q), (q_regex q), (q_force q), (q_join q), (q_bcast q); reflexivity.
Qed.

Lemma recv_req_ok sched q sv more junk : q_cmd q <> CmdNone -> Forall name_ok (q_cons q) ->
  (len (request_line q) < MAX_SOCK_LINE)%nat -> len junk = MAX_SOCK_LINE -> ~ In Fail sched ->
  q_bcast sv = false -> q_force sv = false -> q_join sv = false -> q_quiet sv = false -> q_regex sv = false -> q_cons sv = [] ->
  exists s1, recv_req false sched (request_line q ++ more) junk sv = Ok (understood q sv, 0, s1, more) /\ suffix s1 sched.
Proof.
  intros NC F L LJ NF E2 E3 E4 E5 E6 E7. unfold recv_req. pose proof (request_chars q F) as CH.
  assert (LB : (S (len (zs (cmd_word (q_cmd q)) ++ request_tail q)) < MAX_SOCK_LINE)%nat).
  { rewrite request_split, app_length in L. cbn [List.length] in L. lia. }
  pose proof (read_whole sched (zs (cmd_word (q_cmd q)) ++ request_tail q) more junk (request_nolf q F) LB LJ NF) as (s1 & post & E & S1).
  rewrite <- request_split in E. rewrite E. cbn [bind].
  destruct (Z.leb_spec (Z.of_nat (S (len (zs (cmd_word (q_cmd q)) ++ request_tail q)))) 0); [lia|].
  set (l0 := lex_create (request_line q ++ NUL :: post) proto_strs).
  assert (A : lat l0 (zs (cmd_word (q_cmd q)) ++ request_tail q ++ [LF])).
  { split; [|reflexivity]. rewrite app_assoc, <- request_split. apply at_create. auto. }
  assert (P : exists l1, parse_loop (fuel_of l0) false (req_body false) l0 sv = Ok (l1, understood q sv)).
  { set (k := match q_cmd q with CmdConnect => TOK_CONNECT | CmdMonitor => TOK_MONITOR | _ => TOK_QUERY end).
    assert (T : next_token proto_strs (zs (cmd_word (q_cmd q)) ++ request_tail q ++ [LF]) = (k, zs (cmd_word (q_cmd q)), request_tail q ++ [LF])).
    { pose proof (sep_tail q [LF] (sep_lf [])) as SP. unfold k.
      destruct (q_cmd q); [congruence|apply kw_connect|apply kw_monitor|apply kw_query]; auto. }
    destruct (loop_step (req_body false) _ _ _ sv _ _ _ A (lat_fuel _ _ A) T) as (n1 & l1 & A1 & N1 & _ & EQ);
      [unfold k; destruct (q_cmd q); discriminate|unfold k; destruct (q_cmd q); discriminate|].
    rewrite EQ. clear EQ.
    assert (RB : req_body false k l1 sv = parse_cmd_opts false l1 (set_cmd sv (q_cmd q))).
    { unfold k. destruct (q_cmd q); try reflexivity. congruence. }
    rewrite RB. unfold parse_cmd_opts.
    destruct (goes_tail q (set_cmd sv (q_cmd q)) [LF] F (sep_lf []) eq_refl E2 E3 E4 E5 E6 E7 _ _ A1 (lat_fuel _ _ A1)) as (n2 & l2 & A2 & N2 & EQ).
    rewrite EQ. destruct (loop_stop (opts_body false) n2 l2 _ (understood q (set_cmd sv (q_cmd q))) _ _ _ A2 N2 tok_lf (or_intror eq_refl)) as (l3 & A3 & EQ3).
    rewrite EQ3. cbn [bind].
    destruct (loop_stop (req_body false) n1 l3 _ (understood q (set_cmd sv (q_cmd q))) _ _ _ A3 ltac:(cbn [List.length]; lia) tok_eof (or_introl eq_refl)) as (l4 & A4 & EQ4).
    exists l4. rewrite EQ4. reflexivity. }
  destruct P as (l1 & ->). cbn [bind snd]. exists s1. auto.
Qed.

(** ** The server's responses *)
Lemma app_or_ok b s t : holds b s -> len b = MAX_SOCK_LINE -> chars_ok t -> t <> [] ->
  exists o, app_or b t = Ok o /\
    match o with
    | Some b' => holds b' (s ++ t) /\ len b' = MAX_SOCK_LINE
    | None => (MAX_SOCK_LINE <= len (s ++ t))%nat
    end.
Proof.
  intros H L C N. unfold app_or. destruct (append_ok MAX_SOCK_LINE b s t H L C) as (b' & E & HB & LB). rewrite E. cbn [bind fst snd].
  eexists. split; [reflexivity|]. unfold append_rv. assert (0 < len t)%nat by (destruct t; [congruence|cbn; lia]).
  rewrite app_length. destruct (Nat.ltb_spec (len s + 1) MAX_SOCK_LINE); destruct (Nat.ltb_spec (len s + len t) MAX_SOCK_LINE); cbn [andb].
  - destruct (Z.eqb_spec (Z.of_nat (len s + len t)) (-1)); [lia|]. split; auto. unfold appended in HB.
    rewrite firstn_all2 in HB by (rewrite app_length; lia). auto.
  - change (-1 =? -1) with true. cbv iota. lia.
  - lia.
  - change (-1 =? -1) with true. cbv iota. lia.
Qed.
Lemma holds_len b s : holds b s -> len b = MAX_SOCK_LINE -> (len s < MAX_SOCK_LINE)%nat.
Proof. intros (C & j & ->) L. rewrite app_length in L. cbn [List.length] in L. lia. Qed.

Lemma enc_tmp_ok dbg s : can dbg s -> enc_tmp dbg s = Ok (if (len s <? MAX_LINE)%nat then Some (enc s) else None).
Proof.
  intros C. unfold enc_tmp. pose proof lmax2. rewrite <- ML_eq in H.
  pose proof (strlcpy_ok [] (repeat NUL MAX_LINE) [] (s ++ [NUL]) s MAX_LINE) as E. cbn [List.app List.length] in E. rewrite app_nil_r in E.
  rewrite E; [|split; [apply C|exists []; auto]|apply repeat_length|lia]. cbn [bind]. clear E. rewrite app_nil_r.
  destruct (Nat.leb_spec MAX_LINE (len s)); destruct (Nat.ltb_spec (len s) MAX_LINE); try lia; auto.
  unfold copied. rewrite repeat_length, firstn_all2 by lia. rewrite cstr_ok by apply C. cbn [bind].
  destruct (enc_can dbg s C) as [-> _]. reflexivity.
Qed.

Lemma rsp_consoles_ok dbg l : Forall (can dbg) l -> forall b s, holds b s -> len b = MAX_SOCK_LINE ->
  exists o, rsp_consoles dbg b l = Ok o /\
    match o with
    | Some b' => holds b' (s ++ List.concat (List.map (quoted_field "CONSOLE") l)) /\ len b' = MAX_SOCK_LINE /\ Forall (fun n => (len n < MAX_LINE)%nat) l
    | None => (MAX_SOCK_LINE <= len (s ++ List.concat (List.map (quoted_field "CONSOLE") l)))%nat \/ exists n, In n l /\ (MAX_LINE <= len n)%nat
    end.
Proof.
  induction 1 as [|c l C F IH]; intros b s H L; cbn [rsp_consoles List.map List.concat].
  - eexists. split; [reflexivity|]. rewrite app_nil_r. auto.
  - rewrite enc_tmp_ok by auto. cbn [bind]. destruct (Nat.ltb_spec (len c) MAX_LINE).
    2:{ eexists. split; [reflexivity|]. right. exists c. split; [left; auto|auto]. }
    change (TOK2STR TOK_CONSOLE) with (zs "CONSOLE"). rewrite field_eq.
    destruct (app_or_ok b s (quoted_field "CONSOLE" c) H L) as (o & E & R).
    { apply field_chars; [zc|]. apply (enc_can dbg). auto. }
    { apply field_ne. }
    unfold app_or in E. destruct (append_format_string b MAX_SOCK_LINE (quoted_field "CONSOLE" c)) as [[b1 n1]|]; [|discriminate].
    cbn [bind fst snd] in *. injection E as E. destruct (n1 =? -1); subst o.
    + eexists. split; [reflexivity|]. left. rewrite !app_length in *. lia.
    + destruct R as [R1 R2]. destruct (IH b1 _ R1 R2) as (o & E & R). exists o. rewrite E. split; auto.
      rewrite <- app_assoc in R. destruct o as [b'|].
      * destruct R as (A & B & D). repeat split; auto; apply A.
      * destruct R as [R|(n & I & R)]; [left; auto|right; exists n; split; [right; auto|auto]].
Qed.

Lemma names_len_dec l : Forall (fun n => (len n < MAX_LINE)%nat) l \/ exists n, In n l /\ (MAX_LINE <= len n)%nat.
Proof.
  induction l as [|a l IH]; [auto|]. destruct (le_lt_dec MAX_LINE (len a)); [right; exists a; split; [left; auto|auto]|].
  destruct IH as [IH|(n & I & H)]; [left; auto|right; exists n; split; [right; auto|auto]].
Qed.
Lemma zeros_hold : holds (repeat NUL MAX_SOCK_LINE) [] /\ len (repeat NUL MAX_SOCK_LINE) = MAX_SOCK_LINE.
Proof. destruct built_new as (A & B & _). cbn [new_buf fst] in *. rewrite firstn_nil in A. auto. Qed.

(** [o]: the buffer, or nothing *)
Lemma rsp_ok_buf dbg reset names msg : Forall (can dbg) names ->
  exists o, rsp_buf dbg reset names 0 msg = Ok o /\
    match o with
    | Some b => holds b (ok_line reset names) /\ len b = MAX_SOCK_LINE /\ Forall (fun n => (len n < MAX_LINE)%nat) names
    | None => (MAX_SOCK_LINE <= len (ok_line reset names))%nat \/ exists n, In n names /\ (MAX_LINE <= len n)%nat
    end.
Proof.
  intros F. unfold rsp_buf. change (0 =? 0) with true. cbv iota. destruct zeros_hold as [Z1 Z2].
  change (TOK2STR TOK_OK) with (zs "OK").
  destruct (app_or_ok _ _ (zs "OK") Z1 Z2 ltac:(zc) ltac:(discriminate)) as (o1 & -> & R1). cbn [bind List.app] in *.
  destruct o1 as [b1|].
  2:{ exfalso. cbn [zs List.map list_ascii_of_string List.length] in R1. pose proof ML_M. lia. }
  cbn [obind]. destruct R1 as [R1 L1].
  assert (X : exists o2, (match names with
      | [] => Ok (Some b1)
      | _ => do o <- (if reset then app_or b1 (opt_fmt (TOK2STR TOK_OPTION) (TOK2STR TOK_RESET)) else Ok (Some b1));
             obind o (fun b2 => rsp_consoles dbg b2 names)
      end) = Ok o2 /\
    match o2 with
    | Some b => holds b (zs "OK" ++ match names with [] => [] | _ => when reset " OPTION=RESET" end ++ List.concat (List.map (quoted_field "CONSOLE") names)) /\ len b = MAX_SOCK_LINE /\ Forall (fun n => (len n < MAX_LINE)%nat) names
    | None => (MAX_SOCK_LINE <= len (zs "OK" ++ match names with [] => [] | _ => when reset " OPTION=RESET" end ++ List.concat (List.map (quoted_field "CONSOLE") names)))%nat \/ exists n, In n names /\ (MAX_LINE <= len n)%nat
    end).
  { destruct names as [|n0 ns].
    - eexists. split; [reflexivity|]. cbn [List.map List.concat]. auto.
    - assert (Y : exists o, (if reset then app_or b1 (opt_fmt (TOK2STR TOK_OPTION) (TOK2STR TOK_RESET)) else Ok (Some b1)) = Ok o /\
        match o with Some b => holds b (zs "OK" ++ when reset " OPTION=RESET") /\ len b = MAX_SOCK_LINE | None => False end).
      { change (opt_fmt (TOK2STR TOK_OPTION) (TOK2STR TOK_RESET)) with (zs " OPTION=RESET"). destruct reset.
        - destruct (app_or_ok b1 _ (zs " OPTION=RESET") R1 L1 ltac:(zc) ltac:(discriminate)) as (o & -> & R). exists o. split; auto.
          destruct o; auto. assert (len (zs "OK" ++ zs " OPTION=RESET") <= 100)%nat by (vm_compute; lia). pose proof ML_M. lia.
        - eexists. split; [reflexivity|]. cbn [when]. rewrite app_nil_r. auto. }
      destruct Y as (o & -> & R). cbn [bind]. destruct o as [b2|]; [|tauto]. cbn [obind]. destruct R as [R2 L2].
      destruct (rsp_consoles_ok dbg (n0 :: ns) F b2 _ R2 L2) as (o2 & -> & R3). exists o2.
      rewrite <- app_assoc in R3. split; [reflexivity|exact R3]. }
  destruct X as (o2 & -> & R2). cbn [bind]. destruct o2 as [b2|]; cbn [obind].
  - destruct R2 as (H2 & L2 & FN). destruct (app_or_ok b2 _ [LF] H2 L2 ltac:(zc) ltac:(discriminate)) as (o3 & -> & R3).
    exists o3. split; auto. unfold ok_line. rewrite <- !app_assoc in R3. destruct o3; [|auto]. destruct R3; auto.
  - eexists. split; [reflexivity|]. destruct R2 as [R2|R2]; [left|right; auto]. unfold ok_line. rewrite !app_length in *. lia.
Qed.

Lemma digit_char d : Forall (fun c => isdigit c = true) d -> chars_ok d /\ ~ In LF d.
Proof.
  intros F. split.
  - eapply Forall_impl; [|exact F]. cbv beta. unfold isdigit, char_ok. intros. lia.
  - intros I. rewrite Forall_forall in F. specialize (F _ I). discriminate.
Qed.
Lemma code_digits code : 0 <= code <= INT_MAX -> Forall (fun c => isdigit c = true) (fmt_d code) /\ fmt_d code <> [] /\ (len (fmt_d code) <= 10)%nat.
Proof.
  intros R. unfold fmt_d. destruct (Z.ltb_spec code 0); [lia|]. destruct (fmt_u_ok code) as (A & _ & B); [lia|].
  split; auto. split; auto. apply fmt_u_len; [|lia]. unfold INT_MAX in R. change (10 ^ Z.of_nat 10) with 10000000000. lia.
Qed.
Lemma error_len code msg : 0 <= code <= INT_MAX -> (len msg < MAX_LINE)%nat -> (len (error_line code msg) < MAX_SOCK_LINE)%nat.
Proof.
  intros R L. destruct (code_digits code R) as (_ & _ & D). unfold error_line, quoted_field, enc. rewrite !app_length, map_length.
  assert (len (zs "ERROR CODE=") = 11%nat) as -> by reflexivity. assert (len (zs (" " ++ "MESSAGE" ++ "='")) = 10%nat) as -> by reflexivity.
  assert (len (zs "'") = 1%nat) as -> by reflexivity. cbn [List.length]. pose proof ML_M. lia.
Qed.
Lemma vsn_zeros M line : (len line < M)%nat ->
  vsnprintf (repeat NUL M) 0 M line = Ok (line ++ NUL :: repeat NUL (M - S (len line)), len line).
Proof.
  intros L. unfold vsnprintf. destruct (Nat.eqb_spec M 0); [lia|]. rewrite firstn_all2 by lia.
  set (k := S (len line)).
  assert (ER : repeat NUL M = [] ++ repeat NUL k ++ repeat NUL (M - k)).
  { cbn [List.app]. rewrite <- repeat_app. f_equal. unfold k. lia. }
  rewrite ER. rewrite (blit_eq [] (repeat NUL k) (repeat NUL (M - k))); [|reflexivity|rewrite repeat_length, app_length; unfold k; cbn [List.length]; lia].
  cbn [bind List.app]. rewrite <- app_assoc. reflexivity.
Qed.
Lemma rsp_err_buf dbg reset names code msgo msg : 0 < code <= INT_MAX -> can dbg msg ->
  msg = match msgo with Some m => m | None => zs "unspecified error" end ->
  exists o, rsp_buf dbg reset names code msgo = Ok o /\
    match o with
    | Some b => holds b (error_line code msg) /\ (len msg < MAX_LINE)%nat
    | None => (MAX_LINE <= len msg)%nat
    end.
Proof.
  intros R C EM. unfold rsp_buf. destruct (Z.eqb_spec code 0); [lia|]. rewrite <- EM, enc_tmp_ok by auto. cbn [bind].
  destruct (Nat.ltb_spec (len msg) MAX_LINE) as [L|L]; [|eexists; split; [reflexivity|auto]].
  pose proof (error_len code msg ltac:(lia) L) as EL.
  assert (EQ : TOK2STR TOK_ERROR ++ zs " " ++ TOK2STR TOK_CODE ++ zs "=" ++ fmt_d code ++ zs " " ++
                   TOK2STR TOK_MESSAGE ++ zs "='" ++ enc msg ++ zs "'" ++ [LF] = error_line code msg).
  { unfold error_line, quoted_field. rewrite <- !app_assoc. reflexivity. }
  rewrite EQ, vsn_zeros by auto.
  cbn [bind fst snd]. destruct (Nat.leb_spec MAX_SOCK_LINE (len (error_line code msg))); [lia|].
  eexists. split; [reflexivity|]. split; auto. split; [|eauto].
  - unfold error_line. apply Forall_app. split; [zc|]. apply Forall_app. split; [apply digit_char, code_digits; lia|].
    apply Forall_app. split; [|zc]. apply field_chars; [zc|]. apply (enc_can dbg). auto.
Qed.

Lemma send_rsp_ok dbg sched out reset names msg : Forall (can dbg) names ->
  exists out' rv s1, send_rsp dbg sched out reset names 0 msg = Ok (out', rv, s1) /\ suffix s1 sched /\
   (rv = 0 /\ out' = out ++ ok_line reset names /\ (len (ok_line reset names) < MAX_SOCK_LINE)%nat /\ Forall (fun n => (len n < MAX_LINE)%nat) names \/
    rv = -1 /\ out' = out /\ ((MAX_SOCK_LINE <= len (ok_line reset names))%nat \/ exists n, In n names /\ (MAX_LINE <= len n)%nat) \/
    rv = -1 /\ In Fail sched /\ exists k, (k < len (ok_line reset names))%nat /\ out' = out ++ firstn k (ok_line reset names)).
Proof.
  intros F. unfold send_rsp. destruct (rsp_ok_buf dbg reset names msg F) as (o & -> & R). cbn [bind].
  destruct o as [b|].
  - destruct R as (H & L & FN). destruct (write_str_ok sched out b _ H) as (out' & ok & s1 & -> & S1 & W). cbn [bind].
    eexists _, _, s1. split; [reflexivity|]. split; auto. destruct W as [(-> & W)|(-> & W)]; [left|right; right; auto].
    split; auto. split; auto. split; auto. apply (holds_len b); auto.
  - eexists _, _, sched. split; [reflexivity|]. split; [apply suffix_refl|]. right. left. auto.
Qed.
Lemma send_err_ok dbg sched out reset names code msgo msg : 0 < code <= INT_MAX -> can dbg msg ->
  msg = match msgo with Some m => m | None => zs "unspecified error" end ->
  exists out' rv s1, send_rsp dbg sched out reset names code msgo = Ok (out', rv, s1) /\ suffix s1 sched /\
   (rv = 0 /\ out' = out ++ error_line code msg /\ (len msg < MAX_LINE)%nat \/
    rv = -1 /\ out' = out /\ (MAX_LINE <= len msg)%nat \/
    rv = -1 /\ In Fail sched /\ exists k, (k < len (error_line code msg))%nat /\ out' = out ++ firstn k (error_line code msg)).
Proof.
  intros R C EM. unfold send_rsp. destruct (rsp_err_buf dbg reset names code msgo msg R C EM) as (o & -> & R2). cbn [bind].
  destruct o as [b|].
  - destruct R2 as (H & L). destruct (write_str_ok sched out b _ H) as (out' & ok & s1 & -> & S1 & W). cbn [bind].
    eexists _, _, s1. split; [reflexivity|]. split; auto. destruct W as [(-> & W)|(-> & W)]; [left|right; right; auto].
    split; auto.
  - eexists _, _, sched. split; [reflexivity|]. split; [apply suffix_refl|]. right. left. auto.
Qed.

(** ** The client reads a response *)
Definition add_cons (k : client) (l : list (list Z)) := mkClient (k_cons k ++ l) (k_reset k) (k_err k) (k_msg k).
Lemma goes_ok_console k s X : sendable s -> goes (ok_body false) (quoted_field "CONSOLE" s ++ X) k X (add_cons k [s]).
Proof.
  intros SE. pose proof (goes_field (ok_body false) "CONSOLE" TOK_CONSOLE _ s X k
    (fun e => mkClient (k_cons k ++ [lex_decode e]) (k_reset k) (k_err k) (k_msg k)) SE tok_console ltac:(discriminate) ltac:(discriminate)) as G.
  cbv beta in G. rewrite decode_enc in G by auto. apply G. intros l. reflexivity.
Qed.
Lemma goes_ok_consoles l : Forall sendable l -> forall k X, goes (ok_body false) (List.concat (List.map (quoted_field "CONSOLE") l) ++ X) k X (add_cons k l).
Proof.
  induction 1 as [|s l S F IH]; intros k X; cbn [List.map List.concat].
  - unfold add_cons. rewrite app_nil_r. destruct k. apply goes_refl.
  - rewrite <- app_assoc. eapply goes_trans; [apply goes_ok_console; auto|].
    pose proof (IH (add_cons k [s]) X) as G. unfold add_cons in *. cbn [k_cons k_reset k_err k_msg] in *. rewrite <- app_assoc in G. exact G.
Qed.
Definition ok_tail reset names := match names with [] => [] | _ => when reset " OPTION=RESET" end ++ List.concat (List.map (quoted_field "CONSOLE") names).
Lemma ok_split reset names : ok_line reset names = (zs "OK" ++ ok_tail reset names) ++ [LF].
Proof. unfold ok_line, ok_tail. rewrite <- !app_assoc. reflexivity. Qed.
Definition has (names : list (list Z)) : bool := match names with [] => false | _ => true end.
Lemma ok_line_chars reset names : Forall sendable names -> chars_ok (ok_line reset names) /\ ~ In LF (zs "OK" ++ ok_tail reset names).
Proof.
  intros F. rewrite ok_split. unfold ok_tail. split.
  - repeat (apply Forall_app; split); try zc; [destruct names; [constructor|apply when_chars; zc]|apply fields_chars; [zc|auto]].
  - apply notin_app; [nb|]. apply notin_app; [destruct names; [intros []|apply when_nolf; nb]|apply fields_nolf; [nb|auto]].
Qed.
Lemma recv_ok sched reset names more junk k : Forall sendable names -> (len (ok_line reset names) < MAX_SOCK_LINE)%nat ->
  len junk = MAX_SOCK_LINE -> ~ In Fail sched ->
  exists s1, recv_rsp false sched (ok_line reset names ++ more) junk k =
    Ok (mkClient (k_cons k ++ names) (k_reset k || (reset && has names)) (k_err k) (k_msg k), 0, s1, more) /\ suffix s1 sched.
Proof.
  intros F L LJ NF. unfold recv_rsp. destruct (ok_line_chars reset names F) as [CH NL].
  assert (LB : (S (len (zs "OK" ++ ok_tail reset names)) < MAX_SOCK_LINE)%nat).
  { rewrite ok_split, app_length in L. cbn [List.length] in L. lia. }
  pose proof (read_whole sched _ more junk NL LB LJ NF) as (s1 & post & E & S1).
  rewrite <- ok_split in E. rewrite E. cbn [bind].
  destruct (Z.leb_spec (Z.of_nat (S (len (zs "OK" ++ ok_tail reset names)))) 0); [lia|].
  set (l0 := lex_create (ok_line reset names ++ NUL :: post) proto_strs).
  assert (A : lat l0 (zs "OK" ++ ok_tail reset names ++ [LF])).
  { split; [|reflexivity]. rewrite app_assoc, <- ok_split. apply at_create. auto. }
  assert (SP : sep (ok_tail reset names ++ [LF])).
  { unfold ok_tail. rewrite <- app_assoc. assert (sep (List.concat (List.map (quoted_field "CONSOLE") names) ++ [LF])) by (apply sep_concat, (sep_lf [])).
    destruct names; auto. apply sep_when; auto. eexists _, _. split; [reflexivity|auto]. }
  destruct (loop_step (rsp_body false) _ _ _ (k, false) _ _ _ A (lat_fuel _ _ A) (kw_ok _ SP) ltac:(discriminate) ltac:(discriminate)) as (n1 & l1 & A1 & N1 & _ & EQ).
  rewrite EQ. clear EQ. unfold rsp_body. change (TOK_OK =? TOK_OK) with true. cbv iota. cbn [fst].
  assert (G : goes (ok_body false) (ok_tail reset names ++ [LF]) k [LF] (mkClient (k_cons k ++ names) (k_reset k || (reset && has names)) (k_err k) (k_msg k))).
  { unfold ok_tail. rewrite <- app_assoc.
    set (k1 := if reset && has names then mkClient (k_cons k) true (k_err k) (k_msg k) else k).
    eapply (goes_trans _ _ _ _ k1).
    - unfold k1. destruct names as [|n0 ns]; cbn [has]; [rewrite andb_false_r; apply goes_refl|]. rewrite andb_true_r. unfold when. destruct reset; [|apply goes_refl].
      change (zs " OPTION=RESET") with (zs " OPTION=" ++ zs "RESET"). rewrite <- app_assoc.
      pose proof (goes_option (ok_body false) "RESET" TOK_RESET (List.concat (List.map (quoted_field "CONSOLE") (n0 :: ns)) ++ [LF]) k
        (fun t => if t =? TOK_RESET then mkClient (k_cons k) true (k_err k) (k_msg k) else k)) as G. cbv beta in G.
      change (TOK_RESET =? TOK_RESET) with true in G. apply G; [apply sep_concat, (sep_lf [])|apply kw_reset|].
      intros l. reflexivity.
    - pose proof (goes_ok_consoles names F k1 [LF]) as G. unfold add_cons in G. unfold k1 in *. destruct (reset && has names); cbn [k_cons k_reset k_err k_msg] in G.
      + rewrite orb_true_r. exact G.
      + rewrite orb_false_r. exact G. }
  destruct (G _ _ A1 (lat_fuel _ _ A1)) as (n2 & l2 & A2 & N2 & EQ). rewrite EQ.
  destruct (loop_stop (ok_body false) n2 l2 _ (mkClient (k_cons k ++ names) (k_reset k || (reset && has names)) (k_err k) (k_msg k)) _ _ _ A2 N2 tok_lf (or_intror eq_refl)) as (l3 & A3 & EQ3).
  rewrite EQ3. cbn [bind fst snd]. exists s1. auto.
Qed.

Lemma tok_int d X : Forall (fun c => isdigit c = true) d -> d <> [] -> (len d < LEX_MAX_STR)%nat -> sep X ->
  next_token proto_strs (d ++ X) = (LEX_INT, d, X).
Proof.
  intros F N L (c0 & t0 & -> & SX). destruct d as [|c t]; [congruence|]. inversion F as [|? ? D FT]; subst.
  assert (NS : blank c = false /\ (c =? HASH) = false /\ (c =? BACKSLASH) = false /\ (c =? CR) = false /\ (c =? LF) = false /\
    (c =? DQUOTE) || (c =? QUOTE) = false /\ isalpha c || (c =? UNDERSCORE) = false).
  { unfold blank, isdigit, isalpha, isupper, islower, SPACE, TAB, VT, FF, HASH, BACKSLASH, CR, LF, DQUOTE, QUOTE, UNDERSCORE in *. lia. }
  destruct NS as (B1 & B2 & B3 & B4 & B5 & B6 & B7).
  unfold next_token. cbn [List.app skip]. rewrite B1, B2, B3. cbn [token]. rewrite B4, B5, B6, B7, D. cbn [orb].
  assert (SPN : span isdigit (t ++ c0 :: t0) = (t, c0 :: t0)).
  { clear - FT SX. induction FT as [|x l X F IH]; cbn [List.app span].
    - assert (isdigit c0 = false) as -> by (destruct SX as [-> | [-> | ->]]; reflexivity). reflexivity.
    - rewrite X, IH. reflexivity. }
  rewrite SPN. unfold cut. rewrite firstn_all2 by lia. reflexivity.
Qed.
Lemma tok_code X : next_token proto_strs (zs " CODE=" ++ X) = (TOK_CODE, zs "CODE", zs "=" ++ X).
Proof. vm_compute. reflexivity. Qed.
Lemma kw_error X : sep X -> next_token proto_strs (zs "ERROR" ++ X) = (TOK_ERROR, zs "ERROR", X). Proof. intros S. ntok. Qed.

Lemma goes_code code b e X : 0 <= code <= INT_MAX -> sep X -> goes (err_body false) (zs " CODE=" ++ fmt_d code ++ X) (e, b) X (code, b).
Proof.
  intros R SX n l A N. destruct (code_digits code R) as (D1 & D2 & D3).
  destruct (loop_step (err_body false) n l _ (e, b) _ _ _ A N (tok_code _) ltac:(discriminate) ltac:(discriminate)) as (n1 & l1 & A1 & N1 & _ & E).
  rewrite E. unfold err_body. change (TOK_CODE =? TOK_CODE) with true. cbv iota. unfold lex_value.
  destruct (nx l1 _ EQUALS [EQUALS] (fmt_d code ++ X) A1) as (l2 & E2 & A2 & _); [reflexivity|].
  rewrite E2. cbn [bind fst snd]. change (EQUALS =? EQUALS) with true. cbv iota.
  assert (LM : (len (fmt_d code) < LEX_MAX_STR)%nat) by (rewrite <- ML_eq; pose proof ML_300; lia).
  destruct (nx l2 _ _ _ _ A2 (tok_int _ X D1 D2 LM SX)) as (l3 & E3 & A3 & T3 & _).
  rewrite E3. cbn [bind fst snd]. change (LEX_INT =? LEX_INT) with true. cbv iota. cbn [bind fst snd]. rewrite T3, atoi_fmt by lia. cbn [bind fst snd].
  exists n1, l3. split; auto. split; auto. rewrite !app_length in N1. lia.
Qed.

(** the buffer after the copy *)
Lemma goes_message b e msg X : len b = MAX_LINE -> sendable msg ->
  goes (err_body false) (quoted_field "MESSAGE" msg ++ X) (e, b) X (e, enc msg ++ NUL :: skipn (S (len msg)) b).
Proof.
  intros LB S n l A N. unfold quoted_field in A, N. rewrite <- !app_assoc in A.
  destruct (loop_step (err_body false) n l _ (e, b) _ _ _ A ltac:(rewrite <- !app_assoc in N; exact N) (tok_message _) ltac:(discriminate) ltac:(discriminate)) as (n1 & l1 & A1 & N1 & _ & E).
  destruct (value_ok msg X l1 S A1) as (l2 & E2 & A2). rewrite E. unfold err_body.
  change (TOK_MESSAGE =? TOK_CODE) with false. change (TOK_MESSAGE =? TOK_MESSAGE) with true. cbv iota. rewrite E2. cbn [bind fst snd].
  pose proof (strlcpy_ok [] b [] (enc msg ++ [NUL]) (enc msg) MAX_LINE) as CP. cbn [List.app List.length] in CP. rewrite app_nil_r in CP.
  pose proof lmax2 as L2. rewrite <- ML_eq in L2. assert (LM : (len msg < MAX_LINE)%nat) by (rewrite ML_eq; apply S).
  assert (LE : len (enc msg) = len msg) by (unfold enc; apply map_length).
  rewrite CP; [|split; [apply sendable_enc_chars; auto|exists []; auto]|auto|lia]. cbn [bind fst snd]. rewrite app_nil_r.
  unfold copied. rewrite LB, firstn_all2, LE by lia. rewrite Nat.min_l by lia.
  exists n1, l2. split; auto. split; auto. rewrite !app_length in N1. lia.
Qed.

Definition err_tail code msg := zs " CODE=" ++ fmt_d code ++ quoted_field "MESSAGE" msg.
Lemma err_split code msg : error_line code msg = (zs "ERROR" ++ err_tail code msg) ++ [LF].
Proof. unfold error_line, err_tail. rewrite <- !app_assoc. reflexivity. Qed.
Lemma recv_err sched code msg more junk k : 0 < code <= INT_MAX -> sendable msg -> len junk = MAX_SOCK_LINE -> ~ In Fail sched ->
  exists s1, recv_rsp false sched (error_line code msg ++ more) junk k =
    Ok (mkClient (k_cons k) (k_reset k) code (match msg with [] => k_msg k | _ => Text msg end), -1, s1, more) /\ suffix s1 sched.
Proof.
  intros R SM LJ NF. unfold recv_rsp. destruct (code_digits code ltac:(lia)) as (D1 & D2 & D3).
  assert (CH : chars_ok (error_line code msg) /\ ~ In LF (zs "ERROR" ++ err_tail code msg)).
  { destruct (digit_char _ D1). rewrite err_split. unfold err_tail. split.
    - repeat (apply Forall_app; split); auto; try zc. apply sendable_enc_chars; auto.
    - apply notin_app; [nb|]. apply notin_app; [nb|]. apply notin_app; auto. apply field_nolf; [nb|auto]. }
  destruct CH as [CH NL].
  assert (LB : (S (len (zs "ERROR" ++ err_tail code msg)) < MAX_SOCK_LINE)%nat).
  { pose proof (error_len code msg ltac:(lia) ltac:(rewrite ML_eq; apply SM)) as L. rewrite err_split, app_length in L. cbn [List.length] in L. lia. }
  pose proof (read_whole sched _ more junk NL LB LJ NF) as (s1 & post & E & S1).
  rewrite <- err_split in E. rewrite E. cbn [bind].
  destruct (Z.leb_spec (Z.of_nat (S (len (zs "ERROR" ++ err_tail code msg)))) 0); [lia|].
  set (l0 := lex_create (error_line code msg ++ NUL :: post) proto_strs).
  assert (A : lat l0 (zs "ERROR" ++ err_tail code msg ++ [LF])).
  { split; [|reflexivity]. rewrite app_assoc, <- err_split. apply at_create. auto. }
  assert (SP : sep (err_tail code msg ++ [LF])) by (eexists _, _; split; [reflexivity|auto]).
  destruct (loop_step (rsp_body false) _ _ _ (k, false) _ _ _ A (lat_fuel _ _ A) (kw_error _ SP) ltac:(discriminate) ltac:(discriminate)) as (n1 & l1 & A1 & N1 & _ & EQ).
  rewrite EQ. clear EQ. unfold rsp_body. change (TOK_ERROR =? TOK_OK) with false. change (TOK_ERROR =? TOK_ERROR) with true. cbv iota. cbn [fst].
  unfold parse_rsp_err.
  set (b0 := repeat NUL MAX_LINE).
  assert (G : goes (err_body false) (err_tail code msg ++ [LF]) (0, b0) [LF] (code, enc msg ++ NUL :: skipn (S (len msg)) b0)).
  { unfold err_tail. rewrite <- !app_assoc. eapply goes_trans; [apply goes_code; [lia|apply sep_field]|].
    apply goes_message; [apply repeat_length|auto]. }
  destruct (G _ _ A1 (lat_fuel _ _ A1)) as (n2 & l2 & A2 & N2 & EQ). rewrite EQ.
  destruct (loop_stop (err_body false) n2 l2 _ (code, enc msg ++ NUL :: skipn (S (len msg)) b0) _ _ _ A2 N2 tok_lf (or_intror eq_refl)) as (l3 & A3 & EQ3).
  rewrite EQ3. cbn [bind fst snd]. rewrite cstr_ok by (apply sendable_enc_chars; auto). cbn [bind fst snd k_err k_msg].
  destruct (Z.eqb_spec code 0); [lia|].
  exists s1. split; auto. destruct msg as [|c t]; [reflexivity|].
  pose proof (decode_enc _ SM) as DE. cbn [enc List.map] in *. rewrite DE. reflexivity.
Qed.

(** ** The server reads a greeting *)
Lemma goes_user q s X : name_ok s -> goes (greeting_body false) (quoted_field "USER" s ++ X) q X (set_user q (Some s)).
Proof.
  intros [SE NE]. pose proof (goes_field (greeting_body false) "USER" TOK_USER _ s X q
    (fun e => match nonempty (Some e) with Some s => set_user q (Some (lex_decode s)) | None => q end) SE tok_user ltac:(discriminate) ltac:(discriminate)) as G.
  cbv beta in G. assert (EN : nonempty (Some (enc s)) = Some (enc s)) by (destruct s; [congruence|reflexivity]).
  rewrite EN, decode_enc in G by auto. apply G. intros l. unfold greeting_body. change (TOK_USER =? TOK_USER) with true. cbv iota.
  destruct (lex_value false LEX_STR l) as [[l' [e|]]|]; reflexivity.
Qed.
Lemma goes_tty q s X : name_ok s -> goes (greeting_body false) (quoted_field "TTY" s ++ X) q X (set_tty q (Some s)).
Proof.
  intros [SE NE]. pose proof (goes_field (greeting_body false) "TTY" TOK_TTY _ s X q
    (fun e => match nonempty (Some e) with Some s => set_tty q (Some (lex_decode s)) | None => q end) SE tok_tty ltac:(discriminate) ltac:(discriminate)) as G.
  cbv beta in G. assert (EN : nonempty (Some (enc s)) = Some (enc s)) by (destruct s; [congruence|reflexivity]).
  rewrite EN, decode_enc in G by auto. apply G. intros l. unfold greeting_body.
  change (TOK_TTY =? TOK_USER) with false. change (TOK_TTY =? TOK_TTY) with true. cbv iota.
  destruct (lex_value false LEX_STR l) as [[l' [e|]]|]; reflexivity.
Qed.
Definition greet_tail user tty := quoted_field "USER" user ++ match tty with Some t => quoted_field "TTY" t | None => [] end.
Lemma greet_split user tty : greeting_line user tty = (zs "HELLO" ++ greet_tail user tty) ++ [LF].
Proof. unfold greeting_line, greet_tail. rewrite <- !app_assoc. reflexivity. Qed.
Lemma recv_greeting_ok dbg sched user tty more junk ws out q : name_ok user -> (forall t, tty = Some t -> name_ok t) ->
  (len (greeting_line user tty) < MAX_SOCK_LINE)%nat -> len junk = MAX_SOCK_LINE -> ~ In Fail sched -> ~ In Fail ws ->
  exists s1 ws1, recv_greeting dbg false sched (greeting_line user tty ++ more) junk ws out q =
    Ok (set_tty (set_user q (Some user)) (match tty with Some t => Some t | None => q_tty q end), 0, s1, more, (out ++ ok_line false [], ws1)) /\ suffix s1 sched.
Proof.
  intros NU NT L LJ NF NW. unfold recv_greeting.
  assert (CH : chars_ok (greeting_line user tty) /\ ~ In LF (zs "HELLO" ++ greet_tail user tty)).
  { rewrite greet_split. unfold greet_tail. split.
    - repeat (apply Forall_app; split); try zc; [apply sendable_enc_chars, NU|]. destruct tty; [|constructor]. apply field_chars; [zc|apply sendable_enc_chars, NT; auto].
    - apply notin_app; [nb|]. apply notin_app; [apply field_nolf; [nb|apply NU]|]. destruct tty; [|intros []]. apply field_nolf; [nb|apply NT; auto]. }
  destruct CH as [CH NL].
  assert (LB : (S (len (zs "HELLO" ++ greet_tail user tty)) < MAX_SOCK_LINE)%nat).
  { rewrite greet_split, app_length in L. cbn [List.length] in L. lia. }
  pose proof (read_whole sched _ more junk NL LB LJ NF) as (s1 & post & E & S1).
  rewrite <- greet_split in E. rewrite E. cbn [bind].
  destruct (Z.leb_spec (Z.of_nat (S (len (zs "HELLO" ++ greet_tail user tty)))) 0); [lia|].
  set (l0 := lex_create (greeting_line user tty ++ NUL :: post) proto_strs).
  assert (A : lat l0 (zs "HELLO" ++ greet_tail user tty ++ [LF])).
  { split; [|reflexivity]. rewrite app_assoc, <- greet_split. apply at_create. auto. }
  assert (SP : sep (greet_tail user tty ++ [LF])) by (eexists _, _; split; [reflexivity|auto]).
  destruct (loop_step (hello_body false) _ _ _ q _ _ _ A (lat_fuel _ _ A) (kw_hello _ SP) ltac:(discriminate) ltac:(discriminate)) as (n1 & l1 & A1 & N1 & _ & EQ).
  rewrite EQ. clear EQ. unfold hello_body at 1. change (TOK_HELLO =? TOK_HELLO) with true. cbv iota.
  set (q2 := set_tty (set_user q (Some user)) (match tty with Some t => Some t | None => q_tty q end)).
  assert (G : goes (greeting_body false) (greet_tail user tty ++ [LF]) q [LF] q2).
  { unfold greet_tail. rewrite <- app_assoc. eapply goes_trans; [apply goes_user; auto|]. unfold q2. destruct tty as [t|].
    - apply goes_tty; auto.
    - apply goes_refl. }
  destruct (G _ _ A1 (lat_fuel _ _ A1)) as (n2 & l2 & A2 & N2 & EQ). rewrite EQ.
  destruct (loop_stop (greeting_body false) n2 l2 _ q2 _ _ _ A2 N2 tok_lf (or_intror eq_refl)) as (l3 & A3 & EQ3).
  rewrite EQ3. cbn [bind].
  destruct (loop_stop (hello_body false) n1 l3 _ q2 _ _ _ A3 ltac:(cbn [List.length]; lia) tok_eof (or_introl eq_refl)) as (l4 & A4 & EQ4).
  rewrite EQ4. cbn [bind fst snd]. change (q_user q2) with (Some user). cbv iota.
  destruct (send_rsp_ok dbg ws out (q_reset q2) [] None (Forall_nil _)) as (out' & rv & ws1 & ES & SW & RS). rewrite ES. cbn [bind].
  exists s1, ws1. split; auto.
  assert (OL : (len (ok_line (q_reset q2) []) < MAX_SOCK_LINE)%nat).
  { assert (len (ok_line (q_reset q2) []) = 3%nat) as -> by reflexivity. pose proof ML_M. lia. }
  destruct RS as [(-> & -> & _)|[(_ & _ & [X|(n & [] & _)])|(_ & X & _)]]; [reflexivity|lia|tauto].
Qed.

(** ** Any input at all *)
Lemma span_fst_forall (P : Z -> Prop) f s : Forall P s -> Forall P (fst (span f s)).
Proof. induction 1; cbn [span]; [constructor|]. destruct (f x); cbn [fst]; constructor; auto. Qed.
Lemma cut_forall (P : Z -> Prop) s : Forall P s -> Forall P (cut s).
Proof. intros F. unfold cut. rewrite <- (firstn_skipn (LEX_MAX_STR - 1) s) in F. apply Forall_app in F. apply F. Qed.
Lemma text_chars toks s : chars_ok s -> chars_ok (snd (fst (next_token toks s))).
Proof.
  intros C. unfold next_token. pose proof (skip_chars false s C) as CS. destruct (skip false s) as [|c t]; [constructor|]. cbn [token].
  inversion CS as [|? ? C1 C2]; subst.
  destruct (c =? CR). { destruct t as [|d t']; [zc|]. destruct (d =? LF); cbn [fst snd]; zc. }
  destruct (c =? LF); [cbn [fst snd]; zc|].
  destruct ((c =? DQUOTE) || (c =? QUOTE)).
  { pose proof (span_fst_forall char_ok (fun d => negb ((d =? c) || is_eol d)) t C2) as F.
    destruct (span _ t) as [w r]. cbn [fst] in F. destruct r as [|d r']; [constructor|]. destruct (d =? c); cbn [fst snd]; [apply cut_forall; auto|constructor]. }
  destruct (isalpha c || (c =? UNDERSCORE)).
  { pose proof (span_fst_forall char_ok wordc t C2) as F. destruct (span wordc t) as [w r]. cbn [fst snd] in *. apply cut_forall. constructor; auto. }
  destruct (_ || _).
  { pose proof (span_fst_forall char_ok isdigit t C2) as F. destruct (span isdigit t) as [w r]. cbn [fst snd] in *. apply cut_forall. constructor; auto. }
  cbn [fst snd]. constructor; auto.
Qed.
Lemma nx_any l r : lat l r -> exists k l' rest, lex_next false l = Ok (k, l') /\ lat l' rest /\ (len rest <= len r)%nat /\
  (k <> LEX_EOF -> (len rest < len r)%nat) /\ chars_ok (x_text l') /\ (len (x_text l') < LEX_MAX_STR)%nat.
Proof.
  intros A. pose proof (next_progress proto_strs r (lat_chars _ _ A)) as [P1 P2].
  pose proof (next_text proto_strs r) as T1. pose proof (text_chars proto_strs r (lat_chars _ _ A)) as T2.
  destruct (next_token proto_strs r) as [[k txt] rest] eqn:E. cbn [fst snd] in *.
  destruct (nx l r k txt rest A E) as (l' & H1 & H2 & H3 & _). subst txt. exists k, l', rest. split; auto. split; auto.
  split; [|auto]. destruct (Z.eq_dec k LEX_EOF) as [X|X]; [rewrite (P1 X); cbn; lia|specialize (P2 X); lia].
Qed.
Definition text_ok (s : list Z) : Prop := chars_ok s /\ (len s < LEX_MAX_STR)%nat.
Lemma value_any kind l r : lat l r -> exists l' o rest, lex_value false kind l = Ok (l', o) /\ lat l' rest /\ (len rest <= len r)%nat /\
  (forall s, o = Some s -> text_ok s).
Proof.
  intros A. unfold lex_value. destruct (nx_any l r A) as (k & l1 & r1 & -> & A1 & L1 & _). cbn [bind fst snd].
  destruct (k =? EQUALS).
  - destruct (nx_any l1 r1 A1) as (k2 & l2 & r2 & -> & A2 & L2 & _ & C2 & T2). cbn [bind fst snd].
    destruct (k2 =? kind); eexists _, _, r2; (split; [reflexivity|]); (split; [auto|]); (split; [lia|]); intros s E; [|discriminate].
    injection E as <-. split; auto.
  - eexists _, _, r1. split; [reflexivity|]. split; auto. split; [lia|]. discriminate.
Qed.
Lemma option_any l r : lat l r -> exists l' o rest, lex_option false l = Ok (l', o) /\ lat l' rest /\ (len rest <= len r)%nat.
Proof.
  intros A. unfold lex_option. destruct (nx_any l r A) as (k & l1 & r1 & -> & A1 & L1 & _). cbn [bind fst snd].
  destruct (k =? EQUALS).
  - destruct (nx_any l1 r1 A1) as (k2 & l2 & r2 & -> & A2 & L2 & _). cbn [bind fst snd]. eexists _, _, r2. split; [reflexivity|]. split; auto. lia.
  - eexists _, _, r1. split; [reflexivity|]. auto.
Qed.
(** A parser ends well, or in one of the ways [bad]; [Inv] holds of its state. *)
Definition total {S} (Inv : S -> Prop) (bad : ubkind -> Prop) (body : Z -> lex -> S -> res (lex * S * bool)) : Prop :=
  forall k l r st, lat l r -> Inv st ->
  (exists l' st' d r', body k l st = Ok (l', st', d) /\ lat l' r' /\ (len r' <= len r)%nat /\ Inv st') \/
  (exists e, body k l st = UB e /\ bad e).
Lemma loop_total {S} (Inv : S -> Prop) bad (body : Z -> lex -> S -> res (lex * S * bool)) : total Inv bad body ->
  forall n l r st, lat l r -> (len r < n)%nat -> Inv st ->
  (exists l' st' r', parse_loop n false body l st = Ok (l', st') /\ lat l' r' /\ (len r' <= len r)%nat /\ Inv st') \/
  (exists e, parse_loop n false body l st = UB e /\ bad e).
Proof.
  intros TB. induction n as [|n IH]; intros l r st A N I; [lia|]. cbn [parse_loop].
  destruct (nx_any l r A) as (k & l1 & r1 & -> & A1 & L1 & P1 & _). cbn [bind].
  destruct (Z.eqb_spec k LEX_EOF) as [E|E]; cbn [orb].
  { left. eexists _, _, r1. split; [reflexivity|]. auto. }
  destruct (Z.eqb_spec k LEX_EOL).
  { left. eexists _, _, r1. split; [reflexivity|]. auto. }
  specialize (P1 E). destruct (TB k l1 r1 st A1 I) as [(l2 & st2 & d & r2 & -> & A2 & L2 & I2)|(e & -> & B)]; cbn [bind].
  2:{ right. eauto. }
  destruct d.
  - left. eexists _, _, r2. split; [reflexivity|]. split; auto. split; [lia|auto].
  - destruct (IH l2 r2 st2 A2 ltac:(lia) I2) as [(l3 & st3 & r3 & -> & A3 & L3 & I3)|X]; [left|right; auto].
    eexists _, _, r3. split; [reflexivity|]. split; auto. split; [lia|auto].
Qed.

Lemma decode_plain s : text_ok s -> Forall (fun c => 1 <= c < 128) (lex_decode s) /\ (len (lex_decode s) < LEX_MAX_STR)%nat.
Proof.
  intros [C L]. unfold lex_decode. split.
  - clear L. induction C as [|c t R C IH]; cbn [List.map until_nul]; [constructor|].
    assert (0 <= Z.land c 127 < 128). { change 127 with (Z.ones 7). rewrite Z.land_ones by lia. apply Z.mod_pos_bound. lia. }
    destruct (Z.eqb_spec (Z.land c 127) NUL); [constructor|]. constructor; [unfold NUL in *; lia|auto].
  - assert (G : forall u, (len (until_nul u) <= len u)%nat) by (induction u as [|a u IH]; cbn [until_nul List.length]; [lia|]; destruct (a =? NUL); cbn [List.length]; lia).
    specialize (G (List.map (fun c => Z.land c 127) s)). rewrite map_length in G. lia.
Qed.
Definition never (e : ubkind) : Prop := False.

Lemma opts_total : total req_ok never (opts_body false).
Proof.
  intros k l r q A I. left. unfold opts_body. destruct (k =? TOK_CONSOLE).
  { destruct (value_any LEX_STR l r A) as (l' & o & rest & -> & A1 & L1 & T). cbn [bind fst snd].
    eexists _, _, _, rest. split; [reflexivity|]. split; auto. split; auto.
    destruct (nonempty o) as [s|] eqn:EN; auto. assert (ES : o = Some s) by (destruct o as [[|]|]; cbn in EN; congruence).
    destruct I as (I1 & I2 & I3). split; auto. split; auto. cbn [set_cons q_cons]. apply Forall_app. split; auto. constructor; auto. apply decode_plain. auto. }
  destruct (k =? TOK_OPTION).
  { destruct (option_any l r A) as (l' & o & rest & -> & A1 & L1). cbn [bind fst snd].
    eexists _, _, _, rest. split; [reflexivity|]. split; auto. split; auto. destruct o as [z|]; auto.
    destruct I as (I1 & I2 & I3).
    destruct (z =? TOK_BROADCAST); [exact (conj I1 (conj I2 I3))|]. destruct (z =? TOK_FORCE); [exact (conj I1 (conj I2 I3))|].
    destruct (z =? TOK_JOIN); [exact (conj I1 (conj I2 I3))|]. destruct (z =? TOK_QUIET); [exact (conj I1 (conj I2 I3))|]. destruct (z =? TOK_REGEX); exact (conj I1 (conj I2 I3)). }
  eexists _, _, _, r. split; [reflexivity|]. auto.
Qed.
Lemma req_total : total req_ok never (req_body false).
Proof.
  intros k l r q A I.
  assert (G : forall c, (exists l' st' d r', parse_cmd_opts false l (set_cmd q c) = Ok (l', st', d) /\ lat l' r' /\ (len r' <= len r)%nat /\ req_ok st') \/
    (exists e, parse_cmd_opts false l (set_cmd q c) = UB e /\ never e)).
  { intros c. unfold parse_cmd_opts.
    destruct (loop_total req_ok never (opts_body false) opts_total (fuel_of l) l r (set_cmd q c) A (lat_fuel _ _ A) I) as [(l' & st' & r' & -> & A1 & L1 & I1)|(e & -> & [])].
    left. cbn [bind]. eexists _, _, _, r'. split; [reflexivity|]. auto. }
  unfold req_body. destruct (k =? TOK_CONNECT); [apply G|]. destruct (k =? TOK_MONITOR); [apply G|]. destruct (k =? TOK_QUERY); [apply G|].
  left. eexists _, _, _, r. split; [reflexivity|]. auto.
Qed.
Lemma greeting_total : total req_ok never (greeting_body false).
Proof.
  intros k l r q A I. left. unfold greeting_body. destruct I as (I1 & I2 & I3). destruct (k =? TOK_USER).
  { destruct (value_any LEX_STR l r A) as (l' & o & rest & -> & A1 & L1 & T). cbn [bind fst snd].
    eexists _, _, _, rest. split; [reflexivity|]. split; auto. split; auto.
    destruct (nonempty o) as [s|] eqn:EN; [|exact (conj I1 (conj I2 I3))]. assert (ES : o = Some s) by (destruct o as [[|]|]; cbn in EN; congruence).
    split; [|split; auto]. cbn [set_user q_user]. intros u E. injection E as <-. apply decode_plain. auto. }
  destruct (k =? TOK_TTY).
  { destruct (value_any LEX_STR l r A) as (l' & o & rest & -> & A1 & L1 & T). cbn [bind fst snd].
    eexists _, _, _, rest. split; [reflexivity|]. split; auto. split; auto.
    destruct (nonempty o) as [s|] eqn:EN; [|exact (conj I1 (conj I2 I3))]. assert (ES : o = Some s) by (destruct o as [[|]|]; cbn in EN; congruence).
    split; [auto|split; auto]. cbn [set_tty q_tty]. intros u E. injection E as <-. apply decode_plain. auto. }
  eexists _, _, _, r. split; [reflexivity|]. split; auto. split; auto. exact (conj I1 (conj I2 I3)).
Qed.
Lemma hello_total : total req_ok never (hello_body false).
Proof.
  intros k l r q A I. unfold hello_body. destruct (k =? TOK_HELLO).
  - destruct (loop_total req_ok never (greeting_body false) greeting_total (fuel_of l) l r q A (lat_fuel _ _ A) I) as [(l' & st' & r' & -> & A1 & L1 & I1)|(e & -> & [])].
    left. cbn [bind]. eexists _, _, _, r'. split; [reflexivity|]. auto.
  - left. eexists _, _, _, r. split; [reflexivity|]. auto.
Qed.
Lemma ok_total : total client_ok never (ok_body false).
Proof.
  intros k l r q A I. left. unfold ok_body. destruct I as (I1 & I2). destruct (k =? TOK_CONSOLE).
  { destruct (value_any LEX_STR l r A) as (l' & o & rest & -> & A1 & L1 & T). cbn [bind fst snd].
    eexists _, _, _, rest. split; [reflexivity|]. split; auto. split; auto. destruct o as [s|]; [|split; auto].
    split; auto. cbn [k_cons]. apply Forall_app. split; auto. constructor; auto. apply decode_plain. auto. }
  destruct (k =? TOK_OPTION).
  { destruct (option_any l r A) as (l' & o & rest & -> & A1 & L1). cbn [bind fst snd].
    eexists _, _, _, rest. split; [reflexivity|]. split; auto. split; auto. destruct o as [z|]; [|split; auto]. destruct (z =? TOK_RESET); split; auto. }
  eexists _, _, _, r. split; [reflexivity|]. split; auto. split; auto. split; auto.
Qed.
Definition overflow (e : ubkind) : Prop := e = SignedOverflow.
Definition msg_inv (st : Z * list Z) : Prop := len (snd st) = MAX_LINE /\ exists s, holds (snd st) s.
Lemma err_total : total msg_inv overflow (err_body false).
Proof.
  intros k l r [e b] A [I1 I2]. unfold err_body. destruct (k =? TOK_CODE).
  { destruct (value_any LEX_INT l r A) as (l' & o & rest & -> & A1 & L1 & T). cbn [bind fst snd]. destruct o as [s|].
    - unfold atoi. cbv zeta. match goal with |- context [if ?c then Ok ?v else _] => destruct c end; cbn [bind].
      + left. eexists _, _, _, rest. split; [reflexivity|]. split; auto. split; auto. split; auto.
      + right. eexists. split; [reflexivity|]. reflexivity.
    - left. cbn [bind]. eexists _, _, _, rest. split; [reflexivity|]. split; auto. split; auto. split; auto. }
  left. destruct (k =? TOK_MESSAGE).
  { destruct (value_any LEX_STR l r A) as (l' & o & rest & -> & A1 & L1 & T). cbn [bind fst snd]. destruct o as [s|].
    - destruct (T s eq_refl) as [C L]. cbn [snd] in I1.
      pose proof (strlcpy_ok [] b [] (s ++ [NUL]) s MAX_LINE) as CP. cbn [List.app List.length] in CP. rewrite app_nil_r in CP.
      pose proof lmax2 as L2. rewrite <- ML_eq in *.
      rewrite CP; [|split; [auto|exists []; auto]|auto|lia]. cbn [bind fst snd]. rewrite app_nil_r.
      eexists _, _, _, rest. split; [reflexivity|]. split; auto. split; auto. split; cbn [snd].
      + rewrite copied_length by lia. auto.
      + exists s. split; auto. unfold copied. rewrite firstn_all2 by lia. eauto.
    - cbn [bind]. eexists _, _, _, rest. split; [reflexivity|]. split; auto. split; auto. split; auto. }
  eexists _, _, _, r. split; [reflexivity|]. split; auto. split; auto. split; auto.
Qed.
Lemma rsp_total : total (fun st => client_ok (fst st)) overflow (rsp_body false).
Proof.
  intros k l r [c ok] A I. cbn [fst] in I. unfold rsp_body. destruct (k =? TOK_OK).
  { destruct (loop_total client_ok never (ok_body false) ok_total (fuel_of l) l r c A (lat_fuel _ _ A) I) as [(l' & st' & r' & E & A1 & L1 & I1)|(e & _ & [])].
    cbn [fst]. rewrite E. left. cbn [bind fst snd]. eexists _, _, _, r'. split; [reflexivity|]. auto. }
  destruct (k =? TOK_ERROR).
  { unfold parse_rsp_err. cbn [fst].
    destruct (loop_total msg_inv overflow (err_body false) err_total (fuel_of l) l r (0, repeat NUL MAX_LINE) A (lat_fuel _ _ A)) as [(l' & [e b] & r' & E & A1 & L1 & I1)|(e & E & B)].
    - split; cbn [snd]; [apply repeat_length|]. exists []. split; [constructor|].
      pose proof ML_300. exists (repeat NUL (MAX_LINE - 1)). cbn [List.app]. change (NUL :: repeat NUL (MAX_LINE - 1)) with (repeat NUL (S (MAX_LINE - 1))).
      replace (S (MAX_LINE - 1)) with MAX_LINE by lia. reflexivity.
    - rewrite E. left. cbn [bind fst snd]. destruct I1 as [I1 (s & C & j & EB)]. cbn [snd] in *. subst b. rewrite cstr_ok by auto. cbn [bind fst snd].
      eexists _, _, _, r'. split; [reflexivity|]. split; auto. split; auto. cbn [fst]. destruct I as [J1 J2]. split; auto. cbn [k_msg].
      destruct s as [|c0 s0]; auto. intros u EU. injection EU as <-. apply decode_plain. split; auto.
      rewrite app_length in I1. cbn [List.length] in *. rewrite <- ML_eq. lia.
    - rewrite E. right. cbn [bind]. eauto. }
  left. eexists _, _, _, r. split; [reflexivity|]. auto.
Qed.

(** The text in a line that may contain NULs. *)
Lemma until_nul_split line j : bytes_ok line -> exists r post, line ++ NUL :: j = r ++ NUL :: post /\ chars_ok r.
Proof.
  induction 1 as [|c t B F IH]; cbn [List.app].
  - exists [], j. split; [reflexivity|constructor].
  - destruct (Z.eq_dec c NUL) as [-> |N].
    + exists [], (t ++ NUL :: j). split; [reflexivity|constructor].
    + destruct IH as (r & post & -> & C). exists (c :: r), post. split; auto. constructor; auto. unfold char_ok, byte_ok, NUL in *. lia.
Qed.
(** What any stream does to the common start of the receivers. *)
Lemma read_any sched stream junk : bytes_ok stream -> len junk = MAX_SOCK_LINE ->
  exists buf n s1 k, read_line sched stream junk MAX_SOCK_LINE = Ok (buf, n, s1, skipn k stream) /\ (k < MAX_SOCK_LINE)%nat /\ suffix s1 sched /\
    (n <= 0 \/ n = Z.of_nat k /\ exists r, lat (lex_create buf proto_strs) r).
Proof.
  intros B LJ. pose proof M_pos.
  destruct (read_line_ok sched stream junk MAX_SOCK_LINE ltac:(lia) ltac:(lia)) as (s1 & S1 & [(buf & E & LB & H1)|(F & k & b & K & LB & _ & E)]).
  - exists buf, (Z.of_nat (len (firstn (MAX_SOCK_LINE - 1) (first_line stream)))), s1, (len (firstn (MAX_SOCK_LINE - 1) (first_line stream))).
    split; auto. split; [rewrite firstn_length; lia|]. split; auto.
    destruct H1 as [(-> & _)|(j & -> & _)].
    + left. cbn [first_line]. rewrite firstn_nil. cbn. lia.
    + right. split; auto. destruct (until_nul_split (firstn (MAX_SOCK_LINE - 1) (first_line stream)) j) as (r & post & -> & C).
      * assert (FL : bytes_ok (first_line stream)).
        { clear - B. induction B as [|c t X B IH]; cbn [first_line]; [constructor|]. destruct (c =? LF); constructor; auto. }
        rewrite <- (firstn_skipn (MAX_SOCK_LINE - 1) (first_line stream)) in FL. apply Forall_app in FL. apply FL.
      * exists r. split; [|reflexivity]. apply at_create. auto.
  - exists b, (-1), s1, k. split; auto. split; [rewrite firstn_length in K; lia|]. split; auto. left. lia.
Qed.
Lemma can_b dbg s : forallb (fun c => (1 <=? c) && (c <? 128)) s = true -> can dbg s.
Proof.
  intros H. rewrite forallb_forall in H. split; [|intros _]; apply Forall_forall; intros x X; specialize (H x X); unfold char_ok; lia.
Qed.
Lemma plain_b s : forallb (fun c => (1 <=? c) && (c <? 128)) s = true -> Forall (fun c => 1 <= c < 128) s.
Proof. intros H. rewrite forallb_forall in H. apply Forall_forall; intros x X; specialize (H x X); lia. Qed.
