(** C16, C17, C18, C19: the lexer. *)
From Coq Require Import String.
From Verif Require Import Base BaseProof Chars LexModel LexSpec LexProof.
Local Open Scope Z_scope.

(** C16: on every NUL-terminated text, whatever follows the NUL in memory, successive
    calls of lex_next give the tokens of the text.  No byte after the NUL is read and no
    token text overruns its buffer (either would be UB), after at most one token per
    character the end of the file is reached, and it is reached again on each further
    call.  [iso] = true asks the stricter question of ISO C: then 7-bit text. *)
Theorem C16_lexer_total : forall iso toks s after,
  sorted_table toks -> chars_ok s -> (iso = true -> Forall (fun c => c < 128) s) ->
  exists ts l, lex_all (S (length s)) iso (lex_create (s ++ NUL :: after) toks) = Ok (ts ++ [(LEX_EOF, [])], l) /\
    ts ++ [(LEX_EOF, [])] = tokens (S (length s)) toks s /\
    Forall (fun p => fst p <> LEX_EOF) ts /\ (length ts <= length s)%nat /\
    Forall (fun p => (length (snd p) < LEX_MAX_STR)%nat) ts /\
    forall k, exists l', lex_all (S k) iso l = Ok ([(LEX_EOF, [])], l').
Proof.
  intros iso toks s after SO CO IO.
  destruct (lex_all_ok iso toks SO (S (length s)) (lex_create (s ++ NUL :: after) toks) s (at_create _ _ _ CO) IO eq_refl)
    as (l & rest & E & A & I & T & _ & _ & _ & RN).
  rewrite (RN ltac:(lia)) in A, I.
  destruct (tokens_end toks (S (length s)) s CO ltac:(lia)) as (ts & ET & F & LN).
  exists ts, l. rewrite E, ET. split; [reflexivity|]. split; [reflexivity|]. split; [exact F|]. split; [exact LN|].
  split.
  { pose proof (tokens_text toks (S (length s)) s) as TT. rewrite ET in TT. apply Forall_app in TT. apply TT. }
  intros k. destruct (lex_all_ok iso toks SO (S k) l [] A I T) as (l' & rest' & E' & _).
  exists l'. rewrite E'. reflexivity.
Qed.

(** Every call makes progress: it consumes at least one character or reports the end. *)
Theorem C16_progress : forall iso l r,
  sorted_table (x_toks l) -> is_at l r -> (iso = true -> Forall (fun c => c < 128) r) ->
  exists tok l' r', lex_next iso l = Ok (tok, l') /\ is_at l' r' /\
    (tok = LEX_EOF /\ r' = [] \/ tok <> LEX_EOF /\ (length r' < length r)%nat).
Proof.
  intros iso l r SO A IO. destruct (next_ok iso l r A IO SO) as (l' & E & A' & _).
  exists (fst (fst (next_token (x_toks l) r))), l', (snd (next_token (x_toks l) r)). split; [exact E|]. split; [exact A'|].
  pose proof (next_progress (x_toks l) r (proj1 A)) as [P1 P2].
  destruct (Z.eq_dec (fst (fst (next_token (x_toks l) r))) LEX_EOF); auto.
Qed.

(** With ISO C's rules the claim is false for text with bytes above 127: they are passed to
    isalpha() as negative numbers (lex.c:208).  And in practice the byte 255 is returned as
    the token that stands for an error. *)
Theorem C16_high_bytes_refuted :
  lex_next true (lex_create [233; NUL] []) = UB OutOfBounds /\
  exists l, lex_next false (lex_create [255; NUL] []) = Ok (LEX_ERR, l) /\ x_text l = [255].
Proof. split; [reflexivity|]. eexists. split; reflexivity. Qed.

(** C17: encoded, quoted, lexed and decoded, a string comes back, with either quote and
    whatever follows. *)
Theorem C17_quoted_round_trip : forall dbg toks q s rest after,
  sorted_table toks -> q = DQUOTE \/ q = QUOTE ->
  Forall (fun c => 1 <= c < 128 /\ c <> CR /\ c <> LF) s -> (length s < LEX_MAX_STR)%nat ->
  chars_ok rest ->
  exists e l, lex_encode dbg s = Ok e /\
    lex_next false (lex_create ((q :: e ++ q :: rest) ++ NUL :: after) toks) = Ok (LEX_STR, l) /\
    lex_decode (x_text l) = s /\ is_at l rest.
Proof.
  intros dbg toks q s rest after SO Q F LN CR0.
  assert (R : Forall (fun c => 1 <= c < 128) s) by (eapply Forall_impl; [|exact F]; cbn; tauto).
  assert (NE : noeol s).
  { eapply Forall_impl; [|exact F]. cbn. intros c (_ & H1 & H2). unfold is_eol.
    destruct (Z.eqb_spec c LF), (Z.eqb_spec c Chars.CR); try congruence. reflexivity. }
  exists (map encb s). assert (CO : chars_ok (q :: map encb s ++ q :: rest)).
  { assert (char_ok q) by (destruct Q as [-> | ->]; unfold char_ok, DQUOTE, QUOTE; lia).
    constructor; auto. apply Forall_app. split; [|constructor; auto].
    apply Forall_map. eapply Forall_impl; [|exact R]. intros c H1. apply enc_char, H1. }
  destruct (next_ok false _ _ (at_create _ after toks CO) ltac:(discriminate) SO) as (l & E & A & TX & _).
  assert (NT : next_token toks (q :: map encb s ++ q :: rest) = (LEX_STR, map encb s, rest)).
  { unfold next_token. assert (skip false (q :: map encb s ++ q :: rest) = q :: map encb s ++ q :: rest) as ->
      by (destruct Q as [-> | ->]; reflexivity).
    apply token_quoted; auto. }
  exists l. cbn [x_toks lex_create] in *. rewrite NT in *. cbn [fst snd] in *.
  split; [apply encode_ok; eapply Forall_impl; [|exact R]; cbn; lia|]. split; [exact E|].
  rewrite TX. split; [apply decode_encode; auto|exact A].
Qed.

(** None of the conditions on the string can be dropped: a character above 127 comes back
    changed, a line break ends the string, and characters beyond the limit are lost. *)
Theorem C17_conditions_refuted :
  (exists e l, lex_encode false [233] = Ok e /\
     lex_next false (lex_create (QUOTE :: e ++ [QUOTE; NUL]) []) = Ok (LEX_STR, l) /\ lex_decode (x_text l) = [105]) /\
  (exists e l, lex_encode false [97; LF; 98] = Ok e /\
     lex_next false (lex_create (QUOTE :: e ++ [QUOTE; NUL]) []) = Ok (LEX_ERR, l)) /\
  (forall n, (LEX_MAX_STR <= n)%nat -> exists e l, lex_encode false (repeat 97 n) = Ok e /\
     lex_next false (lex_create ((QUOTE :: e ++ [QUOTE]) ++ [NUL]) []) = Ok (LEX_STR, l) /\
     (length (lex_decode (x_text l)) < n)%nat).
Proof.
  split; [exists [233]; eexists; repeat split; reflexivity|].
  split; [exists [97; LF; 98]; eexists; split; reflexivity|].
  intros n LN. exists (repeat 97 n).
  assert (R : Forall (fun c => 1 <= c < 128) (repeat 97 n)) by (apply Forall_forall; intros x Hx; apply repeat_spec in Hx; lia).
  assert (E0 : map encb (repeat 97 n) = repeat 97 n).
  { clear. induction n as [|n IH]; [reflexivity|]. cbn [repeat map]. rewrite IH. reflexivity. }
  assert (CO : chars_ok (QUOTE :: repeat 97 n ++ [QUOTE])).
  { constructor; [unfold char_ok, QUOTE; lia|]. apply Forall_app. split; [|repeat constructor; unfold QUOTE; lia].
    eapply Forall_impl; [|exact R]. unfold char_ok. cbn; lia. }
  assert (SO : sorted_table []) by (intros [|i] j a b L H; discriminate).
  destruct (next_ok false _ _ (at_create _ [] [] CO) ltac:(discriminate) SO) as (l & E & A & TX & _).
  exists l. cbn [x_toks lex_create] in *.
  assert (SP : span (fun d => negb ((d =? QUOTE) || is_eol d)) (repeat 97 n ++ [QUOTE]) = (repeat 97 n, [QUOTE])).
  { clear. induction n as [|n IH]; [reflexivity|]. cbn [repeat app span]. rewrite IH. reflexivity. }
  assert (NT : next_token [] (QUOTE :: repeat 97 n ++ [QUOTE]) = (LEX_STR, cut (repeat 97 n), [])).
  { unfold next_token. change (skip false (QUOTE :: repeat 97 n ++ [QUOTE])) with (QUOTE :: repeat 97 n ++ [QUOTE]).
    unfold token. change (QUOTE =? CR) with false. change (QUOTE =? LF) with false.
    change ((QUOTE =? DQUOTE) || (QUOTE =? QUOTE)) with true. cbv iota. rewrite SP. reflexivity. }
  rewrite NT in *. cbn [fst snd] in *.
  split; [rewrite encode_ok, E0; [reflexivity|eapply Forall_impl; [|exact R]; cbn; lia]|].
  split; [exact E|]. rewrite TX. unfold lex_decode, cut.
  assert (LU : forall x, (length (until_nul x) <= length x)%nat).
  { clear. induction x as [|c x IH]; cbn; [lia|]. destruct (c =? NUL); cbn; lia. }
  eapply Nat.le_lt_trans; [apply LU|]. rewrite map_length, firstn_length, repeat_length.
  pose proof lmax2. lia.
Qed.

(** C18: for every sorted table, a word is looked up to the table's entry that equals it
    ignoring case, and to LEX_STR if there is none. *)
Theorem C18_keyword_lookup : forall toks w, sorted_table toks ->
  exists k, lookup_token w toks = Ok k /\
    (forall i t, nth_error toks i = Some t -> map tolower w = map tolower t -> k = Z.of_nat i + LEX_TOK_OFFSET) /\
    ((forall i t, nth_error toks i = Some t -> map tolower w <> map tolower t) -> k = LEX_STR).
Proof.
  intros toks w SO. exists (keyword w toks). split; [apply lookup_ok; auto|]. split.
  - intros i t Ht E. apply (lookup_found w toks i t SO Ht). apply cmp_zero, E.
  - intros N. unfold keyword. pose proof (index_of_spec w toks LEX_TOK_OFFSET) as H.
    destruct (index_of w LEX_TOK_OFFSET toks) as [k|]; [|reflexivity].
    exfalso. destruct H as (m & t & _ & A & B & _). apply (N _ _ A). apply same_word_eq, B.
Qed.

(** Both tables of the program are sorted. *)
Theorem C18_tables_sorted : sorted_table proto_strs /\ forall ipmi, sorted_table (server_conf_strs ipmi).
Proof. split; [apply sorted_b_ok; reflexivity|]. intros []; apply sorted_b_ok; reflexivity. Qed.

(** A keyword in the text, in any mixture of cases and not followed by a letter, digit or
    underscore, gives the keyword's token.  Keywords are words of at most 1023 letters,
    digits and underscores that do not begin with a digit. *)
Theorem C18_keyword_token : forall toks i t w rest after,
  sorted_table toks -> nth_error toks i = Some t -> map tolower w = map tolower t ->
  Forall (fun c => wordc c = true) w -> (0 < length w < LEX_MAX_STR)%nat ->
  isdigit (hd 0 w) = false -> wordc (hd 0 rest) = false -> chars_ok rest ->
  exists l, lex_next false (lex_create ((w ++ rest) ++ NUL :: after) toks) = Ok (Z.of_nat i + LEX_TOK_OFFSET, l) /\
    x_text l = w /\ is_at l rest.
Proof.
  intros toks i t w rest after SO Ht EQ FW LW HD HR CR0.
  assert (CO : chars_ok (w ++ rest)).
  { apply Forall_app. split; auto. eapply Forall_impl; [|exact FW]. cbn. intros c.
    unfold wordc, isalnum, isalpha, isupper, islower, isdigit, char_ok, UNDERSCORE. lia. }
  destruct (next_ok false _ _ (at_create _ after toks CO) ltac:(discriminate) SO) as (l & E & A & TX & _).
  cbn [x_toks lex_create] in *. exists l.
  destruct w as [|c w]; [cbn in LW; lia|]. inversion FW as [|? ? FC FW']; subst. cbn [hd] in HD.
  assert (SP : span wordc (w ++ rest) = (w, rest)).
  { clear - FW' HR. induction FW' as [|c w H F IH]; cbn [app].
    - destruct rest as [|d r]; [reflexivity|]. cbn [hd] in HR. cbn [span]. rewrite HR. reflexivity.
    - cbn [span]. rewrite H, IH. reflexivity. }
  assert (AL : isalpha c || (c =? UNDERSCORE) = true).
  { unfold wordc, isalnum in FC. rewrite HD, orb_false_r in FC. exact FC. }
  assert (NT : next_token toks ((c :: w) ++ rest) = (Z.of_nat i + LEX_TOK_OFFSET, c :: w, rest)).
  { unfold next_token. cbn [app].
    assert (NB : blank c = false /\ (c =? HASH) = false /\ (c =? BACKSLASH) = false /\ (c =? CR) = false /\ (c =? LF) = false /\
                 (c =? DQUOTE) || (c =? QUOTE) = false).
    { unfold isalpha, isupper, islower in AL.
      unfold blank, SPACE, TAB, VT, FF, HASH, BACKSLASH, Chars.CR, LF, DQUOTE, QUOTE, UNDERSCORE in *. lia. }
    destruct NB as (B1 & B2 & B3 & B4 & B5 & B6).
    cbn [skip]. rewrite B1, B2, B3. cbn [token]. rewrite B4, B5, B6, AL, SP.
    unfold cut. rewrite firstn_all2 by lia.
    rewrite (lookup_found _ _ i t SO Ht) by (apply cmp_zero; exact EQ). reflexivity. }
  rewrite NT in *. cbn [fst snd] in *. auto.
Qed.

(** Every keyword of both tables satisfies the conditions on keywords. *)
Theorem C18_tables_words : forall t, In t (proto_strs ++ server_conf_strs true ++ server_conf_strs false) ->
  Forall (fun c => wordc c = true) t /\ (0 < length t < LEX_MAX_STR)%nat /\ isdigit (hd 0 t) = false.
Proof.
  assert (H : forallb (fun t => forallb wordc t && (0 <? length t)%nat && (length t <? 20)%nat && negb (isdigit (hd 0 t)))
                (proto_strs ++ server_conf_strs true ++ server_conf_strs false) = true) by reflexivity.
  intros t Ht. rewrite forallb_forall in H. specialize (H t Ht).
  apply andb_prop in H. destruct H as [H H4]. apply andb_prop in H. destruct H as [H H3].
  apply andb_prop in H. destruct H as [H1 H2].
  apply Nat.ltb_lt in H2, H3. apply negb_true_iff in H4.
  split; [apply Forall_forall; apply forallb_forall; exact H1|]. split; [|exact H4].
  assert (20 <= LEX_MAX_STR)%nat by (apply Nat.leb_le; vm_compute; reflexivity). lia.
Qed.

(** The tokens the program's switch statements name are the positions in the tables. *)
Theorem C18_token_numbers :
  map (fun s => keyword (zs s) proto_strs)
    ["broadcast"; "code"; "connect"; "console"; "error"; "force"; "hello"; "join"; "message"; "monitor";
     "ok"; "option"; "query"; "quiet"; "regex"; "reset"; "tty"; "user"]%string
  = [TOK_BROADCAST; TOK_CODE; TOK_CONNECT; TOK_CONSOLE; TOK_ERROR; TOK_FORCE; TOK_HELLO; TOK_JOIN; TOK_MESSAGE;
     TOK_MONITOR; TOK_OK; TOK_OPTION; TOK_QUERY; TOK_QUIET; TOK_REGEX; TOK_RESET; TOK_TTY; TOK_USER].
Proof. reflexivity. Qed.

(** C19: after any number of calls, the reported line is one more than the number of line
    ends of the text that have been passed; the line end that is itself the last token is
    not yet counted. *)
Theorem C19_line_numbers : forall toks s after n,
  sorted_table toks -> chars_ok s -> (0 < n)%nat ->
  exists ts l used rest, lex_all n false (lex_create (s ++ NUL :: after) toks) = Ok (ts, l) /\
    s = used ++ rest /\ is_at l rest /\
    (line_ends s - line_ends rest + 1 = x_line l + (if (fst (last ts (0, [])) =? LEX_EOL)%Z then 1 else 0))%nat.
Proof.
  intros toks s after n SO CO N.
  destruct (lex_all_ok false toks SO n (lex_create (s ++ NUL :: after) toks) s (at_create _ _ _ CO) ltac:(discriminate) eq_refl)
    as (l & rest & E & A & _ & _ & LN & EO & (used & SF) & _).
  exists (tokens n toks s), l, used, rest. repeat split; auto; try apply A.
  rewrite <- EO by lia. cbn [x_line x_eol lex_create] in LN.
  assert (line_ends rest <= line_ends s)%nat.
  { rewrite SF. clear. induction used as [|c u IH]; [cbn [app]; lia|]. cbn [app line_ends]. lia. }
  lia.
Qed.

(** Examples: a configuration text with a comment, a continuation and quotes. *)
Example C16_example :
  tokens 20 (server_conf_strs false)
    (zs "console Name=""a b"" # x" ++ [CR; LF] ++ zs "dev \" ++ [LF] ++ zs "-12,'q" ++ [LF])
  = [(259, zs "console"); (271, zs "Name"); (61, zs "="); (LEX_STR, zs "a b"); (LEX_EOL, [LF]);
     (262, zs "dev"); (LEX_INT, zs "-12"); (44, zs ","); (LEX_ERR, []); (LEX_EOL, [LF]); (LEX_EOF, [])].
Proof. vm_compute. reflexivity. Qed.

Example C17_example : Forall (fun c => 1 <= c < 128 /\ c <> CR /\ c <> LF) (zs "it's a ""\"" name") /\
  exists e, lex_encode true (zs "it's") = Ok e /\ e = [105; 116; 167; 115].
Proof.
  split; [|eexists; split; reflexivity].
  apply Forall_forall. intros x Hx. cbn in Hx. unfold CR, LF. lia.
Qed.

Example C18_example : lookup_token (zs "CoNsOlE") proto_strs = Ok TOK_CONSOLE /\ lookup_token (zs "consoles") proto_strs = Ok LEX_STR.
Proof. split; vm_compute; reflexivity. Qed.

Example C19_example :
  match lex_all 6 false (lex_create (zs "a" ++ [CR; LF; CR] ++ zs "# c" ++ [LF] ++ zs "b\" ++ [LF] ++ zs "c" ++ [NUL]) []) with
  | Ok (ts, l) => (last ts (0, []), x_line l) | UB _ => ((0, []), O) end = ((LEX_STR, zs "c"), 5%nat).
Proof. vm_compute. reflexivity. Qed.

Print Assumptions C16_lexer_total.
Print Assumptions C16_progress.
Print Assumptions C16_high_bytes_refuted.
Print Assumptions C17_quoted_round_trip.
Print Assumptions C17_conditions_refuted.
Print Assumptions C18_keyword_lookup.
Print Assumptions C18_tables_sorted.
Print Assumptions C18_keyword_token.
Print Assumptions C18_tables_words.
Print Assumptions C18_token_numbers.
Print Assumptions C19_line_numbers.
