(** C44 - C48: the string utilities. *)
From Coq Require Import String.
From Verif Require Import Base BaseProof Mem Chars Fmt LexModel LexSpec LexProof StrModel StrSpec StrProof.
Local Open Scope Z_scope.

(** ** C44 *)
(** For every string [s], whatever follows it in memory, and every destination of [siz]
    bytes inside a larger block: only the destination is written, it holds the longest
    prefix of [s] that fits with the terminator, and the length of [s] is returned. *)
Theorem C44_strlcpy : forall pre old post src s siz,
  holds src s -> List.length old = siz ->
  exists old', strlcpy (pre ++ old ++ post) (List.length pre) src siz = Ok (pre ++ old' ++ post, List.length s) /\
    List.length old' = siz /\
    ((0 < siz)%nat -> holds old' (firstn (siz - 1) s)) /\ (siz = O -> old' = []).
Proof.
  intros pre old post src s siz H L. destruct (Nat.eq_dec siz 0) as [->|P].
  - exists []. destruct old; [|discriminate]. rewrite (strlcpy_zero _ _ _ s H). repeat split; auto; lia.
  - exists (copied old s). split; [apply strlcpy_ok; auto; lia|]. split; [rewrite copied_length; lia|].
    split; [|lia]. intros _. unfold holds, copied. rewrite L. split; [|eauto].
    destruct H as (C & _). apply Forall_forall. intros x X. unfold chars_ok in C. rewrite Forall_forall in C. apply C.
    rewrite <- (firstn_skipn (siz - 1) s). apply in_or_app. auto.
Qed.

(** Appending to a string [a] in a buffer of [siz] bytes. *)
Theorem C44_strlcat : forall dst a src s siz,
  holds src s -> holds dst a -> List.length dst = siz ->
  exists dst', strlcat dst src siz = Ok (dst', (List.length a + List.length s)%nat) /\
    List.length dst' = siz /\ holds dst' (firstn (siz - 1) (a ++ s)).
Proof.
  intros dst a src s siz H (C & b & ->) L. exists (a ++ copied (NUL :: b) s).
  split; [apply strlcat_ok; auto|]. rewrite app_length in L. cbn [List.length] in L.
  split; [rewrite app_length, copied_length by (cbn; lia); cbn [List.length]; lia|].
  unfold copied. cbn [List.length]. replace (S (List.length b) - 1)%nat with (siz - 1 - List.length a)%nat by lia.
  rewrite firstn_app, (firstn_all2 a) by lia. split.
  - apply Forall_app. split; auto. destruct H as (C2 & _). apply Forall_forall. intros x X.
    unfold chars_ok in C2. rewrite Forall_forall in C2. apply C2.
    rewrite <- (firstn_skipn (siz - 1 - List.length a) s). apply in_or_app. auto.
  - eexists. rewrite <- app_assoc. reflexivity.
Qed.

(** A destination without terminator in its first [siz] bytes is left alone. *)
Theorem C44_strlcat_unterminated : forall a rest src s siz,
  holds src s -> chars_ok a -> List.length a = siz ->
  strlcat (a ++ rest) src siz = Ok (a ++ rest, (siz + List.length s)%nat).
Proof. intros. eapply strlcat_full; eauto. Qed.

Example C44_example :
  strlcpy [1;1;1;1;1;1] 1 (zs "hello" ++ [NUL; 7]) 4 = Ok ([1] ++ zs "hel" ++ [NUL; 1], 5%nat) /\
  strlcat (zs "ab" ++ [NUL; 9; 9]) (zs "cdefg" ++ [NUL]) 5 = Ok (zs "abcd" ++ [NUL], 7%nat).
Proof. split; vm_compute; reflexivity. Qed.

(** ** C45 *)
(** One call: the text is extended by as much as fits; the result is the new length if
    all of it fitted, and -1 if not (a call that finds the buffer full reports -1 even for
    an empty addition). *)
Theorem C45_append_partial : forall size dst s t,
  holds dst s -> List.length dst = size -> chars_ok t ->
  exists dst' rv, append_format_string dst size t = Ok (dst', rv) /\
    holds dst' (firstn (size - 1) (s ++ t)) /\ List.length dst' = size /\
    (rv = -1 \/ rv = Z.of_nat (List.length (s ++ t))) /\
    (rv <> -1 -> holds dst' (s ++ t)) /\
    ((List.length (s ++ t) < size)%nat -> t <> [] -> rv = Z.of_nat (List.length (s ++ t))).
Proof.
  intros size dst s t H L C. destruct (append_ok size dst s t H L C) as (dst' & E & H' & L').
  exists dst', (append_rv size s t). split; auto. split; auto. split; auto. unfold append_rv.
  split; [destruct (_ && _); auto|]. split.
  - destruct ((_ <? _)%nat && (_ <? _)%nat) eqn:B; [|lia]. intros _. apply andb_prop in B. destruct B as [_ B].
    apply Nat.ltb_lt in B. unfold appended in H'. rewrite firstn_all2 in H' by lia. auto.
  - intros B NE. destruct (Nat.ltb_spec (List.length s + 1) size), (Nat.ltb_spec (List.length (s ++ t)) size); auto; try lia.
    rewrite app_length in *. destruct t; [congruence|]. cbn [List.length] in *. lia.
Qed.

(** A sequence of calls of which only the last result is looked at. *)
Fixpoint appends (dst : list Z) (size : nat) (ts : list (list Z)) (rv : Z) : res (list Z * Z) :=
  match ts with
  | [] => Ok (dst, rv)
  | t :: ts' => do r <- append_format_string dst size t; appends (fst r) size ts' (snd r)
  end.

Lemma appends_ok size : forall ts dst s rv0, holds dst s -> List.length dst = size -> Forall chars_ok ts ->
  (rv0 = -1 -> (List.length s = size - 1)%nat) ->
  exists dst' rv, appends dst size ts rv0 = Ok (dst', rv) /\ List.length dst' = size /\
    holds dst' (firstn (size - 1) (s ++ concat ts)) /\
    (ts <> [] -> rv <> -1 -> holds dst' (s ++ concat ts) /\ rv = Z.of_nat (List.length (s ++ concat ts))).
Proof.
  induction ts as [|t ts IH]; intros dst s rv0 H L F R.
  - cbn. exists dst, rv0. rewrite app_nil_r. split; auto. split; auto.
    assert ((List.length s < size)%nat) by (destruct H as (_ & j & ->); rewrite app_length in L; cbn in L; lia).
    rewrite firstn_all2 by lia. split; auto. congruence.
  - inversion F as [|? ? H2 H3]; clear F. cbn [appends concat]. destruct (append_ok size dst s t H L H2) as (dst1 & E & H' & L').
    rewrite E. cbn [bind fst snd].
    destruct (IH dst1 (appended size s t) (append_rv size s t) H' L' H3) as (dst' & rv & E1 & E2 & E3 & E4).
    { intros X. unfold append_rv in X. unfold appended. rewrite firstn_length.
      assert ((List.length s < size)%nat) by (destruct H as (_ & j & ->); rewrite app_length in L; cbn in L; lia).
      destruct (Nat.ltb_spec (List.length s + 1) size), (Nat.ltb_spec (List.length (s ++ t)) size); cbn [andb] in X; try lia.
      rewrite app_length. lia. }
    exists dst', rv. split; auto. split; auto.
    assert (FA : firstn (size - 1) (appended size s t ++ concat ts) = firstn (size - 1) (s ++ t ++ concat ts)).
    { unfold appended. rewrite app_assoc.
      destruct (le_lt_dec (List.length (s ++ t)) (size - 1)) as [B|B].
      - rewrite (firstn_all2 (s ++ t)) by lia. reflexivity.
      - rewrite (firstn_app _ (firstn (size - 1) (s ++ t))), (firstn_app _ (s ++ t)), firstn_firstn, Nat.min_id, firstn_length.
        replace (size - 1 - Nat.min (size - 1) (List.length (s ++ t)))%nat with 0%nat by lia.
        replace (size - 1 - List.length (s ++ t))%nat with 0%nat by lia. reflexivity. }
    rewrite <- FA. split; auto. intros _ NE.
    destruct ts as [|t2 ts].
    + cbn in *. inversion E1; subst. rewrite app_nil_r in *. unfold append_rv in *.
      destruct ((_ <? _)%nat && (_ <? _)%nat) eqn:B; [|congruence]. apply andb_prop in B. destruct B as [_ B].
      apply Nat.ltb_lt in B. unfold appended in H'. rewrite firstn_all2 in H' by lia. auto.
    + destruct (E4 ltac:(discriminate) NE) as (E5 & E6).
      assert (B : appended size s t = s ++ t).
      { unfold appended. apply firstn_all2. destruct (le_lt_dec (List.length (s ++ t)) (size - 1)) as [B|B]; auto. exfalso.
        (* the buffer is full: the last call must fail *)
        assert (LA : List.length (appended size s t) = (size - 1)%nat) by (unfold appended; rewrite firstn_length; lia).
        clear -E1 H' L' H3 LA NE B. remember (t2 :: ts) as ts'. clear Heqts'.
        assert (X : append_rv size s t = -1).
        { unfold append_rv. destruct (Nat.ltb_spec (List.length (s ++ t)) size); [|rewrite andb_false_r; auto]. lia. }
        rewrite X in E1. clear X B. revert dst1 H' L' E1. generalize dependent (appended size s t). clear s t. 
        induction ts' as [|u ts' IH]; intros s LA dst1 H' L' E1.
        - cbn in E1. inversion E1; subst. congruence.
        - inversion H3; subst. cbn [appends] in E1. destruct (append_ok (List.length dst1) dst1 s u H' eq_refl H1) as (d & E & H'' & L'').
          rewrite E in E1. cbn [bind fst snd] in E1.
          assert (X : append_rv (List.length dst1) s u = -1).
          { unfold append_rv. destruct (Nat.ltb_spec (List.length s + 1) (List.length dst1)); auto. lia. }
          rewrite X in E1. apply (IH H2 (appended (List.length dst1) s u)) with (dst1 := d); auto.
          unfold appended. rewrite firstn_length, app_length. lia. }
      rewrite B, <- app_assoc in *. auto.
Qed.

(** Checking the last result is enough: after any sequence of calls, if the last did not
    report truncation then the buffer holds all the texts. *)
Theorem C45_last_result : forall size dst s ts rv0,
  holds dst s -> List.length dst = size -> Forall chars_ok ts -> ts <> [] -> rv0 <> -1 ->
  exists dst' rv, appends dst size ts rv0 = Ok (dst', rv) /\ List.length dst' = size /\
    holds dst' (firstn (size - 1) (s ++ concat ts)) /\
    (rv <> -1 -> holds dst' (s ++ concat ts) /\ rv = Z.of_nat (List.length (s ++ concat ts))).
Proof.
  intros size dst s ts rv0 H L F N R. destruct (appends_ok size ts dst s rv0 H L F) as (d & rv & E1 & E2 & E3 & E4); [tauto|].
  exists d, rv. auto.
Qed.

Example C45_example :
  appends (NUL :: repeat 7 7) 8 [zs "ab"; zs "cde"] 0 = Ok (zs "abcde" ++ [NUL; 7; 7], 5) /\
  appends (NUL :: repeat 7 7) 8 [zs "abcdefghi"; []] 0 = Ok (zs "abcdefg" ++ [NUL], -1).
Proof. split; vm_compute; reflexivity. Qed.

(** The function also has to cope with a buffer that has no terminator (it tries to: it
    stops after size bytes); but then it reads the byte after the buffer. *)
Theorem C45_unterminated_refuted : exists dst size t,
  List.length dst = size /\ (0 < size)%nat /\ append_format_string dst size t = UB OutOfBounds.
Proof. exists (zs "abcd"), 4%nat, (zs "x"). repeat split. vm_compute; lia. Qed.

(** ** C46 *)
(** [sub] is the replacement text; a NULL pointer removes the token. *)
Theorem C46_substitute : forall dst dstlen src s c subo sub,
  holds src s -> match subo with Some b => holds b sub | None => sub = [] end ->
  c <> NUL -> List.length dst = dstlen -> (0 < dstlen)%nat ->
  exists dst' rv, substitute_string dst dstlen src c subo = Ok (dst', rv) /\ List.length dst' = dstlen /\
    ((List.length (replaced c sub s) < dstlen)%nat -> 
       rv = Z.of_nat (List.length (replaced c sub s)) /\ holds dst' (replaced c sub s)) /\
    ((dstlen <= List.length (replaced c sub s))%nat ->
       rv = -1 /\ holds dst' (firstn (dstlen - 1) (replaced c sub s))).
Proof.
  intros dst dstlen src s c subo sub H HS NC L P.
  assert (CS : chars_ok sub) by (destruct subo; [apply HS|subst; constructor]).
  destruct (subst_ok dst dstlen src s c subo sub H HS CS NC L P) as (dst' & rv & E & L' & R).
  assert (CR : chars_ok (replaced c sub s)).
  { destruct H as (C & _). clear -C CS.
    assert (G : forall n s, (List.length s <= n)%nat -> chars_ok s -> chars_ok (replaced c sub s)).
    { induction n as [|n IH]; intros [|a t] LE CC; try constructor; cbn in LE; try lia.
      inversion CC; subst. cbn [replaced]. destruct (a =? PERCENT); [destruct t as [|b t]|].
      - constructor; [auto|constructor].
      - destruct (b =? c); [|constructor; auto; apply IH; cbn in *; auto; lia].
        apply Forall_app. split; auto. apply IH; [cbn in LE; lia|]. inversion H2; auto.
      - constructor; auto. apply IH; auto. lia. }
    apply (G (List.length s)); auto. }
  exists dst', rv. split; auto. split; auto. split; intros B.
  - destruct (Nat.ltb_spec (List.length (replaced c sub s)) dstlen); [|lia]. destruct R as (-> & j & ->). split; auto. split; eauto.
  - destruct (Nat.ltb_spec (List.length (replaced c sub s)) dstlen); [lia|]. destruct R as (-> & ->). split; auto.
    split; [|exists []; auto]. apply Forall_forall. intros x X. unfold chars_ok in CR. rewrite Forall_forall in CR. apply CR.
    rewrite <- (firstn_skipn (dstlen - 1) (replaced c sub s)). apply in_or_app. auto.
Qed.

Example C46_example :
  replaced 78 (zs "node1") (zs "ssh %N -p %%N%") = zs "ssh node1 -p %node1%" /\
  substitute_string (repeat 9 12) 12 (zs "a %N" ++ [NUL]) 78 (Some (zs "host" ++ [NUL])) =
    Ok (zs "a host" ++ [NUL] ++ repeat 9 5, 6).
Proof. split; vm_compute; reflexivity. Qed.

(** ** C47 *)
(** For every string, whatever was in front of the current position and behind the end:
    one call finds the first word (C47_first_word_partial), and calling until the result is not
    positive finds all the words, which all stay readable where they were stored
    (C47_words_partial); -1 exactly if a quote is not closed.  [iso] is the C library's ctype
    behaviour: with a table that has no entries for negative values the string has to be
    7-bit.  The hypothesis on [lone_quote] is needed, see C47_lone_quote_refuted. *)
Theorem C47_first_word_partial : forall iso buf ptr r,
  str_at buf ptr r -> (iso = true -> Forall (fun c => c < 128) r) -> ~ lone_quote r ->
  match first_word r with
  | NoWord => exists p, parse_string iso buf ptr = Ok (buf, p, p, None, 0) /\ str_at buf p []
  | Word w qt rest => exists buf' p ptr', parse_string iso buf ptr = Ok (buf', p, ptr', Some qt, 1) /\
      str_at buf' p w /\ str_at buf' ptr' rest
  | Unclosed => exists p q, parse_string iso buf ptr = Ok (buf, p, q, None, -1)
  end.
Proof.
  intros iso buf ptr r A I NL. pose proof (parse_ok iso buf ptr r A I) as H. unfold call_ok in H.
  destruct (first_word r); auto.
  - destruct H as (b & p & q & H1 & H2 & H3 & _). eauto 8.
  - destruct H as [H|[H _]]; [auto|tauto].
Qed.
Theorem C47_words_partial : forall iso buf s,
  holds buf s -> (iso = true -> Forall (fun c => c < 128) s) -> ~ lone_quote s ->
  let n := S (List.length s) in
  exists ws buf' rc, parse_words n iso buf 0 = Ok (ws, buf', rc) /\
    Forall2 (fun pw wq => str_at buf' (fst pw) (fst wq) /\ snd pw = snd wq) ws (fst (words n s)) /\
    rc = (if snd (words n s) then -1 else 0).
Proof.
  intros iso buf s (C & j & ->) I NL. cbv zeta.
  destruct (parse_words_ok iso (S (List.length s)) s ltac:(lia) (s ++ NUL :: j) 0 ltac:(split; [auto|exists [], j; auto]) I NL)
    as (ws & b & rc & H1 & H2 & H3 & _). eauto 8.
Qed.
Example C47_example : 
  words 9 (zs " /usr/bin/ssh  ""-p 22"" '%N'  ") = ([(zs "/usr/bin/ssh", 0); (zs "-p 22", 34); (zs "%N", 39)], false) /\
  words 9 (zs "a 'b c") = ([(zs "a", 0)], true).
Proof. split; vm_compute; reflexivity. Qed.

(** A quote at the very end opens a word that is never closed, but is returned as a word. *)
Theorem C47_lone_quote_refuted : exists buf s, holds buf s /\
  words 9 s = ([(zs "prog", 0)], true) /\
  exists ws buf', parse_words 9 false buf 0 = Ok (ws, buf', 0) /\ ws = [(0%nat, 0); (5%nat, 0)] /\ str_at buf' 5 (zs "'").
Proof.
  exists (zs "prog '" ++ [NUL]), (zs "prog '"). split; [split; [repeat constructor; vm_compute; congruence|exists []; reflexivity]|].
  split; [vm_compute; reflexivity|]. eexists _, _. split; [vm_compute; reflexivity|]. split; [reflexivity|].
  split; [repeat constructor; vm_compute; congruence|]. exists (zs "prog" ++ [NUL]), []. split; vm_compute; reflexivity.
Qed.

(** ** C48 *)
(** For every elapsed time (of less than 2^31 years) the text is complete and denotes it. *)
Theorem C48_time_delta_partial : forall dbg t0 t1, 0 <= t1 - t0 < 2147483648 * 31449600 ->
  exists t, time_delta_string dbg t0 t1 = Ok t /\ (List.length t < 32)%nat /\
    total (fields 0 t) = t1 - t0 /\ ranged (fields 0 t) /\ leading (fields 0 t).
Proof. exact delta_ok. Qed.
Example C48_example : time_delta_string true 0 694861 = Ok (zs "1w1d1h1m1s") /\
  fields 0 (zs "1w1d1h1m1s") = [(1, 604800); (1, 86400); (1, 3600); (1, 60); (1, 1)] /\
  time_delta_string true 7 7 = Ok (zs "0s").
Proof. repeat split; vm_compute; reflexivity. Qed.
(** The clock is not monotonic: after it was set back the elapsed time is negative.  With
    assertions the daemon aborts; without, the text denotes no duration. *)
Theorem C48_clock_set_back_refuted : exists t0 t1, t1 < t0 /\
  time_delta_string true t0 t1 = UB AssertFail /\ time_delta_string false t0 t1 = Ok (zs "-5s").
Proof. exists 100, 95. split; [lia|]. split; vm_compute; reflexivity. Qed.

Print Assumptions C44_strlcpy.
Print Assumptions C44_strlcat.
Print Assumptions C44_strlcat_unterminated.
Print Assumptions C45_append_partial.
Print Assumptions C45_last_result.
Print Assumptions C45_unterminated_refuted.
Print Assumptions C46_substitute.
Print Assumptions C47_first_word_partial.
Print Assumptions C47_words_partial.
Print Assumptions C47_lone_quote_refuted.
Print Assumptions C48_time_delta_partial.
Print Assumptions C48_clock_set_back_refuted.
