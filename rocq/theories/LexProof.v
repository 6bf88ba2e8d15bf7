(** Proofs for LexProps. *)
From Verif Require Import Base BaseProof Chars LexModel LexSpec.
Local Open Scope Z_scope.

(** ** Characters *)
Lemma list_eqb_eq a b : list_eqb a b = true <-> a = b.
Proof.
  unfold list_eqb. revert b. induction a as [|x a IH]; intros [|y b]; cbn; try (split; congruence).
  rewrite andb_true_iff in *. rewrite andb_true_iff. split.
  - intros (A & B & C). apply Z.eqb_eq in B. subst. f_equal. apply IH. rewrite andb_true_iff. auto.
  - intros E. injection E as -> E. specialize (proj2 (IH b) E). rewrite andb_true_iff. intros [A B].
    rewrite Z.eqb_refl. auto.
Qed.

Lemma same_word_eq a b : same_word a b = true <-> map tolower a = map tolower b.
Proof. apply list_eqb_eq. Qed.

Lemma cmp_zero a : forall b, strcasecmp a b = 0 <-> map tolower a = map tolower b.
Proof.
  induction a as [|x a IH]; intros [|y b]; cbn [strcasecmp map]; try (split; intros; discriminate || reflexivity).
  destruct (Z.eqb_spec (tolower x) (tolower y)) as [E|E].
  - rewrite IH. split; intros H; [congruence|injection H; auto].
  - split; intros H; [lia|injection H; congruence].
Qed.

Lemma cmp_opp a : forall b, strcasecmp a b = - strcasecmp b a.
Proof.
  induction a as [|x a IH]; intros [|y b]; cbn [strcasecmp]; try reflexivity.
  rewrite (Z.eqb_sym (tolower y)). destruct (Z.eqb_spec (tolower x) (tolower y)); [apply IH|lia].
Qed.

Lemma cmp_trans a : forall b c, strcasecmp a b < 0 -> strcasecmp b c < 0 -> strcasecmp a c < 0.
Proof.
  induction a as [|x a IH]; intros [|y b] [|z c]; cbn [strcasecmp]; try lia.
  destruct (Z.eqb_spec (tolower x) (tolower y)), (Z.eqb_spec (tolower y) (tolower z)),
    (Z.eqb_spec (tolower x) (tolower z)); intros; try lia. eapply IH; eauto.
Qed.

Lemma cmp_eq_l a : forall b c, strcasecmp a b = 0 -> strcasecmp a c = strcasecmp b c.
Proof.
  induction a as [|x a IH]; intros [|y b] [|z c]; cbn [strcasecmp]; try lia; intros H.
  destruct (Z.eqb_spec (tolower x) (tolower y)); [|lia]. rewrite e.
  destruct (tolower y =? tolower z); auto.
Qed.

(** ** Keyword lookup *)
Lemma index_of_spec w toks : forall i,
  match index_of w i toks with
  | Some k => exists m t, k = i + Z.of_nat m /\ nth_error toks m = Some t /\ same_word w t = true /\
      forall j t', (j < m)%nat -> nth_error toks j = Some t' -> same_word w t' = false
  | None => forall j t', nth_error toks j = Some t' -> same_word w t' = false
  end.
Proof.
  induction toks as [|t ts IH]; intros i; cbn [index_of].
  - intros [|j] t' H; discriminate.
  - destruct (same_word w t) eqn:Q.
    + exists 0%nat, t. repeat split; auto; [lia|]. intros; lia.
    + specialize (IH (i + 1)). destruct (index_of w (i + 1) ts) as [k|].
      * destruct IH as (m & t' & -> & A & B & C). exists (S m), t'. repeat split; auto; [lia|].
        intros [|j] t'' Hj Ht; cbn in Ht; [injection Ht as <-; exact Q|]. eapply C; eauto. lia.
      * intros [|j] t' H; cbn in H; [injection H as <-; exact Q|]. eauto.
Qed.

Lemma lookup_found w toks m t : sorted_table toks -> nth_error toks m = Some t -> strcasecmp w t = 0 ->
  keyword w toks = Z.of_nat m + LEX_TOK_OFFSET.
Proof.
  intros S A B. unfold keyword. pose proof (index_of_spec w toks LEX_TOK_OFFSET) as H.
  destruct (index_of w LEX_TOK_OFFSET toks) as [k|].
  - destruct H as (m' & t' & -> & A' & B' & C').
    assert (m' = m); [|subst; lia].
    apply same_word_eq, cmp_zero in B'.
    destruct (Nat.lt_trichotomy m' m) as [L|[E|L]]; [|exact E|].
    + specialize (S _ _ _ _ L A' A). rewrite <- (cmp_eq_l w t' t B') in S. lia.
    + specialize (S _ _ _ _ L A A'). rewrite <- (cmp_eq_l w t t' B) in S. lia.
  - exfalso. specialize (H _ _ A). apply cmp_zero, same_word_eq in B. congruence.
Qed.

Lemma lookup_loop_ok w toks : sorted_table toks -> forall n low high,
  0 <= low -> high < Z.of_nat (length toks) -> high - low + 1 < Z.of_nat n -> low <= high + 1 ->
  (forall j t, nth_error toks j = Some t -> Z.of_nat j < low -> 0 < strcasecmp w t) ->
  (forall j t, nth_error toks j = Some t -> high < Z.of_nat j -> strcasecmp w t < 0) ->
  lookup_loop n w toks low high = Ok (keyword w toks).
Proof.
  intros S. induction n as [|n IH]; intros low high L0 HI HN HM LO HG.
  { lia. }
  cbn [lookup_loop]. destruct (Z.leb_spec low high) as [LE|GT].
  - set (m := (low + high) / 2).
    assert (low <= m <= high) by (unfold m; split; [apply Z.div_le_lower_bound|apply Z.div_le_upper_bound]; lia).
    unfold get. destruct (nth_error toks (Z.to_nat m)) as [t|] eqn:Q.
    2:{ apply nth_error_None in Q. lia. }
    cbn [bind]. destruct (Z.ltb_spec (strcasecmp w t) 0) as [C|C].
    + apply IH; try lia; auto.
      intros j t' Hj Hlt. destruct (Z.eq_dec (Z.of_nat j) m) as [E|E].
      * rewrite <- E, Nat2Z.id in Q. congruence.
      * eapply cmp_trans; [exact C|]. apply (S (Z.to_nat m) j t t'); [lia|exact Q|exact Hj].
    + destruct (Z.ltb_spec 0 (strcasecmp w t)) as [C'|C'].
      * apply IH; try lia; auto.
        intros j t' Hj Hlt. destruct (Z.eq_dec (Z.of_nat j) m) as [E|E].
        -- rewrite <- E, Nat2Z.id in Q. congruence.
        -- rewrite cmp_opp. rewrite cmp_opp in C'. 
           assert (strcasecmp t' t < 0) by (eapply S; [|exact Hj|exact Q]; lia).
           assert (strcasecmp t' w < 0); [|lia]. eapply cmp_trans; [exact H0|]. lia.
      * f_equal. rewrite (lookup_found w toks (Z.to_nat m) t S Q) by lia. lia.
  - f_equal. unfold keyword. pose proof (index_of_spec w toks LEX_TOK_OFFSET) as H.
    destruct (index_of w LEX_TOK_OFFSET toks) as [k|]; [|reflexivity].
    exfalso. destruct H as (m & t & _ & A & B & _). apply same_word_eq, cmp_zero in B.
    destruct (Z_lt_ge_dec (Z.of_nat m) low) as [X|X].
    + specialize (LO _ _ A X). lia.
    + specialize (HG _ _ A ltac:(lia)). lia.
Qed.

Lemma lookup_ok w toks : sorted_table toks -> lookup_token w toks = Ok (keyword w toks).
Proof.
  intros S. unfold lookup_token. apply lookup_loop_ok; auto; try lia.
  intros j t Hj Hlt. assert (j < length toks)%nat by (apply nth_error_Some; congruence). lia.
Qed.

(** A finite table is sorted when its neighbours are. *)
Fixpoint sorted_b (toks : list (list Z)) : bool :=
  match toks with
  | a :: (b :: _) as t => (strcasecmp a b <? 0) && sorted_b t
  | _ => true
  end.
Lemma sorted_b_ok toks : sorted_b toks = true -> sorted_table toks.
Proof.
  induction toks as [|a t IH]; intros H i j x y L A B.
  - destruct i; discriminate.
  - assert (HT : sorted_b t = true).
    { destruct t; [reflexivity|]. cbn in H. apply andb_prop in H. apply H. }
    destruct j as [|j]; [lia|]. destruct i as [|i].
    + cbn in A, B. injection A as <-.
      destruct t as [|b u]; [destruct j; discriminate|].
      cbn [sorted_b] in H. apply andb_prop in H. destruct H as [H1 _]. apply Z.ltb_lt in H1.
      destruct j as [|j]; [cbn in B; injection B as <-; exact H1|].
      eapply cmp_trans; [exact H1|]. apply (IH HT 0%nat (S j) b y); [lia|reflexivity|exact B].
    + cbn in A, B. eapply (IH HT i j); eauto. lia.
Qed.

(** ** Reading the buffer *)
Lemma get_at (pre r post : list Z) : get (pre ++ r ++ NUL :: post) (length pre) = Ok (hd NUL r).
Proof.
  unfold get. rewrite nth_error_app2, Nat.sub_diag by lia. destruct r; reflexivity.
Qed.

Lemma get_at1 (pre : list Z) c r post : get (pre ++ (c :: r) ++ NUL :: post) (S (length pre)) = Ok (hd NUL r).
Proof.
  unfold get. rewrite nth_error_app2 by lia. replace (S (length pre) - length pre)%nat with 1%nat by lia.
  destruct r; reflexivity.
Qed.

Lemma get_at2 (pre : list Z) c d r post : get (pre ++ (c :: d :: r) ++ NUL :: post) (S (S (length pre))) = Ok (hd NUL r).
Proof.
  unfold get. rewrite nth_error_app2 by lia. replace (S (S (length pre)) - length pre)%nat with 2%nat by lia.
  destruct r; reflexivity.
Qed.

Lemma span_app f s : fst (span f s) ++ snd (span f s) = s.
Proof. induction s as [|c t IH]; cbn; [reflexivity|]. destruct (f c); cbn; [rewrite IH|]; reflexivity. Qed.

Lemma span_all f s : Forall (fun c => f c = true) (fst (span f s)).
Proof. induction s as [|c t IH]; cbn; [constructor|]. destruct (f c) eqn:Q; cbn; auto. Qed.

Lemma span_snd f s : match snd (span f s) with [] => True | c :: _ => f c = false end.
Proof. induction s as [|c t IH]; cbn; [exact I|]. destruct (f c) eqn:Q; cbn; auto. Qed.

Lemma span_length f s : (length (fst (span f s)) + length (snd (span f s)) = length s)%nat.
Proof. rewrite <- (span_app f s) at 3. rewrite app_length. reflexivity. Qed.

Lemma scan_ok stop sf (pre : list Z) post : sf NUL = true -> forall r n,
  stop NUL = Ok true ->
  (forall c, In c r -> stop c = Ok (sf c)) -> (length r < n)%nat ->
  scan n (pre ++ r ++ NUL :: post) (length pre) stop =
  Ok (length pre + length (fst (span (fun c => negb (sf c)) r)))%nat.
Proof.
  intros S0 r n. revert pre n. induction r as [|c t IH]; intros pre n SN ST H; (destruct n; [cbn in H; lia|]);
    cbn [scan]; rewrite get_at; cbn [bind hd].
  - rewrite SN. cbn. f_equal. lia.
  - rewrite ST by (left; reflexivity). cbn [bind span]. destruct (sf c); cbn [negb fst length].
    + f_equal. lia.
    + specialize (IH (pre ++ [c]) n SN). rewrite app_length, <- app_assoc in IH. cbn [length app] in IH.
      rewrite Nat.add_1_r in IH. cbn [app]. rewrite IH; [f_equal; lia| |cbn in H; lia].
      intros; apply ST; right; auto.
Qed.

Lemma scan1_ok stop sf (pre : list Z) c r post n : sf NUL = true ->
  stop NUL = Ok true ->
  (forall c, In c r -> stop c = Ok (sf c)) -> (length r < n)%nat ->
  scan n (pre ++ (c :: r) ++ NUL :: post) (S (length pre)) stop =
  Ok (S (length pre) + length (fst (span (fun c => negb (sf c)) r)))%nat.
Proof.
  intros A B C D. pose proof (scan_ok stop sf (pre ++ [c]) post A r n B C D) as H.
  rewrite <- app_assoc in H. replace (length (pre ++ [c])) with (S (length pre)) in H by (rewrite app_length; cbn; lia).
  exact H.
Qed.

Lemma slice_at (pre mid post : list Z) k :
  slice (pre ++ mid ++ post) (length pre) (Nat.min (length mid) k) = Ok (firstn k mid).
Proof.
  unfold slice. destruct (Nat.leb_spec (length pre + Nat.min (length mid) k) (length (pre ++ mid ++ post))).
  - f_equal. rewrite skipn_app, skipn_all, Nat.sub_diag. cbn [app skipn].
    rewrite firstn_app. replace (Nat.min (length mid) k - length mid)%nat with 0%nat by lia.
    cbn [firstn]. rewrite app_nil_r. destruct (Nat.le_ge_cases (length mid) k).
    + rewrite Nat.min_l by lia. rewrite !firstn_all2 by lia. reflexivity.
    + rewrite Nat.min_r by lia. reflexivity.
  - rewrite !app_length in H. lia.
Qed.

Lemma lmax2 : (2 <= LEX_MAX_STR)%nat.
Proof. apply Nat.leb_le. vm_compute. reflexivity. Qed.
Global Opaque LEX_MAX_STR.

Lemma set_text_cut s : set_text (cut s) = Ok (cut s).
Proof.
  unfold set_text, cut. pose proof lmax2.
  destruct (Nat.ltb_spec (length (firstn (LEX_MAX_STR - 1) s)) LEX_MAX_STR); [reflexivity|].
  rewrite firstn_length in H0. lia.
Qed.
Lemma set_text_small s : (length s <= 1)%nat -> set_text s = Ok s.
Proof.
  intros H. unfold set_text. pose proof lmax2. destruct (Nat.ltb_spec (length s) LEX_MAX_STR); [reflexivity|lia].
Qed.

(** ** Character classes *)
Definition low_false (f : Z -> bool) : Prop := forall c, 128 <= c -> f c = false.
Lemma lf_alpha : low_false isalpha.
Proof. intros c H. unfold isalpha, isupper, islower. lia. Qed.
Lemma lf_digit : low_false isdigit.
Proof. intros c H. unfold isdigit. lia. Qed.
Lemma lf_alnum : low_false isalnum.
Proof. intros c H. unfold isalnum. rewrite lf_alpha, lf_digit by lia. reflexivity. Qed.

Definition iso_ok (iso : bool) (r : list Z) : Prop := iso = true -> Forall (fun c => c < 128) r.

Lemma ctype_ok iso f c : low_false f -> 0 <= c < 256 -> (iso = true -> c < 128) -> ctype iso f c = Ok (f c).
Proof.
  intros LF R I. unfold ctype, schar. destruct (Z.ltb_spec c 128).
  - destruct (Z.leb_spec 0 c); [reflexivity|lia].
  - destruct (Z.leb_spec 0 (c - 256)); [lia|]. destruct iso; [specialize (I eq_refl); lia|].
    rewrite LF by lia. reflexivity.
Qed.

Lemma wordc_nul : wordc NUL = false. Proof. reflexivity. Qed.

(** Line ends contained in text without any. *)
Lemma line_ends_app_noeol a b : Forall (fun c => is_eol c = false) a -> line_ends (a ++ b) = line_ends b.
Proof.
  induction 1 as [|c t H F IH]; [reflexivity|]. cbn [app line_ends]. unfold is_eol in H.
  apply orb_false_iff in H. destruct H as [-> ->]. cbn. exact IH.
Qed.

Definition noeol (a : list Z) : Prop := Forall (fun c => is_eol c = false) a.

Lemma wordc_noeol c : wordc c = true -> is_eol c = false.
Proof. unfold wordc, isalnum, isalpha, isupper, islower, isdigit, is_eol, UNDERSCORE, LF, CR. lia. Qed.
Lemma digit_noeol c : isdigit c = true -> is_eol c = false.
Proof. unfold isdigit, is_eol, LF, CR. lia. Qed.

(** What one call of lex_next has to achieve. *)
Record post (l l' : lex) (r : list Z) (tok : Z) (text rest : list Z) : Prop := {
  po_at : is_at l' rest;
  po_text : x_text l' = text;
  po_prev : x_prev l' = tok;
  po_toks : x_toks l' = x_toks l;
  po_buf : x_buf l' = x_buf l;
  po_eol : x_eol l' = (tok =? LEX_EOL) || x_eol l;
  po_line : (x_line l' + line_ends rest + (if (tok =? LEX_EOL)%Z then 1 else 0) = x_line l + line_ends r)%nat }.

Lemma split_chars (a b : list Z) : chars_ok (a ++ b) -> chars_ok a /\ chars_ok b.
Proof. unfold chars_ok. apply Forall_app. Qed.

(** Returning a token that consumes [used]. *)
Lemma tok_ret_ok l pre used rest pst text tok eol :
  x_buf l = pre ++ (used ++ rest) ++ NUL :: pst -> x_pos l = length pre -> chars_ok (used ++ rest) ->
  set_text text = Ok text ->
  eol = (tok =? LEX_EOL) || x_eol l ->
  (line_ends rest + (if (tok =? LEX_EOL)%Z then 1 else 0) = line_ends (used ++ rest))%nat ->
  exists l', tok_ret l (length pre + length used) text tok eol = Ok (tok, l') /\
    post l l' (used ++ rest) tok text rest.
Proof.
  intros HB HP CO ST EO LN. unfold tok_ret. rewrite ST. cbn [bind]. eexists; split; [reflexivity|].
  split; cbn; auto.
  - split; [apply (split_chars _ _ CO)|]. exists (pre ++ used), pst. cbn. split.
    + rewrite HB, <- !app_assoc. reflexivity.
    + rewrite app_length. reflexivity.
  - lia.
Qed.


Lemma keyword_ge w toks : LEX_STR <= keyword w toks.
Proof.
  unfold keyword. pose proof (index_of_spec w toks LEX_TOK_OFFSET) as H.
  destruct (index_of w LEX_TOK_OFFSET toks); [|lia]. destruct H as (m & t & -> & _). unfold LEX_STR, LEX_TOK_OFFSET. lia.
Qed.

Lemma default_ok iso l c t pre pst :
  x_buf l = pre ++ (c :: t) ++ NUL :: pst -> x_pos l = length pre -> chars_ok (c :: t) -> iso_ok iso (c :: t) ->
  sorted_table (x_toks l) ->
  is_eol c = false -> c <> DQUOTE -> c <> QUOTE ->
  exists l', lex_default iso l c = Ok (fst (fst (token (x_toks l) (c :: t))), l') /\
    post l l' (c :: t) (fst (fst (token (x_toks l) (c :: t)))) (snd (fst (token (x_toks l) (c :: t)))) (snd (token (x_toks l) (c :: t))).
Proof.
  intros HB HP CO IO SO NE N1 N2. unfold lex_default. rewrite HB, HP.
  inversion CO as [|? ? C1 C2]; subst.
  assert (IC : iso = true -> c < 128) by (intros I; specialize (IO I); inversion IO; auto).
  assert (IT : iso = true -> Forall (fun c => c < 128) t) by (intros I; specialize (IO I); inversion IO; auto).
  rewrite (ctype_ok iso isalpha) by (auto using lf_alpha; unfold char_ok in C1; lia).
  cbn [bind token]. unfold is_eol in NE. apply orb_false_iff in NE. destruct NE as [NE1 NE2].
  rewrite NE1, NE2.
  destruct (Z.eqb_spec c DQUOTE); [congruence|]. destruct (Z.eqb_spec c QUOTE); [congruence|]. cbn [orb].
  assert (LB : (length t < length (pre ++ (c :: t) ++ NUL :: pst))%nat) by (rewrite !app_length; cbn; lia).
  destruct (isalpha c || (c =? UNDERSCORE)) eqn:WA.
  - (* word *)
    pose proof (scan1_ok (fun d => if d =? NUL then Ok true else do a <- ctype iso isalnum d; Ok (negb (a || (d =? UNDERSCORE))))
      (fun d => negb (wordc d)) pre c t pst (length (pre ++ (c :: t) ++ NUL :: pst)) eq_refl) as SC. cbn [app] in SC |- *.
    rewrite SC; [|reflexivity| |exact LB].
    2:{ intros d Hd. unfold chars_ok in C2. rewrite Forall_forall in C2. specialize (C2 _ Hd). unfold char_ok in C2.
        destruct (Z.eqb_spec d NUL); [unfold NUL in *; lia|].
        rewrite ctype_ok; [reflexivity|apply lf_alnum|lia|]. intros I. specialize (IT I). rewrite Forall_forall in IT. auto. }
    cbn [bind].
    replace (span (fun c0 => negb (negb (wordc c0))) t) with (span wordc t).
    2:{ clear. induction t as [|x t IH]; cbn; [reflexivity|]. rewrite negb_involutive, IH. reflexivity. }
    destruct (span wordc t) as [w r] eqn:SP. cbn [fst snd].
    assert (ET : t = w ++ r) by (rewrite <- (span_app wordc t), SP; reflexivity).
    assert (WW : Forall (fun c => wordc c = true) w) by (pose proof (span_all wordc t) as Q; rewrite SP in Q; exact Q).
    replace (S (length pre) + length w - length pre)%nat with (length (c :: w)) by (cbn [length]; lia).
    rewrite ET. replace (pre ++ c :: (w ++ r) ++ NUL :: pst) with (pre ++ (c :: w) ++ (r ++ NUL :: pst)) by (cbn; rewrite <- app_assoc; reflexivity).
    rewrite slice_at. cbn [bind]. fold (cut (c :: w)). rewrite set_text_cut. cbn [bind]. rewrite lookup_ok by auto. cbn [bind].
    replace (S (length pre) + length w)%nat with (length pre + length (c :: w))%nat by (cbn [length]; lia).
    apply (tok_ret_ok l pre (c :: w) r pst).
    + rewrite HB, ET. cbn. reflexivity.
    + exact HP.
    + cbn. rewrite <- ET. exact CO.
    + apply set_text_cut.
    + destruct (Z.eqb_spec (keyword (cut (c :: w)) (x_toks l)) LEX_EOL) as [E|E]; [|reflexivity].
      pose proof (keyword_ge (cut (c :: w)) (x_toks l)). rewrite E in H. unfold LEX_EOL, LEX_STR in H. lia.
    + destruct (Z.eqb_spec (keyword (cut (c :: w)) (x_toks l)) LEX_EOL) as [E|E].
      { pose proof (keyword_ge (cut (c :: w)) (x_toks l)). rewrite E in H. unfold LEX_EOL, LEX_STR in H. lia. }
      rewrite line_ends_app_noeol; [lia|]. constructor.
      * unfold is_eol. rewrite NE1, NE2. reflexivity.
      * eapply Forall_impl; [|exact WW]. apply wordc_noeol.
  - rewrite (ctype_ok iso isdigit) by (auto using lf_digit; unfold char_ok in C1; lia). cbn [bind].
    set (num := isdigit c || ((c =? MINUS) || (c =? PLUS)) && match t with d :: _ => isdigit d | [] => false end).
    assert (NU : (if isdigit c then Ok true
                  else if (c =? MINUS) || (c =? PLUS)
                  then do d <- get (pre ++ (c :: t) ++ NUL :: pst) (S (length pre)); ctype iso isdigit d else Ok false) = Ok num).
    { unfold num. destruct (isdigit c); [reflexivity|]. cbn [orb].
      destruct ((c =? MINUS) || (c =? PLUS)); [|reflexivity]. cbn [andb].
      rewrite get_at1. cbn [bind]. destruct t as [|d t']; cbn [hd].
      - apply (ctype_ok iso isdigit NUL); [apply lf_digit|unfold NUL; lia|unfold NUL; lia].
      - inversion C2; subst. unfold char_ok in *. apply ctype_ok; [apply lf_digit|lia|].
        intros I. specialize (IT I). inversion IT; auto. }
    rewrite NU. cbn [bind].
    destruct num.
    + pose proof (scan1_ok (fun d => if d =? NUL then Ok true else do a <- ctype iso isdigit d; Ok (negb a))
        (fun d => negb (isdigit d)) pre c t pst (length (pre ++ (c :: t) ++ NUL :: pst)) eq_refl) as SC. cbn [app] in SC |- *.
      rewrite SC; [|reflexivity| |exact LB].
      2:{ intros d Hd. unfold chars_ok in C2. rewrite Forall_forall in C2. specialize (C2 _ Hd). unfold char_ok in C2.
          destruct (Z.eqb_spec d NUL); [unfold NUL in *; lia|].
          rewrite ctype_ok; [reflexivity|apply lf_digit|lia|]. intros I. specialize (IT I). rewrite Forall_forall in IT. auto. }
      cbn [bind].
      replace (span (fun c0 => negb (negb (isdigit c0))) t) with (span isdigit t).
      2:{ clear. induction t as [|x t IH]; cbn; [reflexivity|]. rewrite negb_involutive, IH. reflexivity. }
      destruct (span isdigit t) as [w r] eqn:SP. cbn [fst snd].
      assert (ET : t = w ++ r) by (rewrite <- (span_app isdigit t), SP; reflexivity).
      assert (WW : Forall (fun c => isdigit c = true) w) by (pose proof (span_all isdigit t) as Q; rewrite SP in Q; exact Q).
      replace (S (length pre) + length w - length pre)%nat with (length (c :: w)) by (cbn [length]; lia).
      rewrite ET. replace (pre ++ c :: (w ++ r) ++ NUL :: pst) with (pre ++ (c :: w) ++ (r ++ NUL :: pst)) by (cbn; rewrite <- app_assoc; reflexivity).
      rewrite slice_at. cbn [bind]. fold (cut (c :: w)).
      replace (S (length pre) + length w)%nat with (length pre + length (c :: w))%nat by (cbn [length]; lia).
      apply (tok_ret_ok l pre (c :: w) r pst).
      * rewrite HB, ET. cbn. reflexivity.
      * exact HP.
      * cbn. rewrite <- ET. exact CO.
      * apply set_text_cut.
      * reflexivity.
      * change (LEX_INT =? LEX_EOL) with false. rewrite line_ends_app_noeol; [lia|]. constructor.
        -- unfold is_eol. rewrite NE1, NE2. reflexivity.
        -- eapply Forall_impl; [|exact WW]. apply digit_noeol.
    + assert (NEO : (schar c =? LEX_EOL) = false).
      { apply Z.eqb_neq. unfold schar, LEX_EOL. unfold char_ok in C1. destruct (c <? 128); lia. }
      replace (S (length pre)) with (length pre + length [c])%nat by (cbn [length]; lia).
      apply (tok_ret_ok l pre [c] t pst); [exact HB|exact HP|exact CO| | |].
      * apply set_text_small. cbn. lia.
      * cbn [fst]. rewrite NEO. reflexivity.
      * cbn [fst]. rewrite NEO. rewrite line_ends_app_noeol; [lia|]. constructor; [|constructor].
        unfold is_eol. rewrite NE1, NE2. reflexivity.
Qed.

Lemma at_pos_post l p k r1 r tok text rest l' :
  post (at_pos l p k) l' r1 tok text rest -> (k + line_ends r1 = line_ends r)%nat ->
  post l l' r tok text rest.
Proof.
  intros [A B C E F G H] K. split; auto. cbn [x_line at_pos] in H. lia.
Qed.

Lemma skip_true_span r : skip true r = snd (span (fun c => negb (is_eol c)) r).
Proof. induction r as [|c t IH]; cbn [skip span]; [reflexivity|]. destruct (is_eol c); cbn [negb snd]; auto. Qed.

Lemma skip_false_eol r : (match r with [] => True | c :: _ => is_eol c = true end) -> skip false r = r.
Proof.
  destruct r as [|c t]; [reflexivity|]. intros H. cbn [skip]. unfold is_eol in H.
  assert (c = LF \/ c = CR) as [-> | ->] by (apply orb_prop in H; destruct H as [H|H]; apply Z.eqb_eq in H; auto); reflexivity.
Qed.

Lemma iso_tail iso c t : iso_ok iso (c :: t) -> iso_ok iso t.
Proof. intros H I. specialize (H I). inversion H; auto. Qed.
Lemma iso_app iso a b : iso_ok iso (a ++ b) -> iso_ok iso b.
Proof. intros H I. specialize (H I). apply Forall_app in H. apply H. Qed.

Lemma loop_ok iso : forall n l r, is_at l r -> iso_ok iso r -> sorted_table (x_toks l) -> (length r < n)%nat ->
  exists l', lex_loop n iso l = Ok (fst (fst (next_token (x_toks l) r)), l') /\
    post l l' r (fst (fst (next_token (x_toks l) r))) (snd (fst (next_token (x_toks l) r))) (snd (next_token (x_toks l) r)).
Proof.
  induction n as [|n IH]; intros l r (CO & pre & pst & HB & HP) IO SO HN; [lia|].
  cbn [lex_loop]. rewrite HB, HP, get_at. cbn [bind].
  destruct r as [|c t]; cbn [hd].
  { (* EOF *) change (NUL =? NUL) with true. cbv iota.
    replace (length pre) with (length pre + length (@nil Z))%nat by (cbn [length]; lia).
    apply (tok_ret_ok l pre [] [] pst); auto. }
  inversion CO as [|? ? C1 C2]; subst. unfold char_ok in C1.
  destruct (Z.eqb_spec c NUL); [unfold NUL in *; lia|].
  unfold next_token.
  assert (AT : forall used rest k, c :: t = used ++ rest -> is_at (at_pos l (length pre + length used) k) rest).
  { intros used rest k E. rewrite E in *. split; [apply (split_chars _ _ CO)|]. exists (pre ++ used), pst. cbn. split.
    - rewrite HB, <- !app_assoc. reflexivity.
    - rewrite app_length. reflexivity. }
  change ((c =? SPACE) || (c =? TAB) || (c =? VT) || (c =? FF)) with (blank c).
  destruct (blank c) eqn:BL.
  { (* white space *)
    destruct (IH (at_pos l (S (length pre)) 0) t) as (l' & E & P).
    - replace (S (length pre)) with (length pre + length [c])%nat by (cbn [length]; lia). apply AT. reflexivity.
    - eapply iso_tail; eauto.
    - exact SO.
    - cbn in HN. lia.
    - rewrite E. cbn [skip]. rewrite BL. exists l'. split; [reflexivity|].
      eapply at_pos_post; [exact P|]. cbn [line_ends].
      assert (is_eol c = false) by (unfold blank, is_eol, SPACE, TAB, VT, FF, LF, CR in *; lia).
      unfold is_eol in H. apply orb_false_iff in H. destruct H as [-> ->]. reflexivity. }
  destruct (Z.eqb_spec c HASH) as [->|NH].
  { (* comment *)
    pose proof (scan1_ok (fun d => Ok ((d =? NUL) || (d =? LF) || (d =? CR)))
      (fun d => (d =? NUL) || (d =? LF) || (d =? CR)) pre HASH t pst (length (pre ++ (HASH :: t) ++ NUL :: pst)) eq_refl) as SC. cbn [app] in SC |- *.
    rewrite SC; auto; [|rewrite app_length; cbn; rewrite app_length; lia]. cbn [bind].
    assert (EQ : span (fun c => negb ((c =? NUL) || (c =? LF) || (c =? CR))) t = span (fun c => negb (is_eol c)) t).
    { clear - C2. induction t as [|x t IH]; [reflexivity|]. inversion C2; subst. cbn [span].
      rewrite IH by auto. unfold is_eol. destruct (Z.eqb_spec x NUL); [unfold char_ok, NUL in *; lia|]. reflexivity. }
    rewrite EQ. clear SC EQ.
    destruct (span (fun c => negb (is_eol c)) t) as [w r] eqn:SP. cbn [fst].
    assert (ET : t = w ++ r) by (rewrite <- (span_app (fun c => negb (is_eol c)) t), SP; reflexivity).
    assert (WW : noeol w).
    { pose proof (span_all (fun c => negb (is_eol c)) t) as Q. rewrite SP in Q. cbn in Q.
      eapply Forall_impl; [|exact Q]. intros x. cbn. rewrite negb_true_iff. auto. }
    assert (RR : match r with [] => True | c :: _ => is_eol c = true end).
    { pose proof (span_snd (fun c => negb (is_eol c)) t) as Q. rewrite SP in Q. cbn in Q.
      destruct r; auto. rewrite negb_false_iff in Q. exact Q. }
    destruct (IH (at_pos l (S (length pre) + length w) 0) r) as (l' & E & P).
    - replace (S (length pre) + length w)%nat with (length pre + length (HASH :: w))%nat by (cbn [length]; lia). apply AT. cbn. rewrite ET. reflexivity.
    - rewrite ET in IO. eapply (iso_app iso (HASH :: w)). exact IO.
    - exact SO.
    - rewrite ET in HN. cbn in HN. rewrite app_length in HN. lia.
    - rewrite E. cbn [skip]. change (blank HASH) with false. change (HASH =? HASH) with true. cbv iota.
      rewrite skip_true_span, SP. cbn [snd]. unfold next_token in P |- *.
      rewrite (skip_false_eol r RR) in P |- *. exists l'. split; [reflexivity|].
      eapply at_pos_post; [exact P|]. rewrite ET.
      change (HASH :: w ++ r) with ((HASH :: w) ++ r). rewrite line_ends_app_noeol; [reflexivity|].
      constructor; [reflexivity|exact WW]. }
  assert (SKE : forall x, x = c -> x <> BACKSLASH -> skip false (x :: t) = x :: t).
  { intros x -> NB. cbn [skip]. rewrite BL. destruct (Z.eqb_spec c HASH); [congruence|].
    destruct (Z.eqb_spec c BACKSLASH); [congruence|]. reflexivity. }
  destruct (Z.eqb_spec c CR) as [->|NCR].
  { rewrite SKE by (auto; discriminate). rewrite get_at1. cbn [bind token].
    change (CR =? CR) with true. cbv iota. destruct t as [|d t']; cbn [hd].
    - change (NUL =? LF) with false. cbv iota.
      replace (S (length pre)) with (length pre + length [CR])%nat by (cbn [length]; lia).
      apply (tok_ret_ok l pre [CR] [] pst); auto.
    - destruct (Z.eqb_spec d LF) as [->|ND].
      + replace (S (S (length pre))) with (length pre + length [CR; LF])%nat by (cbn [length]; lia).
        apply (tok_ret_ok l pre [CR; LF] t' pst); auto. cbn. lia.
      + replace (S (length pre)) with (length pre + length [CR])%nat by (cbn [length]; lia).
        apply (tok_ret_ok l pre [CR] (d :: t') pst); auto.
        cbn [fst]. change (LEX_EOL =? LEX_EOL) with true. cbv iota. 
        replace (line_ends ([CR] ++ d :: t')) with (S (line_ends (d :: t'))); [lia|].
        cbn [app]. change (line_ends (CR :: d :: t')) with ((if (CR =? LF)%Z || ((CR =? CR)%Z && negb (d =? LF)%Z) then 1 else 0) + line_ends (d :: t'))%nat.
        destruct (Z.eqb_spec d LF); [congruence|]. reflexivity. }
  destruct (Z.eqb_spec c LF) as [->|NLF].
  { rewrite SKE by (auto; discriminate). cbn [token]. change (LF =? CR) with false. change (LF =? LF) with true. cbv iota.
    replace (S (length pre)) with (length pre + length [LF])%nat by (cbn [length]; lia).
    apply (tok_ret_ok l pre [LF] t pst); auto. cbn. lia. }
  assert (NE : is_eol c = false).
  { unfold is_eol. destruct (Z.eqb_spec c LF), (Z.eqb_spec c CR); try congruence. reflexivity. }
  destruct ((c =? DQUOTE) || (c =? QUOTE)) eqn:QT.
  { (* quoted *)
    assert (NB : c <> BACKSLASH) by (unfold DQUOTE, QUOTE, BACKSLASH in *; lia).
    rewrite SKE by auto. cbn [token].
    destruct (Z.eqb_spec c CR); [congruence|]. destruct (Z.eqb_spec c LF); [congruence|]. rewrite QT.
    pose proof (scan1_ok (fun d => Ok ((d =? NUL) || (d =? c) || (d =? CR) || (d =? LF)))
      (fun d => (d =? NUL) || (d =? c) || (d =? CR) || (d =? LF)) pre c t pst (length (pre ++ (c :: t) ++ NUL :: pst)) eq_refl) as SC. cbn [app] in SC |- *.
    rewrite SC; auto; [|rewrite app_length; cbn; rewrite app_length; lia]. cbn [bind].
    assert (EQ : span (fun d => negb ((d =? NUL) || (d =? c) || (d =? CR) || (d =? LF))) t = span (fun d => negb ((d =? c) || is_eol d)) t).
    { clear - C2. induction t as [|x t IH]; [reflexivity|]. inversion C2; subst. cbn [span].
      rewrite IH by auto. unfold is_eol. destruct (Z.eqb_spec x NUL); [unfold char_ok, NUL in *; lia|]. cbn [orb].
      destruct (x =? c), (x =? CR), (x =? LF); reflexivity. }
    rewrite EQ. clear SC EQ.
    destruct (span (fun d => negb ((d =? c) || is_eol d)) t) as [w r] eqn:SP. cbn [fst].
    assert (ET : t = w ++ r) by (rewrite <- (span_app (fun d => negb ((d =? c) || is_eol d)) t), SP; reflexivity).
    assert (WW : noeol w).
    { pose proof (span_all (fun d => negb ((d =? c) || is_eol d)) t) as Q. rewrite SP in Q. cbn in Q.
      eapply Forall_impl; [|exact Q]. intros x. cbn. rewrite negb_true_iff, orb_false_iff. tauto. }
    assert (GE : get (pre ++ c :: t ++ NUL :: pst) (S (length pre) + length w) = Ok (hd NUL r)).
    { rewrite ET. replace (pre ++ c :: (w ++ r) ++ NUL :: pst) with ((pre ++ c :: w) ++ r ++ NUL :: pst)
        by (rewrite <- !app_assoc; cbn; rewrite <- ?app_assoc; reflexivity).
      replace (S (length pre) + length w)%nat with (length (pre ++ c :: w)) by (rewrite app_length; cbn; lia). apply get_at. }
    rewrite GE. cbn [bind].
    assert (NW : noeol (c :: w)) by (constructor; auto).
    destruct r as [|d r']; cbn [hd].
    - destruct (Z.eqb_spec NUL c); [congruence|].
      replace (S (length pre) + length w)%nat with (length pre + length (c :: w))%nat by (cbn [length]; lia).
      assert (EU : c :: t = (c :: w) ++ []) by (rewrite ET; reflexivity).
      rewrite EU. apply (tok_ret_ok l pre (c :: w) [] pst); auto.
      + rewrite HB, EU. reflexivity.
      + rewrite <- EU. exact CO.
      + rewrite line_ends_app_noeol by auto. cbn; lia.
    - destruct (Z.eqb_spec d c) as [->|ND].
      + replace (S (length pre) + length w - length pre - 1)%nat with (length w) by lia.
        replace (pre ++ c :: t ++ NUL :: pst) with ((pre ++ [c]) ++ w ++ (c :: r' ++ NUL :: pst)).
        2:{ rewrite ET, <- !app_assoc. reflexivity. }
        replace (S (length pre)) with (length (pre ++ [c])) by (rewrite app_length; cbn; lia).
        rewrite slice_at. cbn [bind]. fold (cut w).
        replace (S (length (pre ++ [c]) + length w))%nat with (length pre + length (c :: w ++ [c]))%nat by (rewrite !app_length; cbn; rewrite app_length; cbn; lia).
        assert (EU : c :: t = (c :: w ++ [c]) ++ r') by (rewrite ET; cbn; rewrite <- app_assoc; reflexivity).
        rewrite EU. apply (tok_ret_ok l pre (c :: w ++ [c]) r' pst); auto.
        * rewrite HB, EU. reflexivity.
        * rewrite <- EU. exact CO.
        * apply set_text_cut.
        * rewrite line_ends_app_noeol; [cbn; lia|]. change (c :: w ++ [c]) with ((c :: w) ++ [c]). apply Forall_app. auto.
      + replace (S (length pre) + length w)%nat with (length pre + length (c :: w))%nat by (cbn [length]; lia).
        assert (EU : c :: t = (c :: w) ++ d :: r') by (rewrite ET; reflexivity).
        rewrite EU. apply (tok_ret_ok l pre (c :: w) (d :: r') pst); auto.
        * rewrite HB, EU. reflexivity.
        * rewrite <- EU. exact CO.
        * rewrite line_ends_app_noeol by auto. cbn; lia. }
  apply orb_false_iff in QT. destruct QT as [QT1 QT2].
  apply Z.eqb_neq in QT1, QT2.
  assert (DF : exists l', lex_default iso l c = Ok (fst (fst (token (x_toks l) (c :: t))), l') /\
    post l l' (c :: t) (fst (fst (token (x_toks l) (c :: t)))) (snd (fst (token (x_toks l) (c :: t)))) (snd (token (x_toks l) (c :: t)))).
  { eapply default_ok; eauto. }
  destruct (Z.eqb_spec c BACKSLASH) as [->|NB].
  2:{ rewrite SKE by auto. exact DF. }
  rewrite get_at1. cbn [bind skip]. change (blank BACKSLASH) with false.
  change (BACKSLASH =? HASH) with false. change (BACKSLASH =? BACKSLASH) with true. cbv iota.
  destruct t as [|d t']; cbn [hd].
  { change (NUL =? LF) with false. change (NUL =? CR) with false. cbv iota. exact DF. }
  destruct (Z.eqb_spec d LF) as [->|ND].
  { destruct (IH (at_pos l (S (S (length pre))) 1) t') as (l' & E & P).
    - replace (S (S (length pre))) with (length pre + length [BACKSLASH; LF])%nat by (cbn [length]; lia). apply AT. reflexivity.
    - apply iso_tail in IO. apply iso_tail in IO. exact IO.
    - exact SO.
    - cbn in HN. lia.
    - rewrite E. exists l'. split; [reflexivity|]. eapply at_pos_post; [exact P|]. reflexivity. }
  destruct (Z.eqb_spec d CR) as [->|NC]; [|exact DF].
  rewrite get_at2. cbn [bind]. destruct t' as [|e t'']; cbn [hd].
  { change (NUL =? LF) with false. cbv iota. exact DF. }
  destruct (Z.eqb_spec e LF) as [->|NE2]; [|exact DF].
  destruct (IH (at_pos l (S (S (S (length pre)))) 1) t'') as (l' & E & P).
  - replace (S (S (S (length pre)))) with (length pre + length [BACKSLASH; CR; LF])%nat by (cbn [length]; lia). apply AT. reflexivity.
  - do 3 apply iso_tail in IO. exact IO.
  - exact SO.
  - cbn in HN. lia.
  - rewrite E. exists l'. split; [reflexivity|]. eapply at_pos_post; [exact P|]. reflexivity.
Qed.

Lemma next_ok iso l r : is_at l r -> iso_ok iso r -> sorted_table (x_toks l) ->
  exists l', lex_next iso l = Ok (fst (fst (next_token (x_toks l) r)), l') /\
    is_at l' (snd (next_token (x_toks l) r)) /\
    x_text l' = snd (fst (next_token (x_toks l) r)) /\
    x_prev l' = fst (fst (next_token (x_toks l) r)) /\
    x_toks l' = x_toks l /\ x_buf l' = x_buf l /\
    x_eol l' = (fst (fst (next_token (x_toks l) r)) =? LEX_EOL) /\
    (x_line l' + (if x_eol l' then 1 else 0) + line_ends (snd (next_token (x_toks l) r))
     = x_line l + (if x_eol l then 1 else 0) + line_ends r)%nat.
Proof.
  intros AT IO SO. unfold lex_next.
  set (l1 := if x_eol l then _ else l).
  assert (B1 : x_buf l1 = x_buf l /\ x_pos l1 = x_pos l /\ x_toks l1 = x_toks l /\ x_eol l1 = false /\
               x_line l1 = (x_line l + (if x_eol l then 1 else 0))%nat).
  { unfold l1. destruct (x_eol l) eqn:Q; cbn; repeat split; auto; lia. }
  destruct B1 as (B1 & B2 & B3 & B4 & B5).
  destruct (loop_ok iso (S (length (x_buf l))) l1 r) as (l' & E & P).
  - destruct AT as (A1 & pre & pst & A2 & A3). split; auto. exists pre, pst. rewrite B1, B2. auto.
  - exact IO.
  - rewrite B3. exact SO.
  - destruct AT as (A1 & pre & pst & A2 & A3). rewrite A2, !app_length. cbn. lia.
  - rewrite B3 in E, P. rewrite E. exists l'. destruct P as [P1 P2 P3 P4 P5 P6 P7].
    split; [reflexivity|]. rewrite B4, orb_false_r in P6.
    split; [exact P1|]. split; [exact P2|]. split; [exact P3|]. split; [congruence|]. split; [congruence|].
    split; [exact P6|]. rewrite P6. rewrite B5 in P7. lia.
Qed.

Lemma skip_len cm s : (length (skip cm s) <= length s)%nat.
Proof.
  revert cm. assert (G : forall n s, (length s <= n)%nat -> forall cm, (length (skip cm s) <= length s)%nat); [|intros; eapply G; eauto].
  induction n as [|n IH]; intros [|c t] H cm; cbn in H; try lia; cbn [skip]; auto.
  destruct cm.
  - destruct (is_eol c); [lia|]. specialize (IH t ltac:(lia) true). cbn. lia.
  - destruct (blank c); [specialize (IH t ltac:(lia) false); cbn; lia|].
    destruct (c =? HASH); [specialize (IH t ltac:(lia) true); cbn; lia|].
    destruct (c =? BACKSLASH); [|lia].
    destruct t as [|d t']; [cbn; lia|]. cbn in H.
    destruct (d =? LF); [specialize (IH t' ltac:(lia) false); cbn; lia|].
    destruct (d =? CR); [|cbn; lia]. destruct t' as [|e t'']; [cbn; lia|]. cbn in H.
    destruct (e =? LF); [specialize (IH t'' ltac:(lia) false); cbn; lia|cbn; lia].
Qed.

Lemma schar_nz c : char_ok c -> schar c <> LEX_EOF.
Proof. unfold char_ok, schar, LEX_EOF. destruct (c <? 128); lia. Qed.

Lemma skip_chars cm s : chars_ok s -> chars_ok (skip cm s).
Proof.
  revert cm. assert (G : forall n s, (length s <= n)%nat -> chars_ok s -> forall cm, chars_ok (skip cm s)); [|intros; eapply G; eauto].
  induction n as [|n IH]; intros [|c t] H CO cm; cbn in H; try lia; cbn [skip]; auto.
  inversion CO; subst.
  destruct cm.
  - destruct (is_eol c); [auto|]. apply IH; auto; lia.
  - destruct (blank c); [apply IH; auto; lia|].
    destruct (c =? HASH); [apply IH; auto; lia|].
    destruct (c =? BACKSLASH); [|auto].
    destruct t as [|d t']; [auto|]. cbn in H. inversion H3; subst.
    destruct (d =? LF); [apply IH; auto; lia|].
    destruct (d =? CR); [|auto]. destruct t' as [|e t'']; [auto|]. cbn in H. inversion H5; subst.
    destruct (e =? LF); [apply IH; auto; lia|auto].
Qed.

(** Progress: every token except LEX_EOF consumes input, and LEX_EOF comes at the end. *)
Lemma token_progress toks s : chars_ok s ->
  (fst (fst (token toks s)) = LEX_EOF <-> s = []) /\
  (s <> [] -> (length (snd (token toks s)) < length s)%nat) /\
  (s = [] -> snd (token toks s) = []).
Proof.
  intros CO. destruct s as [|c t]; cbn [token].
  { repeat split; auto; congruence. }
  inversion CO as [|? ? C1 C2]; subst.
  assert (G : forall k x r, k <> LEX_EOF -> (length r < length (c :: t))%nat ->
    (fst (fst (k, x, r)) = LEX_EOF <-> c :: t = []) /\
    (c :: t <> [] -> (length (snd (k : Z, x : list Z, r : list Z)) < length (c :: t))%nat) /\
    (c :: t = [] -> snd (k, x, r) = [])).
  { intros k x r K L. cbn [fst snd]. repeat split; try congruence; auto. }
  destruct (c =? CR).
  { destruct t as [|d t']; [apply G; [discriminate|cbn; lia]|].
    destruct (d =? LF); apply G; try discriminate; cbn; lia. }
  destruct (c =? LF); [apply G; [discriminate|cbn; lia]|].
  destruct ((c =? DQUOTE) || (c =? QUOTE)).
  { pose proof (span_length (fun d => negb ((d =? c) || is_eol d)) t) as SL.
    destruct (span _ t) as [w r]. cbn [fst snd] in SL. destruct r as [|d r'].
    - apply G; [discriminate|cbn; lia].
    - destruct (d =? c); apply G; try discriminate; cbn in *; lia. }
  destruct (isalpha c || (c =? UNDERSCORE)).
  { pose proof (span_length wordc t) as SL. destruct (span _ t) as [w r]. cbn [fst snd] in SL.
    apply G; [|cbn; lia]. pose proof (keyword_ge (cut (c :: w)) toks). unfold LEX_STR, LEX_EOF in *. lia. }
  destruct (_ || _).
  { pose proof (span_length isdigit t) as SL. destruct (span _ t) as [w r]. cbn [fst snd] in SL.
    apply G; [discriminate|cbn; lia]. }
  apply G; [apply schar_nz; auto|cbn; lia].
Qed.

Lemma next_progress toks s : chars_ok s ->
  (fst (fst (next_token toks s)) = LEX_EOF -> snd (next_token toks s) = []) /\
  (fst (fst (next_token toks s)) <> LEX_EOF -> (length (snd (next_token toks s)) < length s)%nat).
Proof.
  intros CO. unfold next_token. pose proof (skip_chars false s CO) as CS. pose proof (skip_len false s).
  destruct (token_progress toks _ CS) as (A & B & C). split.
  - intros E. apply C, A, E.
  - intros E. assert (skip false s <> []) by (intros X; apply E, A, X). specialize (B H0). lia.
Qed.


(** The rest of the text is part of the text. *)
Lemma skip_forall (P : Z -> Prop) cm s : Forall P s -> Forall P (skip cm s).
Proof.
  revert cm. assert (G : forall n s, (length s <= n)%nat -> Forall P s -> forall cm, Forall P (skip cm s)); [|intros; eapply G; eauto].
  induction n as [|n IH]; intros [|c t] H CO cm; cbn in H; try lia; cbn [skip]; auto.
  inversion CO; subst.
  destruct cm.
  - destruct (is_eol c); [auto|]. apply IH; auto; lia.
  - destruct (blank c); [apply IH; auto; lia|].
    destruct (c =? HASH); [apply IH; auto; lia|].
    destruct (c =? BACKSLASH); [|auto].
    destruct t as [|d t']; [auto|]. cbn in H. inversion H3; subst.
    destruct (d =? LF); [apply IH; auto; lia|].
    destruct (d =? CR); [|auto]. destruct t' as [|e t'']; [auto|]. cbn in H. inversion H5; subst.
    destruct (e =? LF); [apply IH; auto; lia|auto].
Qed.

Lemma span_forall (P : Z -> Prop) f s : Forall P s -> Forall P (snd (span f s)).
Proof. intros H. rewrite <- (span_app f s) in H. apply Forall_app in H. apply H. Qed.

Lemma next_forall (P : Z -> Prop) toks s : Forall P s -> Forall P (snd (next_token toks s)).
Proof.
  intros H. apply (skip_forall P false) in H. unfold next_token. revert H. generalize (skip false s). clear s.
  intros [|c t] H; cbn [token]; [constructor|]. inversion H; subst.
  destruct (c =? CR).
  { destruct t as [|d t']; cbn [snd]; auto. destruct (d =? LF); cbn [snd]; auto. inversion H3; auto. }
  destruct (c =? LF); [auto|].
  destruct ((c =? DQUOTE) || (c =? QUOTE)).
  { pose proof (span_forall P (fun d => negb ((d =? c) || is_eol d)) t H3) as Q. destruct (span _ t) as [w r].
    cbn [snd] in Q. destruct r as [|d r']; [constructor|]. destruct (d =? c); [inversion Q|]; auto. }
  destruct (isalpha c || (c =? UNDERSCORE)).
  { pose proof (span_forall P wordc t H3) as Q. destruct (span _ t) as [w r]. exact Q. }
  destruct (_ || _); [|exact H3].
  pose proof (span_forall P isdigit t H3) as Q. destruct (span _ t) as [w r]. exact Q.
Qed.

Lemma next_text toks s : (length (snd (fst (next_token toks s))) < LEX_MAX_STR)%nat.
Proof.
  pose proof lmax2 as L2. unfold next_token. generalize (skip false s). clear s. intros s.
  assert (CU : forall x, (length (cut x) < LEX_MAX_STR)%nat) by (intros; unfold cut; rewrite firstn_length; lia).
  destruct s as [|c t]; cbn [token]; [cbn; lia|].
  destruct (c =? CR); [destruct t as [|d t']; [cbn; lia|destruct (d =? LF); cbn; lia]|].
  destruct (c =? LF); [cbn; lia|].
  destruct ((c =? DQUOTE) || (c =? QUOTE)).
  { destruct (span _ t) as [w [|d r]]; [cbn; lia|]. destruct (d =? c); [apply CU|cbn; lia]. }
  destruct (isalpha c || (c =? UNDERSCORE)); [destruct (span _ t); apply CU|].
  destruct (_ || _); [destruct (span _ t); apply CU|cbn; lia].
Qed.

Lemma lex_all_ok iso toks : sorted_table toks -> forall n l r,
  is_at l r -> iso_ok iso r -> x_toks l = toks ->
  exists l' rest, lex_all n iso l = Ok (tokens n toks r, l') /\ is_at l' rest /\ iso_ok iso rest /\ x_toks l' = toks /\
    (x_line l' + (if x_eol l' then 1 else 0) + line_ends rest = x_line l + (if x_eol l then 1 else 0) + line_ends r)%nat /\
    (n <> O -> x_eol l' = (fst (last (tokens n toks r) (0, [])) =? LEX_EOL)) /\
    (exists used, r = used ++ rest) /\
    ((length r < n)%nat -> rest = []).
Proof.
  intros SO. induction n as [|n IH]; intros l r AT IO TK; cbn [lex_all tokens].
  { exists l, r. repeat split; auto; try lia; try (apply AT). exists []. reflexivity. }
  rewrite <- TK in SO. destruct (next_ok iso l r AT IO SO) as (l1 & E & A1 & TX & PV & TK1 & BF & EO & LN). rewrite E. cbn [bind fst snd].
  rewrite TX. rewrite TK in *.
  pose proof (next_progress toks r (proj1 AT)) as [PR1 PR2].
  assert (IO1 : iso_ok iso (snd (next_token toks r))) by (intros I; apply next_forall, IO, I).
  assert (SF1 : exists used, r = used ++ snd (next_token toks r)).
  { clear - AT. unfold next_token.
    assert (SK : forall n s, (length s <= n)%nat -> forall cm, exists used, s = used ++ skip cm s).
    { induction n as [|n IH]; intros [|c t] H cm; cbn in H; try lia; cbn [skip]; try (exists []; reflexivity).
      destruct cm.
      - destruct (is_eol c); [exists []; reflexivity|]. destruct (IH t ltac:(lia) true) as [u E]. exists (c :: u). cbn. f_equal. exact E.
      - destruct (blank c); [destruct (IH t ltac:(lia) false) as [u E]; exists (c :: u); cbn; f_equal; exact E|].
        destruct (c =? HASH); [destruct (IH t ltac:(lia) true) as [u E]; exists (c :: u); cbn; f_equal; exact E|].
        destruct (c =? BACKSLASH); [|exists []; reflexivity].
        destruct t as [|d t']; [exists []; reflexivity|]. cbn in H.
        destruct (d =? LF); [destruct (IH t' ltac:(lia) false) as [u E]; exists (c :: d :: u); cbn; do 2 f_equal; exact E|].
        destruct (d =? CR); [|exists []; reflexivity]. destruct t' as [|e t'']; [exists []; reflexivity|]. cbn in H.
        destruct (e =? LF); [|exists []; reflexivity].
        destruct (IH t'' ltac:(lia) false) as [u E]; exists (c :: d :: e :: u); cbn; do 3 f_equal; exact E. }
    destruct (SK _ r (le_n _) false) as [u1 E1]. revert E1. generalize (skip false r). intros s E1.
    assert (TS : exists u, s = u ++ snd (token toks s)).
    { clear. destruct s as [|c t]; cbn [token]; [exists []; reflexivity|].
      destruct (c =? CR).
      { destruct t as [|d t']; [exists [c]; reflexivity|]. destruct (d =? LF); [exists [c; d]|exists [c]]; reflexivity. }
      destruct (c =? LF); [exists [c]; reflexivity|].
      destruct ((c =? DQUOTE) || (c =? QUOTE)).
      { pose proof (span_app (fun d => negb ((d =? c) || is_eol d)) t) as Q. destruct (span _ t) as [w rr].
        cbn [fst snd] in Q. destruct rr as [|d r']; [exists (c :: t); rewrite app_nil_r; reflexivity|].
        destruct (d =? c); cbn [snd]; [exists (c :: w ++ [d])|exists (c :: w)]; cbn; rewrite <- Q, <- ?app_assoc; reflexivity. }
      destruct (isalpha c || (c =? UNDERSCORE)).
      { pose proof (span_app wordc t) as Q. destruct (span _ t) as [w rr]. exists (c :: w). cbn. f_equal. symmetry. exact Q. }
      destruct (_ || _); [|exists [c]; reflexivity].
      pose proof (span_app isdigit t) as Q. destruct (span _ t) as [w rr]. exists (c :: w). cbn. f_equal. symmetry. exact Q. }
    destruct TS as [u2 E2]. exists (u1 ++ u2). rewrite <- app_assoc, <- E2. exact E1. }
  destruct (next_token toks r) as [[k x] r1] eqn:NT. cbn [fst snd] in *.
  destruct (Z.eqb_spec k LEX_EOF) as [KE|KE].
  { exists l1, r1. repeat split; auto; try apply A1. }
  destruct (IH l1 r1 A1 IO1 TK1) as (l' & rest & E2 & A2 & I2 & T2 & L2 & EO2 & (u2 & SF2) & FN).
  rewrite E2. cbn [bind fst snd].
  exists l', rest. repeat split; auto; try apply A2.
  - lia.
  - intros _. destruct n as [|n].
    + cbn in E2. injection E2 as <-. cbn [tokens last fst]. exact EO.
    + rewrite EO2 by lia. cbn [tokens]. destruct (next_token toks r1) as [[k1 x1] r2]. reflexivity.
  - destruct SF1 as (u1 & SF1). exists (u1 ++ u2). rewrite <- app_assoc, <- SF2. exact SF1.
  - intros LN2. apply FN. specialize (PR2 KE). lia.
Qed.

Lemma tokens_text toks n : forall s, Forall (fun p => (length (snd p) < LEX_MAX_STR)%nat) (tokens n toks s).
Proof.
  induction n as [|n IH]; intros s; cbn [tokens]; [constructor|].
  pose proof (next_text toks s) as T. destruct (next_token toks s) as [[k x] r]. constructor; [exact T|].
  destruct (k =? LEX_EOF); [constructor|apply IH].
Qed.

(** Exactly the last token is LEX_EOF, and there are at most as many others as characters. *)
Lemma tokens_end toks n : forall s, chars_ok s -> (length s < n)%nat ->
  exists ts, tokens n toks s = ts ++ [(LEX_EOF, [])] /\ Forall (fun p => fst p <> LEX_EOF) ts /\
    (length ts <= length s)%nat.
Proof.
  induction n as [|n IH]; intros s CO L; [lia|]. cbn [tokens].
  pose proof (next_progress toks s CO) as [P1 P2]. pose proof (next_forall char_ok toks s CO) as CO1.
  assert (X : fst (fst (next_token toks s)) = LEX_EOF -> snd (fst (next_token toks s)) = []).
  { unfold next_token. pose proof (skip_chars false s CO) as CS. destruct (token_progress toks _ CS) as (A & _ & _).
    intros E. apply A in E. rewrite E. reflexivity. }
  destruct (next_token toks s) as [[k x] r]. cbn [fst snd] in *.
  destruct (Z.eqb_spec k LEX_EOF) as [E|E].
  - exists []. rewrite E, X by auto. cbn. split; [reflexivity|]. split; [constructor|lia].
  - specialize (P2 E). destruct (IH r CO1 ltac:(lia)) as (ts & -> & F & LT).
    exists ((k, x) :: ts). split; [reflexivity|]. split; [constructor; auto|]. cbn. lia.
Qed.

Lemma at_create s pst toks : chars_ok s -> is_at (lex_create (s ++ NUL :: pst) toks) s.
Proof. intros H. split; auto. exists [], pst. auto. Qed.

(** ** Encoding *)
Definition encb (c : Z) : Z := if (c =? QUOTE) || (c =? DQUOTE) then Z.lor c 128 else c.

Lemma enc_char c : 1 <= c < 128 -> char_ok (encb c) /\ Z.land (encb c) 127 = c /\ encb c <> QUOTE /\ encb c <> DQUOTE.
Proof.
  intros H. unfold encb.
  destruct (Z.eqb_spec c QUOTE) as [->|N1]; [repeat split; vm_compute; congruence|].
  destruct (Z.eqb_spec c DQUOTE) as [->|N2]; [repeat split; vm_compute; congruence|]. cbn [orb].
  split; [unfold char_ok; lia|]. split; [|auto].
  change 127 with (Z.ones 7). rewrite Z.land_ones by lia. apply Z.mod_small. change (2 ^ 7) with 128. lia.
Qed.

Lemma enc_noeol c : is_eol c = false -> is_eol (encb c) = false.
Proof.
  intros H. unfold encb. destruct (Z.eqb_spec c QUOTE) as [->|N1]; [reflexivity|].
  destruct (Z.eqb_spec c DQUOTE) as [->|N2]; [reflexivity|]. exact H.
Qed.

Lemma encode_ok dbg s : Forall (fun c => c < 128) s -> lex_encode dbg s = Ok (map encb s).
Proof.
  intros H. unfold lex_encode. assert (forallb (fun c => c <? 128) s = true) as ->.
  { apply forallb_forall. intros x Hx. rewrite Forall_forall in H. apply Z.ltb_lt. auto. }
  destruct dbg; reflexivity.
Qed.

Lemma decode_id s : Forall (fun c => 1 <= c < 128) s -> lex_decode s = s.
Proof.
  intros H. unfold lex_decode. assert (map (fun c => Z.land c 127) s = s) as ->.
  { induction H; [reflexivity|]. cbn. f_equal; auto. change 127 with (Z.ones 7). rewrite Z.land_ones by lia.
    apply Z.mod_small. change (2 ^ 7) with 128. lia. }
  induction H; [reflexivity|]. cbn. destruct (Z.eqb_spec x NUL); [unfold NUL in *; lia|]. f_equal. auto.
Qed.

Lemma decode_encode s : Forall (fun c => 1 <= c < 128) s -> lex_decode (map encb s) = s.
Proof.
  intros H. unfold lex_decode. rewrite map_map. induction H as [|c t R F IH]; [reflexivity|].
  cbn [map until_nul]. destruct (enc_char c R) as (_ & -> & _).
  destruct (Z.eqb_spec c NUL); [unfold NUL in *; lia|]. f_equal. exact IH.
Qed.

(** A quoted, encoded string is one token. *)
Lemma token_quoted toks q s rest : (q = DQUOTE \/ q = QUOTE) ->
  Forall (fun c => 1 <= c < 128) s -> noeol s -> (length s < LEX_MAX_STR)%nat ->
  token toks (q :: map encb s ++ q :: rest) = (LEX_STR, map encb s, rest).
Proof.
  intros Q R NE LN. cbn [token].
  assert ((q =? CR) = false /\ (q =? LF) = false /\ (q =? DQUOTE) || (q =? QUOTE) = true) as (-> & -> & ->) by (destruct Q as [-> | ->]; auto).
  assert (SP : span (fun d => negb ((d =? q) || is_eol d)) (map encb s ++ q :: rest) = (map encb s, q :: rest)).
  { clear LN. induction R as [|c t RC R IH]; cbn [map app span].
    - rewrite Z.eqb_refl. reflexivity.
    - inversion NE; subst. rewrite enc_noeol by auto. destruct (enc_char c RC) as (_ & _ & E1 & E2).
      destruct (Z.eqb_spec (encb c) q); [destruct Q; congruence|]. cbn [orb negb]. rewrite IH by auto. reflexivity. }
  rewrite SP. rewrite Z.eqb_refl. unfold cut. rewrite firstn_all2 by (rewrite map_length; lia). reflexivity.
Qed.
