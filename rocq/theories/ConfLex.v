(** The tokens of a file are those of its lines. *)
From Coq Require Import String.
From Verif Require Import Base BaseProof Chars Fmt LexModel FnameModel OptModel LexSpec LexProof ConfModel ConfSpec.
Local Open Scope Z_scope.
Local Open Scope list_scope.

Lemma ends_line_suffix u r : ends_line (u ++ r) -> r <> [] -> ends_line r.
Proof.
  intros (p & E & N) R. destruct (exists_last R) as (p' & c & ->). rewrite app_assoc in E.
  apply app_inj_tail in E. destruct E as [<- ->]. exists p'. split; [reflexivity|].
  intros q. destruct (N (u ++ q)) as [N1 N2]. rewrite <- app_assoc in N1, N2. split; intros ->; auto.
Qed.
Lemma ends_line_nonempty a : ends_line a -> a <> [].
Proof. intros (p & -> & _). destruct p; discriminate. Qed.
Lemma ends_line_in a : ends_line a -> In LF a.
Proof. intros (p & -> & _). apply in_or_app. right. left. reflexivity. Qed.
Lemma ends_line_cons c t : ends_line (c :: t) -> c <> LF -> ends_line t.
Proof.
  intros H N. apply (ends_line_suffix [c] t); auto. intros ->. destruct H as (p & E & _).
  destruct p as [|x [|y p]]; cbn in E; injection E; intros; try congruence.
Qed.
Lemma ends_line_bs t : ends_line (BACKSLASH :: LF :: t) -> ends_line t.
Proof.
  intros H. apply (ends_line_suffix [BACKSLASH; LF] t); auto. intros ->. destruct H as (p & E & N).
  destruct (N []) as [N1 _]. apply N1. destruct p as [|x [|y p]]; cbn in E; [discriminate| |].
  - injection E as ->. reflexivity.
  - injection E. intros. destruct p; discriminate.
Qed.
Lemma ends_line_bscr t : ends_line (BACKSLASH :: CR :: LF :: t) -> ends_line t.
Proof.
  intros H. apply (ends_line_suffix [BACKSLASH; CR; LF] t); auto. intros ->. destruct H as (p & E & N).
  destruct (N []) as [_ N1]. apply N1. destruct p as [|x [|y [|z p]]]; cbn in E; try discriminate.
  - injection E as -> ->. reflexivity.
  - injection E. intros. destruct p; discriminate.
Qed.

Lemma blank_lf c : blank c = true -> c <> LF.
Proof. intros H ->. discriminate. Qed.

Lemma skip_line_end b : forall n a cm, (length a <= n)%nat -> ends_line a ->
  skip cm (a ++ b) = skip cm a ++ b /\ skip cm a <> [].
Proof.
  induction n as [|n IH]; intros [|c t] cm H A; cbn [length] in H; try lia.
  1,2: apply ends_line_nonempty in A; congruence.
  cbn [skip app]. destruct cm.
  { destruct (is_eol c) eqn:EC; [split; [reflexivity|discriminate]|].
    apply IH; [lia|]. eapply ends_line_cons; eauto. intros ->. discriminate. }
  destruct (blank c) eqn:BC; [apply IH; [lia|eapply ends_line_cons; eauto using blank_lf]|].
  destruct (Z.eqb_spec c HASH) as [->|NH]; [apply IH; [lia|eapply ends_line_cons; eauto; discriminate]|].
  destruct (Z.eqb_spec c BACKSLASH) as [->|NB]; [|split; [reflexivity|discriminate]].
  destruct t as [|d t'].
  { exfalso. apply ends_line_in in A. destruct A as [A|[]]. discriminate. }
  cbn [app]. cbn [length] in H. destruct (Z.eqb_spec d LF) as [->|ND].
  { apply IH; [lia|]. apply ends_line_bs; auto. }
  destruct (Z.eqb_spec d CR) as [->|NC]; [|split; [reflexivity|discriminate]].
  destruct t' as [|e t''].
  { exfalso. apply ends_line_in in A. destruct A as [A|[A|[]]]; discriminate. }
  cbn [app]. cbn [length] in H. destruct (Z.eqb_spec e LF) as [->|NE]; [|split; [reflexivity|discriminate]].
  apply IH; [lia|]. apply ends_line_bscr; auto.
Qed.

Lemma span_stop f b : f LF = false -> forall t, In LF t ->
  span f (t ++ b) = (fst (span f t), snd (span f t) ++ b) /\ snd (span f t) <> [].
Proof.
  intros F. induction t as [|c t IH]; intros I; [destruct I|]. cbn [span app].
  destruct (f c) eqn:FC; [|cbn; split; [reflexivity|discriminate]].
  destruct I as [->|I]; [congruence|]. destruct (IH I) as [E N]. rewrite E. cbn [fst snd]. auto.
Qed.

Lemma token_line_end toks a b : ends_line a ->
  token toks (a ++ b) = (fst (token toks a), snd (token toks a) ++ b).
Proof.
  intros A. destruct a as [|c t]; [apply ends_line_nonempty in A; congruence|]. cbn [app token].
  destruct (Z.eqb_spec c CR) as [->|NC].
  { apply ends_line_cons in A; [|discriminate]. destruct t as [|d t']; [apply ends_line_nonempty in A; congruence|].
    cbn [app]. destruct (d =? LF); reflexivity. }
  destruct (Z.eqb_spec c LF) as [->|NL]; [reflexivity|]. apply ends_line_cons in A; [|auto].
  pose proof (ends_line_in _ A) as IL.
  destruct ((c =? DQUOTE) || (c =? QUOTE)).
  { destruct (span_stop (fun d => negb ((d =? c) || is_eol d)) b) with (t := t) as [E N]; auto.
    { destruct (LF =? c); reflexivity. }
    rewrite E. destruct (span _ t) as [w r]. cbn [fst snd] in *. destruct r as [|d r]; [congruence|]. cbn [app].
    destruct (d =? c); reflexivity. }
  destruct (isalpha c || (c =? UNDERSCORE)).
  { destruct (span_stop wordc b eq_refl t IL) as [E N]. rewrite E. destruct (span _ t) as [w r]. reflexivity. }
  assert (HD : (match t ++ b with d :: _ => isdigit d | [] => false end) = (match t with d :: _ => isdigit d | [] => false end)).
  { destruct t; [apply ends_line_nonempty in A; congruence|reflexivity]. }
  rewrite HD. destruct (_ || _); [|reflexivity].
  destruct (span_stop isdigit b eq_refl t IL) as [E N]. rewrite E. destruct (span _ t) as [w r]. reflexivity.
Qed.

(** What is left of a text is a final part of it. *)
Lemma skip_suffix s : forall n cm, (length s <= n)%nat -> exists u, s = u ++ skip cm s.
Proof.
  intros n. revert s. induction n as [|n IH]; intros [|c t] cm H; cbn [length] in H; try lia; cbn [skip]; try (exists []; reflexivity).
  destruct cm.
  - destruct (is_eol c); [exists []; reflexivity|]. destruct (IH t true ltac:(lia)) as [u E]. exists (c :: u). cbn. f_equal. exact E.
  - destruct (blank c); [destruct (IH t false ltac:(lia)) as [u E]; exists (c :: u); cbn; f_equal; exact E|].
    destruct (c =? HASH); [destruct (IH t true ltac:(lia)) as [u E]; exists (c :: u); cbn; f_equal; exact E|].
    destruct (c =? BACKSLASH); [|exists []; reflexivity].
    destruct t as [|d t']; [exists []; reflexivity|]. cbn in H.
    destruct (d =? LF); [destruct (IH t' false ltac:(lia)) as [u E]; exists (c :: d :: u); cbn; do 2 f_equal; exact E|].
    destruct (d =? CR); [|exists []; reflexivity]. destruct t' as [|e t'']; [exists []; reflexivity|]. cbn in H.
    destruct (e =? LF); [|exists []; reflexivity].
    destruct (IH t'' false ltac:(lia)) as [u E]; exists (c :: d :: e :: u); cbn; do 3 f_equal; exact E.
Qed.
Lemma token_suffix toks s : exists u, s = u ++ snd (token toks s).
Proof.
  destruct s as [|c t]; cbn [token]; [exists []; reflexivity|].
  destruct (c =? CR).
  { destruct t as [|d t']; [exists [c]; reflexivity|]. destruct (d =? LF); [exists [c; d]|exists [c]]; reflexivity. }
  destruct (c =? LF); [exists [c]; reflexivity|].
  destruct ((c =? DQUOTE) || (c =? QUOTE)).
  { pose proof (span_app (fun d => negb ((d =? c) || is_eol d)) t) as Q. destruct (span _ t) as [w rr].
    cbn [fst snd] in Q. destruct rr as [|d r']; [exists (c :: t); rewrite app_nil_r; reflexivity|].
    destruct (d =? c); cbn [snd]; [exists (c :: w ++ [d])|exists (c :: w)]; cbn; rewrite <- Q, <- ?app_assoc; reflexivity. }
  destruct (isalpha c || (c =? UNDERSCORE)).
  { pose proof (span_app wordc t) as Q. destruct (span _ t) as [w rr]. exists (c :: w). cbn. f_equal. symmetry. exact Q. }
  destruct (_ || _); [|exists [c]; reflexivity].
  pose proof (span_app isdigit t) as Q. destruct (span _ t) as [w rr]. exists (c :: w). cbn. f_equal. symmetry. exact Q.
Qed.

Lemma next_line_end toks a b : ends_line a ->
  next_token toks (a ++ b) = (fst (next_token toks a), snd (next_token toks a) ++ b) /\
  (snd (next_token toks a) = [] \/ ends_line (snd (next_token toks a))).
Proof.
  intros A. unfold next_token. destruct (skip_line_end b (length a) a false (le_n _) A) as [E N]. rewrite E.
  destruct (skip_suffix a (length a) false (le_n _)) as [u EU].
  assert (A' : ends_line (skip false a)) by (rewrite EU in A; apply ends_line_suffix in A; auto).
  split; [apply token_line_end; auto|].
  destruct (token_suffix toks (skip false a)) as [u' EU']. destruct (snd (token toks (skip false a))) eqn:ES; [auto|].
  right. rewrite EU' in A'. apply ends_line_suffix in A'; [auto|discriminate].
Qed.

(** The number of rounds does not matter. *)
Lemma tokens_fuel toks : forall n m s, chars_ok s -> (length s < n)%nat -> (length s < m)%nat -> tokens n toks s = tokens m toks s.
Proof.
  induction n as [|n IH]; intros [|m] s C N M; try lia. cbn [tokens].
  pose proof (next_progress toks s C) as [_ P]. pose proof (next_forall char_ok toks s C) as C1.
  destruct (next_token toks s) as [[k x] r]. cbn [fst snd] in *. f_equal.
  destruct (Z.eqb_spec k LEX_EOF) as [->|NK]; [reflexivity|]. specialize (P NK). apply IH; auto; lia.
Qed.

Lemma tokens_lines toks b : chars_ok b -> forall n a, (length a < n)%nat -> chars_ok a -> a = [] \/ ends_line a ->
  exists ts, tokens n toks a = ts ++ [(LEX_EOF, [])] /\ Forall (fun p => fst p <> LEX_EOF) ts /\
    tokens (S (length (a ++ b))) toks (a ++ b) = ts ++ tokens (S (length b)) toks b /\
    (a = [] \/ exists us x, ts = us ++ [(LEX_EOL, x)]).
Proof.
  intros CB. induction n as [|n IH]; intros a L CA A; [lia|]. destruct A as [->|A].
  { exists []. cbn [app]. split; [cbn [tokens]; reflexivity|]. auto. }
  destruct (next_line_end toks a b A) as [E R]. change (tokens (S n) toks a) with
    (let '(k, x, r) := next_token toks a in (k, x) :: (if k =? LEX_EOF then [] else tokens n toks r)).
  change (tokens (S (length (a ++ b))) toks (a ++ b)) with
    (let '(k, x, r) := next_token toks (a ++ b) in (k, x) :: (if k =? LEX_EOF then [] else tokens (length (a ++ b)) toks r)).
  rewrite E. pose proof (next_progress toks a CA) as [_ P]. pose proof (next_forall char_ok toks a CA) as C1.
  assert (NE : fst (fst (next_token toks a)) <> LEX_EOF).
  { unfold next_token. destruct (skip_line_end b (length a) a false (le_n _) A) as [_ N].
    intros X. apply token_progress in X; auto. apply skip_chars; auto. }
  assert (LST : snd (next_token toks a) = [] -> fst (fst (next_token toks a)) = LEX_EOL).
  { clear -A NE CA. unfold next_token in *. destruct (skip_suffix a (length a) false (le_n _)) as [u EU].
    destruct (skip_line_end [] (length a) a false (le_n _) A) as [_ N].
    assert (A' : ends_line (skip false a)) by (rewrite EU in A; apply ends_line_suffix in A; auto).
    clear -A' . revert A'. generalize (skip false a). clear a. intros a A.
    destruct a as [|c t]; [apply ends_line_nonempty in A; congruence|]. cbn [token].
    destruct (Z.eqb_spec c CR) as [->|NC].
    { destruct t as [|d t]; [reflexivity|]. destruct (d =? LF); reflexivity. }
    destruct (Z.eqb_spec c LF) as [->|NL]; [reflexivity|]. apply ends_line_cons in A; [|auto].
    pose proof (ends_line_in _ A) as IL.
    destruct ((c =? DQUOTE) || (c =? QUOTE)).
    { destruct (span_stop (fun d => negb ((d =? c) || is_eol d)) []) with (t := t) as [E N]; auto.
      { destruct (LF =? c); reflexivity. }
      pose proof (span_app (fun d => negb ((d =? c) || is_eol d)) t) as SA.
      pose proof (span_all (fun d => negb ((d =? c) || is_eol d)) t) as SF.
      destruct (span _ t) as [w r]. cbn [fst snd] in *. destruct r as [|d r]; [congruence|].
      destruct (Z.eqb_spec d c) as [->|DC]; cbn [fst snd]; [|discriminate]. intros ->. exfalso.
      rewrite <- SA in A. destruct A as (p & EP & _). apply app_inj_tail in EP. destruct EP as [_ ->].
      apply NL. reflexivity. }
    destruct (isalpha c || (c =? UNDERSCORE)).
    { destruct (span_stop wordc [] eq_refl t IL) as [E N]. destruct (span _ t) as [w r]. cbn [fst snd] in *. congruence. }
    destruct (_ || _).
    { destruct (span_stop isdigit [] eq_refl t IL) as [E N]. destruct (span _ t) as [w r]. cbn [fst snd] in *. congruence. }
    cbn [snd]. intros ->. apply ends_line_nonempty in A. congruence. }
  destruct (next_token toks a) as [[k x] r]. cbn [fst snd] in *. specialize (P NE).
  destruct (Z.eqb_spec k LEX_EOF) as [X|_]; [congruence|].
  destruct (IH r ltac:(lia) C1 R) as (ts & E1 & F & E2 & LE). exists ((k, x) :: ts).
  split; [cbn; f_equal; exact E1|]. split; [constructor; auto|]. split.
  - cbn [app]. f_equal. rewrite <- E2. apply tokens_fuel; rewrite ?app_length; try lia. apply Forall_app. auto.
  - right. destruct LE as [->|(us & x' & ->)].
    + exists [], x. rewrite (LST eq_refl). destruct n; [cbn in L; lia|]. cbn in E1. destruct ts as [|? ts]; [reflexivity|].
      injection E1. intros E0. destruct ts; discriminate.
    + exists ((k, x) :: us), x'. reflexivity.
Qed.
