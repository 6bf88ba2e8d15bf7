(** Proofs for StrProps. *)
From Verif Require Import Base BaseProof Mem Chars Fmt LexModel LexSpec LexProof StrModel StrSpec.
Local Open Scope Z_scope.

Lemma nz c : char_ok c -> (c =? NUL) = false.
Proof. unfold char_ok, NUL. intros. apply Z.eqb_neq. lia. Qed.

Lemma find_nul_ok s : forall n sp junk, chars_ok s -> (length s < n)%nat ->
  find_nul n (sp ++ s ++ NUL :: junk) (length sp) = Ok (length sp + length s)%nat.
Proof.
  induction s as [|c s IH]; intros n sp junk C L; (destruct n; [cbn in L; lia|]); cbn [find_nul].
  - rewrite (get_eq sp NUL junk) by auto. cbn. f_equal. lia.
  - inversion C; subst. rewrite (get_eq sp c (s ++ NUL :: junk)) by auto. cbn [bind]. rewrite nz by auto.
    specialize (IH n (sp ++ [c]) junk H2). rewrite <- app_assoc in IH. cbn [app] in IH.
    replace (length (sp ++ [c])) with (S (length sp)) in IH by (rewrite app_length; cbn; lia).
    cbn [app]. rewrite IH by (cbn in L; lia). f_equal. cbn [length]. lia.
Qed.

Lemma strlen_ok b s : holds b s -> strlen b = Ok (length s).
Proof.
  intros (C & junk & ->). unfold strlen. apply (find_nul_ok s _ [] junk C). rewrite app_length. cbn. lia.
Qed.

Lemma lcpy_ok n : forall pre old post sp s junk, chars_ok s ->
  length old = Nat.min n (S (length s)) ->
  lcpy_loop n (pre ++ old ++ post) (length pre) (sp ++ s ++ NUL :: junk) (length sp) =
  if (length s <? n)%nat
  then Ok (pre ++ (s ++ [NUL]) ++ post, (length pre + S (length s))%nat, (length sp + S (length s))%nat, (n - length s)%nat)
  else Ok (pre ++ firstn n s ++ post, (length pre + n)%nat, (length sp + n)%nat, O).
Proof.
  induction n as [|n IH]; intros pre old post sp s junk C L.
  - cbn in L. destruct old; [|discriminate]. cbn. rewrite !Nat.add_0_r. reflexivity.
  - cbn [lcpy_loop]. destruct old as [|o old]; [cbn in L; lia|]. cbn [app] in *.
    destruct s as [|c s].
    + cbn [app length] in *. rewrite (get_eq sp NUL junk) by auto. cbn [bind].
      destruct old; [|cbn in L; lia]. cbn [app].
      rewrite (put_eq pre o post) by auto. cbn [bind]. change (NUL =? NUL) with true. cbv iota.
      change (0 <? S n)%nat with true. cbv iota. do 2 f_equal; [do 2 f_equal; lia].
    + inversion C; subst. cbn [app]. rewrite (get_eq sp c (s ++ NUL :: junk)) by auto. cbn [bind].
      rewrite (put_eq pre o (old ++ post)) by auto. cbn [bind]. rewrite nz by auto.
      specialize (IH (pre ++ [c]) old post (sp ++ [c]) s junk H2).
      rewrite <- !app_assoc in IH. cbn [app] in IH.
      replace (length (sp ++ [c])) with (S (length sp)) in IH by (rewrite app_length; cbn; lia).
      replace (length (pre ++ [c])) with (S (length pre)) in IH by (rewrite app_length; cbn; lia).
      rewrite IH by (cbn in L; lia). cbn [length].
      change (S (length s) <? S n)%nat with (length s <? n)%nat.
      destruct (length s <? n)%nat; cbn [firstn app Nat.sub]; rewrite <- ?app_assoc; cbn [app];
        repeat (f_equal; try lia).
Qed.

(** What strlcpy leaves in [old], the destination. *)
Definition copied (old s : list Z) : list Z :=
  firstn (length old - 1) s ++ NUL :: skipn (S (Nat.min (length s) (length old - 1))) old.

Lemma copied_length old s : (0 < length old)%nat -> length (copied old s) = length old.
Proof. intros H. unfold copied. rewrite app_length, firstn_length. cbn [length]. rewrite skipn_length. lia. Qed.

Lemma strlcpy_ok pre old post src s siz : holds src s -> length old = siz -> (0 < siz)%nat ->
  strlcpy (pre ++ old ++ post) (length pre) src siz = Ok (pre ++ copied old s ++ post, length s).
Proof.
  intros (C & junk & ->) L P. unfold strlcpy, copied.
  set (k := Nat.min (siz - 1) (S (length s))).
  assert (EO : old = firstn k old ++ skipn k old) by (symmetry; apply firstn_skipn).
  pose proof (lcpy_ok (siz - 1) pre (firstn k old) (skipn k old ++ post) [] s junk C) as H.
  cbn [app length] in H. rewrite (app_assoc (firstn k old)), <- EO in H.
  rewrite H by (unfold k; rewrite firstn_length; lia). clear H. rewrite L.
  destruct (Nat.ltb_spec (length s) (siz - 1)).
  - cbn [bind]. destruct (Nat.eqb_spec (siz - 1 - length s) 0); [lia|].
    rewrite (firstn_all2 s) by lia. rewrite <- !app_assoc. cbn [app]. do 3 f_equal; [|lia].
    do 2 f_equal. replace k with (S (Nat.min (length s) (siz - 1))) by (unfold k; lia). reflexivity.
  - cbn [bind]. change (0 =? 0)%nat with true. cbv iota. destruct (Nat.eqb_spec siz 0); [lia|].
    assert (K : k = (siz - 1)%nat) by (unfold k; lia). rewrite K.
    assert (SK : exists o, skipn (siz - 1) old = [o]).
    { assert (LL : length (skipn (siz - 1) old) = 1%nat) by (rewrite skipn_length; lia).
      destruct (skipn (siz - 1) old) as [|o [|? ?]]; cbn in LL; try lia. eauto. }
    destruct SK as [o SK]. rewrite SK. cbn [app].
    rewrite app_assoc. rewrite (put_eq (pre ++ firstn (siz - 1) s) o post)
      by (rewrite app_length, firstn_length; lia).
    cbn [bind].
    assert (FN : find_nul (S (length (s ++ NUL :: junk))) (s ++ NUL :: junk) (siz - 1) = Ok (length s)).
    { rewrite <- (firstn_skipn (siz - 1) s) at 2. rewrite <- app_assoc.
      replace (siz - 1)%nat with (length (firstn (siz - 1) s)) at 3 by (rewrite firstn_length; lia).
      rewrite find_nul_ok.
      - f_equal. rewrite <- app_length, firstn_skipn. reflexivity.
      - apply Forall_forall. intros x Hx. unfold chars_ok in C. rewrite Forall_forall in C. apply C.
        rewrite <- (firstn_skipn (siz - 1) s). apply in_or_app. auto.
      - rewrite skipn_length, app_length. lia. }
    rewrite Nat.add_0_l, FN. cbn [bind]. rewrite <- !app_assoc. cbn [app]. do 4 f_equal.
    rewrite skipn_all2 by lia. reflexivity.
Qed.

Lemma strlcpy_zero dst d src s : holds src s -> strlcpy dst d src 0 = Ok (dst, length s).
Proof.
  intros H. unfold strlcpy. change (0 - 1)%nat with 0%nat. cbn [lcpy_loop bind]. change (0 =? 0)%nat with true. cbv iota.
  cbn [bind]. destruct H as (C & junk & ->).
  pose proof (find_nul_ok s (S (length (s ++ NUL :: junk))) [] junk C) as F. cbn [app length] in F.
  rewrite F by (rewrite app_length; cbn; lia). reflexivity.
Qed.

(** ** strlcat *)
Lemma lcat_end_ok s : forall n pre rest, chars_ok s -> (n <= length s)%nat ->
  lcat_end n (pre ++ s ++ rest) (length pre) = Ok (length pre + n)%nat.
Proof.
  induction s as [|c s IH]; intros n pre rest C L.
  - cbn in L. replace n with 0%nat by lia. cbn. f_equal. lia.
  - destruct n as [|n]; [cbn; f_equal; lia|]. cbn [lcat_end]. inversion C; subst.
    rewrite (get_eq pre c (s ++ rest)) by auto. cbn [bind]. rewrite nz by auto.
    specialize (IH n (pre ++ [c]) rest H2). rewrite <- app_assoc in IH. cbn [app] in IH.
    replace (length (pre ++ [c])) with (S (length pre)) in IH by (rewrite app_length; cbn; lia).
    cbn [app]. rewrite IH by (cbn in L; lia). f_equal. lia.
Qed.
Lemma lcat_end_nul s : forall n pre junk, chars_ok s -> (length s < n)%nat ->
  lcat_end n (pre ++ s ++ NUL :: junk) (length pre) = Ok (length pre + length s)%nat.
Proof.
  induction s as [|c s IH]; intros n pre junk C L; (destruct n; [cbn in L; lia|]); cbn [lcat_end].
  - rewrite (get_eq pre NUL junk) by auto. cbn. f_equal. lia.
  - inversion C; subst. rewrite (get_eq pre c (s ++ NUL :: junk)) by auto. cbn [bind]. rewrite nz by auto.
    specialize (IH n (pre ++ [c]) junk H2). rewrite <- app_assoc in IH. cbn [app] in IH.
    replace (length (pre ++ [c])) with (S (length pre)) in IH by (rewrite app_length; cbn; lia).
    cbn [app]. rewrite IH by (cbn in L; lia). f_equal. cbn [length]. lia.
Qed.

Lemma lcat_loop_ok s : forall k n pre old post sp junk, chars_ok s -> (length s < k)%nat -> (1 <= n)%nat ->
  length old = Nat.min (n - 1) (length s) ->
  lcat_loop k n (pre ++ old ++ post) (length pre) (sp ++ s ++ NUL :: junk) (length sp) =
  Ok (pre ++ firstn (n - 1) s ++ post, (length pre + length old)%nat, (length sp + length s)%nat).
Proof.
  induction s as [|c s IH]; intros k n pre old post sp junk C K N L; (destruct k; [cbn in K; lia|]); cbn [lcat_loop].
  - rewrite (get_eq sp NUL junk) by auto. cbn [bind]. change (NUL =? NUL) with true. cbv iota.
    cbn in L. destruct old; [|cbn in L; lia]. rewrite firstn_nil. cbn. repeat (f_equal; try lia).
  - inversion C; subst. rewrite (get_eq sp c (s ++ NUL :: junk)) by auto. cbn [bind]. rewrite nz by auto.
    cbn [app]. destruct (Nat.eqb_spec n 1) as [->|NE].
    + specialize (IH k 1%nat pre old post (sp ++ [c]) junk H2 ltac:(cbn in K; lia) ltac:(lia)).
      rewrite <- app_assoc in IH. cbn [app] in IH.
      replace (length (sp ++ [c])) with (S (length sp)) in IH by (rewrite app_length; cbn; lia).
      rewrite IH by (cbn in *; lia). cbn [length]. do 2 f_equal. lia.
    + destruct old as [|o old]; [cbn in L; lia|]. cbn [app].
      rewrite (put_eq pre o (old ++ post)) by auto. cbn [bind].
      specialize (IH k (n - 1)%nat (pre ++ [c]) old post (sp ++ [c]) junk H2 ltac:(cbn in K; lia) ltac:(lia)).
      rewrite <- !app_assoc in IH. cbn [app] in IH.
      replace (length (sp ++ [c])) with (S (length sp)) in IH by (rewrite app_length; cbn; lia).
      replace (length (pre ++ [c])) with (S (length pre)) in IH by (rewrite app_length; cbn; lia).
      rewrite IH by (cbn in *; lia). replace (n - 1)%nat with (S (n - 1 - 1))%nat at 2 by lia.
      cbn [firstn app length]. do 2 f_equal; [f_equal; lia|lia].
Qed.

Lemma strlcat_ok a b src s siz : holds src s -> chars_ok a -> length (a ++ NUL :: b) = siz ->
  strlcat (a ++ NUL :: b) src siz =
  Ok (a ++ copied (NUL :: b) s, (length a + length s)%nat).
Proof.
  intros H C L. pose proof H as (CS & junk & ES). unfold strlcat.
  rewrite app_length in L. cbn [length] in L.
  pose proof (lcat_end_nul a siz [] b C ltac:(lia)) as E1. cbn [app length] in E1. rewrite E1. cbn [bind].
  replace (0 + length a)%nat with (length a) by lia.
  destruct (Nat.eqb_spec (siz - length a) 0) as [|NZ]; [lia|].
  set (n := (siz - length a)%nat) in *.
  set (k := Nat.min (n - 1) (length s)).
  assert (EO : NUL :: b = firstn k (NUL :: b) ++ skipn k (NUL :: b)) by (symmetry; apply firstn_skipn).
  pose proof (lcat_loop_ok s (S (length src)) n a (firstn k (NUL :: b)) (skipn k (NUL :: b)) [] junk CS) as E2.
  rewrite <- EO in E2. cbn [app length] in E2. rewrite <- ES in E2.
  rewrite E2; [|rewrite ES, app_length; cbn; lia|lia|unfold k; rewrite firstn_length; cbn [length]; lia].
  cbn [bind].
  assert (LK : length (firstn k (NUL :: b)) = k) by (rewrite firstn_length; cbn [length]; unfold k; lia).
  rewrite LK.
  assert (SK : exists o r, skipn k (NUL :: b) = o :: r /\ r = skipn (S k) (NUL :: b)).
  { destruct (skipn k (NUL :: b)) as [|o r] eqn:SK.
    - assert (length (skipn k (NUL :: b)) = 0%nat) by (rewrite SK; reflexivity). rewrite skipn_length in H0. cbn [length] in H0. unfold k in H0. lia.
    - exists o, r. split; auto. change (S k) with (1 + k)%nat. rewrite <- skipn_skipn_add, SK. reflexivity. }
  destruct SK as (o & r & SK & ER). rewrite SK.
  rewrite app_assoc. rewrite (put_eq (a ++ firstn (n - 1) s) o r) by (rewrite app_length, firstn_length; unfold k; lia).
  cbn [bind]. rewrite <- app_assoc. unfold copied. cbn [length Nat.sub].
  replace (length b - 0)%nat with (n - 1)%nat by lia. rewrite ER. f_equal. 
 match goal with |- (?x, ?y) = (?z, ?w) => assert (y = w) as -> by lia; assert (x = z) as ->; [|reflexivity] end.
  replace (Nat.min (length s) (n - 1)) with k by (unfold k; lia). reflexivity.
Qed.

Lemma strlcat_full dst src s siz a rest : holds src s -> dst = a ++ rest -> chars_ok a -> length a = siz ->
  strlcat dst src siz = Ok (dst, (siz + length s)%nat).
Proof.
  intros H -> C L. unfold strlcat. pose proof (lcat_end_ok a siz [] rest C ltac:(lia)) as E. cbn [app length] in E.
  rewrite E. cbn [bind]. rewrite Nat.add_0_l, Nat.sub_diag. change (0 =? 0)%nat with true. cbv iota. rewrite (strlen_ok src s H). reflexivity.
Qed.

(** ** append_format_string *)
Lemma app_end_ok s : forall n pre junk, chars_ok s -> (length s <= n)%nat ->
  app_end n (pre ++ s ++ NUL :: junk) (length pre) = Ok ((length pre + length s)%nat, (n - length s)%nat).
Proof.
  induction s as [|c s IH]; intros n pre junk C L.
  - destruct n; cbn [app_end]; cbn [app]; rewrite (get_eq pre NUL junk) by auto; cbn; repeat (f_equal; try lia).
  - destruct n as [|n]; [cbn in L; lia|]. cbn [app_end]. inversion C; subst.
    rewrite (get_eq pre c (s ++ NUL :: junk)) by auto. cbn [bind]. rewrite nz by auto.
    specialize (IH n (pre ++ [c]) junk H2). rewrite <- app_assoc in IH. cbn [app] in IH.
    replace (length (pre ++ [c])) with (S (length pre)) in IH by (rewrite app_length; cbn; lia).
    cbn [app]. rewrite IH by (cbn in L; lia). cbn [length]. do 2 f_equal; lia.
Qed.

(** The text in dst[] after an append, and the result. *)
Definition appended (size : nat) (s t : list Z) : list Z := firstn (size - 1) (s ++ t).
Definition append_rv (size : nat) (s t : list Z) : Z :=
  if (length s + 1 <? size)%nat && (length (s ++ t) <? size)%nat then Z.of_nat (length (s ++ t)) else -1.

Lemma append_ok size dst s t : holds dst s -> length dst = size -> chars_ok t ->
  exists dst', append_format_string dst size t = Ok (dst', append_rv size s t) /\
    holds dst' (appended size s t) /\ length dst' = size.
Proof.
  intros (C & junk & ->) L CT. unfold append_format_string, append_rv, appended.
  rewrite app_length in L. cbn [length] in L.
  destruct (Nat.eqb_spec size 0); [lia|].
  pose proof (app_end_ok s size [] junk C ltac:(lia)) as E. cbn [app length] in E. rewrite E. cbn [bind].
  replace (0 + length s)%nat with (length s) by lia.
  destruct (Nat.leb_spec (size - length s) 1) as [F|F].
  - (* full *)
    destruct junk as [|j junk]; [|cbn in L; lia].
    rewrite (put_eq s NUL []) by lia. cbn [bind].
    destruct (Nat.ltb_spec (length s + 1) size); [lia|]. cbn [andb].
    eexists. split; [reflexivity|]. split; [|rewrite app_length; cbn; lia].
    split; [|exists []].
    + replace (size - 1)%nat with (length s) by lia. rewrite firstn_app, Nat.sub_diag, firstn_all. cbn. rewrite app_nil_r. auto.
    + replace (size - 1)%nat with (length s) by lia. rewrite firstn_app, Nat.sub_diag, firstn_all. cbn. rewrite app_nil_r. auto.
  - assert (A : assert_ (size - length s + length s =? size)%nat = Ok tt).
    { unfold assert_. destruct (Nat.eqb_spec (size - length s + length s) size); [reflexivity|lia]. }
    rewrite A. cbn [bind]. unfold vsnprintf.
    destruct (Nat.eqb_spec (size - length s) 0); [lia|].
    set (w := firstn (size - length s - 1) t).
    assert (LW : (length w <= size - length s - 1)%nat) by (unfold w; rewrite firstn_length; lia).
    destruct (split_block (NUL :: junk) 0 (length w + 1)) as (p0 & mid & post & EQ & P0 & M0).
    { cbn [length]. lia. }
    destruct p0; [|discriminate]. cbn [app] in EQ. rewrite EQ.
    rewrite (blit_eq s mid post (w ++ [NUL])) by (auto; rewrite ?app_length; cbn; lia).
    cbn [bind].
    assert (FE : firstn (size - 1) (s ++ t) = s ++ w).
    { rewrite firstn_app, firstn_all2 by lia. f_equal. unfold w. f_equal. lia. }
    rewrite FE.
    assert (H : exists junk', s ++ (w ++ [NUL]) ++ post = (s ++ w) ++ NUL :: junk' /\ length (s ++ (w ++ [NUL]) ++ post) = size).
    { exists post. split; [rewrite <- !app_assoc; reflexivity|].
      assert (LE : length (NUL :: junk) = length (mid ++ post)) by (rewrite EQ; reflexivity).
      cbn [length] in LE. rewrite app_length in LE. rewrite !app_length. cbn [length]. lia. }
    destruct H as (junk' & H1 & H2).
    destruct (Nat.ltb_spec (length s + 1) size); [|lia]. cbn [andb]. rewrite app_length.
    assert (CW : chars_ok (s ++ w)).
    { apply Forall_app. split; auto. apply Forall_forall. intros x Hx. unfold chars_ok in CT. rewrite Forall_forall in CT.
      apply CT. unfold w in Hx. rewrite <- (firstn_skipn (size - length s - 1) t). apply in_or_app. auto. }
    destruct (Nat.leb_spec (size - length s) (length t)), (Nat.ltb_spec (length s + length t) size); try lia;
      (eexists; split; [reflexivity|]; split; [split; [exact CW|exists junk'; exact H1]|exact H2]).
Qed.

(** ** substitute_string *)
Definition sub_is (subo : option (list Z)) (sub : list Z) : Prop :=
  match subo with Some b => holds b sub | None => sub = [] end.

(** [sp] has been read, [pre] written; [len] bytes of dst are left. *)
Definition subst_res (pre : list Z) (len : Z) (want dst' : list Z) (q : nat) (len' : Z) : Prop :=
  (0 < len' -> len' = len - Z.of_nat (length want) /\
     exists post', dst' = pre ++ want ++ post' /\ q = (length pre + length want)%nat /\ length post' = Z.to_nat len') /\
  (len' <= 0 -> len <= Z.of_nat (length want) /\ exists x, dst' = pre ++ firstn (Z.to_nat len - 1) want ++ [x]).

Lemma subst_res_cons a pre len want dst' q len' : 0 < len - Z.of_nat (length a) ->
  subst_res (pre ++ a) (len - Z.of_nat (length a)) want dst' q len' -> subst_res pre len (a ++ want) dst' q len'.
Proof.
  intros P (H1 & H2). split; intros Q.
  - destruct (H1 Q) as (V1 & post' & V2 & V3 & V4). split; [rewrite app_length; lia|].
    exists post'. rewrite V2, <- !app_assoc, V3, !app_length. repeat split; auto. lia.
  - destruct (H2 Q) as (V1 & x & V2). split; [rewrite app_length; lia|].
    exists x. rewrite V2, <- !app_assoc. f_equal. rewrite firstn_app, (firstn_all2 a) by lia.
    rewrite <- app_assoc. do 3 f_equal. lia.
Qed.

Lemma subst_stop k dst src c subo p q len : (0 < k)%nat -> len <= 0 -> (p < length src)%nat ->
  subst_loop k dst src c subo p q len = Ok (dst, q, len).
Proof.
  intros K L P. destruct k; [lia|]. cbn [subst_loop]. destruct (get_lt src P) as [x X]. rewrite X. cbn [bind].
  destruct (Z.leb_spec len 0); [|lia]. rewrite orb_true_r. reflexivity.
Qed.

Lemma subst_loop_ok c subo sub : sub_is subo sub -> c <> NUL ->
  forall n r, (length r <= n)%nat -> forall k pre post sp junk len,
  chars_ok r -> (length r < k)%nat -> 0 < len -> length post = Z.to_nat len ->
  exists dst' q len', subst_loop k (pre ++ post) (sp ++ r ++ NUL :: junk) c subo (length sp) (length pre) len = Ok (dst', q, len') /\
    length dst' = length (pre ++ post) /\ subst_res pre len (replaced c sub r) dst' q len'.
Proof.
  intros HS NC. induction n as [|n IH]; intros r RN k pre post sp junk len C K P L;
    (destruct k as [|k]; [lia|]); (destruct r as [|a t]; [try clear IH|]).
  1,3: cbn [subst_loop app]; rewrite (get_eq sp NUL junk) by auto; cbn [bind]; change (NUL =? NUL) with true; cbn [orb];
    exists (pre ++ post), (length pre), len; split; [reflexivity|]; split; [reflexivity|]; split; [|lia];
    intros _; split; [cbn; lia|]; exists post; cbn; repeat split; auto.
  { cbn in RN; lia. }
  inversion C as [|? ? CA CT]; subst. cbn [subst_loop app]. rewrite (get_eq sp a (t ++ NUL :: junk)) by auto. cbn [bind].
  rewrite nz by auto. destruct (Z.leb_spec len 0); [lia|]. cbn [orb].
  assert (PLAIN : replaced c sub (a :: t) = a :: replaced c sub t ->
    exists dst' q len', (do dst1 <- put (pre ++ post) (length pre) a;
      subst_loop k dst1 (sp ++ a :: t ++ NUL :: junk) c subo (S (length sp)) (S (length pre)) (len - 1)) = Ok (dst', q, len') /\
    length dst' = length (pre ++ post) /\ subst_res pre len (replaced c sub (a :: t)) dst' q len').
  { intros ->. destruct post as [|o post]; [cbn in L; lia|]. rewrite (put_eq pre o post) by auto. cbn [bind].
    destruct (Z.eq_dec len 1) as [->|NE].
    - destruct post; [|cbn in L; lia]. change (1 - 1) with 0.
      rewrite subst_stop; [|cbn in K; lia|lia|rewrite app_length; cbn; rewrite app_length; cbn; lia].
      exists (pre ++ [a]), (S (length pre)), 0. split; [reflexivity|].
      split; [rewrite !app_length; reflexivity|]. split; [lia|]. intros _. split; [cbn [length]; lia|].
      exists a. reflexivity.
    - destruct (IH t ltac:(cbn in RN; lia) k (pre ++ [a]) post (sp ++ [a]) junk (len - 1) CT ltac:(cbn in K; lia) ltac:(lia))
        as (dst' & q & len' & E1 & E2 & E3).
      { cbn in L. lia. }
      rewrite <- !app_assoc in E1. cbn [app] in E1.
      replace (length (sp ++ [a])) with (S (length sp)) in E1 by (rewrite app_length; cbn; lia).
      replace (length (pre ++ [a])) with (S (length pre)) in E1 by (rewrite app_length; cbn; lia).
      exists dst', q, len'. split; [exact E1|].
      split; [rewrite E2, !app_length; cbn; lia|]. apply (subst_res_cons [a]); [cbn; lia|exact E3]. }
  destruct (Z.eqb_spec a PERCENT) as [->|NP].
  2:{ cbn [bind]. apply PLAIN. cbn [replaced]. destruct (Z.eqb_spec a PERCENT); [congruence|reflexivity]. }
  assert (NB : exists b t', t ++ NUL :: junk = b :: t' /\ get (sp ++ PERCENT :: t ++ NUL :: junk) (S (length sp)) = Ok b).
  { destruct (t ++ NUL :: junk) as [|b t'] eqn:EQ; [destruct t; discriminate|]. exists b, t'. split; auto.
    change (sp ++ PERCENT :: b :: t') with (sp ++ [PERCENT] ++ b :: t'). rewrite app_assoc. apply get_eq. rewrite app_length; cbn; lia. }
  destruct NB as (b & t' & EB & GB). rewrite GB. cbn [bind].
  destruct (Z.eqb_spec b c) as [->|NB].
  2:{ apply PLAIN. cbn [replaced]. change (PERCENT =? PERCENT) with true. cbv iota. destruct t as [|b' t'']; [reflexivity|].
      cbn [app] in EB. injection EB as -> _. destruct (Z.eqb_spec b c); [congruence|reflexivity]. }
  clear PLAIN. destruct t as [|b t]; [cbn in EB; congruence|].
  cbn [app] in EB. injection EB as -> _. inversion CT as [|? ? CB CT']; subst.
  cbn [replaced]. change (PERCENT =? PERCENT) with true. rewrite Z.eqb_refl. cbv iota. cbn [app].
  assert (SP : sp ++ PERCENT :: c :: t ++ NUL :: junk = (sp ++ [PERCENT; c]) ++ t ++ NUL :: junk) by (rewrite <- app_assoc; reflexivity).
  assert (LSP : S (S (length sp)) = length (sp ++ [PERCENT; c])) by (rewrite app_length; cbn; lia).
  destruct subo as [subb|].
  - cbn in HS. pose proof (strlcpy_ok pre post [] subb sub (Z.to_nat len) HS L ltac:(lia)) as CP.
    rewrite !app_nil_r in CP. rewrite CP. cbn [bind fst snd].
    destruct (Z_le_gt_dec (len - Z.of_nat (length sub)) 0) as [FULL|ROOM].
    + rewrite subst_stop; [|cbn in K; lia|lia|rewrite app_length; cbn; rewrite app_length; cbn; lia].
      eexists _, _, _. split; [reflexivity|]. split; [rewrite !app_length, copied_length by lia; lia|].
      split; [lia|]. intros _. split; [rewrite app_length; lia|]. exists NUL. unfold copied. rewrite L.
      rewrite skipn_all2 by lia. f_equal. f_equal. rewrite firstn_app. replace (Z.to_nat len - 1 - length sub)%nat with 0%nat by lia.
      cbn. symmetry. apply app_nil_r.
    + assert (EC : copied post sub = sub ++ (NUL :: skipn (S (length sub)) post)).
      { unfold copied. rewrite L, firstn_all2 by lia. do 3 f_equal. lia. }
      rewrite EC, app_assoc, SP, LSP.
      destruct (IH t ltac:(cbn in RN; lia) k (pre ++ sub) (NUL :: skipn (S (length sub)) post) (sp ++ [PERCENT; c]) junk
        (len - Z.of_nat (length sub)) CT' ltac:(cbn in K; lia) ltac:(lia)) as (dst' & q & len' & E1 & E2 & E3).
      { cbn [length]. rewrite skipn_length. lia. }
      rewrite (app_length pre sub) in E1. exists dst', q, len'. split; [exact E1|].
      split; [rewrite E2, !app_length; cbn [length]; rewrite skipn_length; lia|]. apply subst_res_cons; auto. lia.
  - cbn in HS. subst sub. cbn [app]. rewrite SP, LSP.
    destruct (IH t ltac:(cbn in RN; lia) k pre post (sp ++ [PERCENT; c]) junk len CT' ltac:(cbn in K; lia) ltac:(lia) L) as (dst' & q & len' & E1 & E2 & E3).
    exists dst', q, len'. auto.
Qed.

Lemma subst_ok dst dstlen src s c subo sub : holds src s -> sub_is subo sub -> chars_ok sub -> c <> NUL ->
  length dst = dstlen -> (0 < dstlen)%nat ->
  exists dst' rv, substitute_string dst dstlen src c subo = Ok (dst', rv) /\ length dst' = dstlen /\
    (if (length (replaced c sub s) <? dstlen)%nat
     then rv = Z.of_nat (length (replaced c sub s)) /\ exists j, dst' = replaced c sub s ++ NUL :: j
     else rv = -1 /\ dst' = firstn (dstlen - 1) (replaced c sub s) ++ [NUL]).
Proof.
  intros (C & junk & ->) HS CS NC L P. unfold substitute_string.
  destruct (Nat.eqb_spec dstlen 0); [lia|]. destruct (Z.eqb_spec c NUL); [congruence|]. cbn [orb].
  destruct (subst_loop_ok c subo sub HS NC (length s) s (le_n _) (S (length (s ++ NUL :: junk))) [] dst [] junk (Z.of_nat dstlen) C)
    as (dst' & q & len' & E1 & E2 & E3 & E4).
  { rewrite app_length. cbn. lia. }
  { lia. }
  { lia. }
  cbn [app length] in *. rewrite E1. cbn [bind].
  destruct (Z.ltb_spec 0 len') as [Q|Q].
  - destruct (E3 Q) as (V1 & post' & V2 & V3 & V4). destruct post' as [|o post']; [cbn in V4; lia|].
    rewrite V2 in *. rewrite (put_eq _ o post') by lia. cbn [bind].
    destruct (Nat.ltb_spec (length (replaced c sub s)) dstlen); [|lia].
    eexists _, _. split; [reflexivity|]. rewrite app_length in *. cbn [length] in *. split; [lia|]. split; [lia|]. eauto.
  - destruct (E4 Q) as (V1 & x & V2). rewrite Nat2Z.id in V2. rewrite V2.
    destruct (Nat.ltb_spec (length (replaced c sub s)) dstlen); [lia|].
    rewrite (put_eq _ x []) by (rewrite firstn_length; lia). cbn [bind].
    eexists _, _. split; [reflexivity|]. split; [|split; reflexivity]. rewrite app_length, firstn_length. cbn [length]. lia.
Qed.

(** ** parse_string *)
Lemma lf_space : low_false isspace.
Proof. intros c H. unfold isspace. repeat (destruct (Z.eqb_spec c _); try lia); auto; 
  destruct (Z.leb_spec 9 c), (Z.leb_spec c 13); try lia; auto. Qed.
Lemma space_c iso c t : chars_ok (c :: t) -> iso_ok iso (c :: t) -> ctype iso isspace c = Ok (isspace c).
Proof.
  intros C I. inversion C; subst. unfold char_ok in *. apply ctype_ok; [apply lf_space|lia|].
  intros E. specialize (I E). inversion I; auto.
Qed.
Lemma space_nul iso : ctype iso isspace NUL = Ok false.
Proof. apply (ctype_ok iso isspace NUL); [apply lf_space|unfold NUL; lia|unfold NUL; lia]. Qed.
Lemma chars_tail c t : chars_ok (c :: t) -> chars_ok t. Proof. intros C. inversion C; auto. Qed.

Lemma space_loop_ok iso r : forall n pre junk, chars_ok r -> iso_ok iso r -> (length r < n)%nat ->
  exists sp, r = sp ++ drop_space r /\ Forall (fun c => isspace c = true) sp /\
    space_loop n iso (pre ++ r ++ NUL :: junk) (length pre) = Ok (length pre + length sp)%nat.
Proof.
  induction r as [|c r IH]; intros n pre junk C I L; (destruct n; [cbn in L; lia|]); cbn [space_loop].
  - exists []. split; [reflexivity|]. split; [constructor|]. cbn [app]. rewrite (get_eq pre NUL junk) by auto. cbn. f_equal. lia.
  - cbn [app]. rewrite (get_eq pre c (r ++ NUL :: junk)) by auto. cbn [bind]. rewrite nz by (inversion C; auto).
    rewrite (space_c iso c r) by auto. cbn [bind drop_space]. destruct (isspace c) eqn:S.
    + destruct (IH n (pre ++ [c]) junk (chars_tail _ _ C) (iso_tail _ _ _ I) ltac:(cbn in L; lia)) as (sp & E1 & E2 & E3).
      rewrite <- app_assoc in E3. cbn [app] in E3. rewrite app_length in E3. cbn [length] in E3.
      replace (length pre + 1)%nat with (Datatypes.S (length pre)) in E3 by lia.
      exists (c :: sp). split; [cbn; congruence|]. split; [constructor; auto|]. rewrite E3. cbn [length]. f_equal. lia.
    + exists []. split; [reflexivity|]. split; [constructor|]. cbn. f_equal. lia.
Qed.

Lemma is_quote_eq c : (c =? DQUOTE) || (c =? QUOTE) = is_quote c. Proof. reflexivity. Qed.

Lemma word_end_next iso t junk : chars_ok t -> iso_ok iso t ->
  exists cn rest, t ++ NUL :: junk = cn :: rest /\ ctype iso isspace cn = Ok (isspace cn) /\
    (isspace cn || (cn =? NUL) = word_end t) /\ ((cn =? NUL) = match t with [] => true | _ => false end).
Proof.
  intros C I. destruct t as [|c t].
  - exists NUL, junk. rewrite space_nul. auto.
  - exists c, (t ++ NUL :: junk). rewrite (space_c iso c t) by auto. rewrite nz by (inversion C; auto). rewrite orb_false_r. auto.
Qed.

Lemma word_quoted iso c (Q : is_quote c = true) : forall t n pre don junk, t <> [] -> (length t < n)%nat ->
  chars_ok t -> iso_ok iso t ->
  match quoted c t with
  | Some (w, r) => (exists r0, t = w ++ c :: r0 /\ r0 = r) /\ 
      word_loop n iso (pre ++ c :: don ++ t ++ NUL :: junk) (length pre) (length pre + 1 + length don) =
      Ok (SEnd (pre ++ c :: don ++ w ++ NUL :: r ++ NUL :: junk) (S (length pre)) (length pre + 1 + length don + length w + 1) c)
  | None => exists q, word_loop n iso (pre ++ c :: don ++ t ++ NUL :: junk) (length pre) (length pre + 1 + length don) =
      Ok (SErr (length pre) q)
  end.
Proof.
  induction t as [|a t IH]; intros n pre don junk NE L C I; [congruence|].
  destruct n as [|n]; [lia|].
  assert (B : pre ++ c :: don ++ (a :: t) ++ NUL :: junk = (pre ++ c :: don) ++ a :: t ++ NUL :: junk)
    by (rewrite <- app_assoc; reflexivity).
  assert (W : word_loop (S n) iso (pre ++ c :: don ++ (a :: t) ++ NUL :: junk) (length pre) (length pre + 1 + length don) =
    if (a =? c) && word_end t
    then Ok (SEnd (pre ++ c :: don ++ NUL :: t ++ NUL :: junk) (S (length pre)) (S (length pre + 1 + length don)) c)
    else match t with [] => Ok (SErr (length pre) (S (length pre + 1 + length don)))
         | _ => word_loop n iso (pre ++ c :: don ++ (a :: t) ++ NUL :: junk) (length pre) (S (length pre + 1 + length don)) end).
  { destruct (word_end_next iso t junk (chars_tail _ _ C) (iso_tail _ _ _ I)) as (cn & rest & EN & ES & EW & EZ).
    cbn [word_loop].
    assert (G1 : get (pre ++ c :: don ++ (a :: t) ++ NUL :: junk) (length pre + 1 + length don) = Ok a)
      by (rewrite B; apply get_eq; rewrite app_length; cbn; lia).
    assert (G2 : get (pre ++ c :: don ++ (a :: t) ++ NUL :: junk) (S (length pre + 1 + length don)) = Ok cn).
    { rewrite B, EN. change (a :: cn :: rest) with ([a] ++ cn :: rest). rewrite app_assoc. apply get_eq. rewrite !app_length. cbn. lia. }
    rewrite G1, (get_eq pre c) by auto. cbn [bind]. rewrite nz by (inversion C; auto). rewrite is_quote_eq, Q, G2. cbn [bind].
    rewrite ES.
    assert (CONT : (if a =? c then do sp <- Ok (isspace cn); Ok (sp || (cn =? NUL)) else Ok false) = Ok ((a =? c) && word_end t)).
    { destruct (a =? c); cbn [bind andb]; rewrite ?EW; reflexivity. }
    rewrite CONT. cbn [bind]. destruct ((a =? c) && word_end t).
    - rewrite B. rewrite (put_eq (pre ++ c :: don) a (t ++ NUL :: junk)) by (rewrite app_length; cbn; lia). cbn [bind].
      rewrite <- app_assoc. reflexivity.
    - rewrite EZ. destruct t; reflexivity. }
  rewrite W. clear W. cbn [quoted].
  destruct ((a =? c) && word_end t) eqn:AC.
  - apply andb_prop in AC. destruct AC as [AC _]. apply Z.eqb_eq in AC. subst a. split; [exists t; auto|].
    cbn [app length]. do 2 f_equal. lia.
  - destruct t as [|b t]; [cbn [quoted]; eauto|]. cbn [app].
    specialize (IH n pre (don ++ [a]) junk ltac:(discriminate) ltac:(cbn in *; lia) (chars_tail _ _ C) (iso_tail _ _ _ I)).
    rewrite <- !app_assoc in IH. cbn [app] in IH.
    replace (length pre + 1 + length (don ++ [a]))%nat with (S (length pre + 1 + length don)) in IH by (rewrite app_length; cbn; lia).
    destruct (quoted c (b :: t)) as [[w r]|].
    + rewrite <- !app_assoc in IH. cbn [app] in IH.
      destruct IH as [(r0 & E1 & E2) E3]. split; [exists r0; split; [cbn [app] in *; congruence|auto]|].
      rewrite E3. cbn [app length]. do 2 f_equal. lia.
    + destruct IH as [q IH]. exists q. exact IH.
Qed.

Lemma unquoted_split t : t = fst (unquoted t) \/ exists c, t = fst (unquoted t) ++ c :: snd (unquoted t) /\ isspace c = true.
Proof.
  induction t as [|c t IH]; [auto|]. cbn [unquoted]. destruct (isspace c) eqn:S; cbn [fst snd app].
  - right. eauto.
  - destruct IH as [E|(d & E & H)]; [left; congruence|right; exists d; split; [congruence|auto]].
Qed.

Lemma word_unquoted iso c (Q : is_quote c = false) : forall t n pre don junk, (length t < n)%nat ->
  chars_ok t -> iso_ok iso t ->
  let w := fst (unquoted t) in let r := snd (unquoted t) in
  (exists d, t = w ++ d :: r /\ isspace d = true /\
    word_loop n iso (pre ++ c :: don ++ t ++ NUL :: junk) (length pre) (length pre + 1 + length don) =
    Ok (SEnd (pre ++ c :: don ++ w ++ NUL :: r ++ NUL :: junk) (length pre) (length pre + 1 + length don + length w + 1) 0)) \/
  (t = w /\ r = [] /\
    word_loop n iso (pre ++ c :: don ++ t ++ NUL :: junk) (length pre) (length pre + 1 + length don) =
    Ok (SEnd (pre ++ c :: don ++ t ++ NUL :: junk) (length pre) (length pre + 1 + length don + length w) 0)).
Proof.
  induction t as [|a t IH]; intros n pre don junk L C I; (destruct n as [|n]; [cbn in L; lia|]).
  - right. split; [reflexivity|]. split; [reflexivity|]. cbn [word_loop app].
    assert (B : pre ++ c :: don ++ NUL :: junk = (pre ++ c :: don) ++ NUL :: junk) by (rewrite <- app_assoc; reflexivity).
    rewrite B at 1. rewrite (get_eq (pre ++ c :: don) NUL junk) by (rewrite app_length; cbn; lia). cbn. do 2 f_equal. lia.
  - cbn [word_loop unquoted].
    assert (B : pre ++ c :: don ++ (a :: t) ++ NUL :: junk = (pre ++ c :: don) ++ a :: t ++ NUL :: junk)
      by (rewrite <- app_assoc; reflexivity).
    rewrite B. rewrite (get_eq (pre ++ c :: don) a (t ++ NUL :: junk)) by (rewrite app_length; cbn; lia). cbn [bind].
    rewrite nz by (inversion C; auto). rewrite <- B. rewrite (get_eq pre c) by auto. cbn [bind]. rewrite is_quote_eq, Q.
    rewrite (space_c iso a t) by auto. cbn [bind]. destruct (isspace a) eqn:SA.
    + left. cbn [fst snd]. exists a. split; [reflexivity|]. split; [auto|]. rewrite B.
      rewrite (put_eq (pre ++ c :: don) a (t ++ NUL :: junk)) by (rewrite app_length; cbn; lia). cbn [bind].
      rewrite <- app_assoc. cbn [app length]. repeat (f_equal; try lia).
    + cbn [fst snd].
      specialize (IH n pre (don ++ [a]) junk ltac:(cbn in *; lia) (chars_tail _ _ C) (iso_tail _ _ _ I)). cbv zeta in IH.
      rewrite <- !app_assoc in IH. cbn [app] in IH.
      replace (length pre + 1 + length (don ++ [a]))%nat with (S (length pre + 1 + length don)) in IH by (rewrite app_length; cbn; lia).
      destruct IH as [(d & E1 & E2 & E3)|(E1 & E2 & E3)]; [left|right].
      * exists d. split; [cbn [app]; congruence|]. split; auto. cbn [app]. rewrite E3. cbn [app length]. repeat (f_equal; try lia).
      * split; [congruence|]. split; auto. cbn [app]. rewrite E3. cbn [app length]. repeat (f_equal; try lia).
Qed.

(** One call. *)
Definition call_ok (buf : list Z) (ptr : nat) (r : list Z) (o : res (list Z * nat * nat * option Z * Z)) : Prop :=
  match first_word r with
  | NoWord => exists p, o = Ok (buf, p, p, None, 0) /\ str_at buf p []
  | Word w qt rest => exists buf' p ptr', o = Ok (buf', p, ptr', Some qt, 1) /\
      str_at buf' p w /\ str_at buf' ptr' rest /\ 
      firstn (S ptr) buf' = firstn (S ptr) buf /\ length buf' = length buf /\ (ptr <= p)%nat /\ (p + length w <= ptr')%nat
  | Unclosed => (exists p q, o = Ok (buf, p, q, None, -1)) \/
      (lone_quote r /\ exists p ptr' c, o = Ok (buf, p, ptr', Some 0, 1) /\ str_at buf p [c] /\ str_at buf ptr' [])
  end.

Lemma chars_app a b : chars_ok (a ++ b) -> chars_ok a /\ chars_ok b.
Proof. apply Forall_app. Qed.

Lemma firstn_put {A} (a : list A) x y b c d n : length a = length c -> a = c -> (n <= length a)%nat ->
  firstn n (a ++ x :: b) = firstn n (c ++ y :: d).
Proof. intros L -> N. rewrite !firstn_app. replace (n - length c)%nat with 0%nat by lia. reflexivity. Qed.

Lemma last_space (sp : list Z) : Forall (fun c => isspace c = true) sp -> sp = [] \/ exists b c, sp = b ++ [c] /\ isspace c = true.
Proof.
  intros F. destruct sp as [|x sp] using rev_ind; [auto|]. right. exists sp, x. split; auto.
  apply Forall_app in F. destruct F as [_ F]. inversion F; auto.
Qed.

Lemma parse_ok iso buf ptr r : str_at buf ptr r -> iso_ok iso r -> call_ok buf ptr r (parse_string iso buf ptr).
Proof.
  intros (C & pre & junk & EB & EP) I. unfold call_ok, parse_string, first_word.
  subst ptr. 
  destruct (space_loop_ok iso r (S (length buf)) pre junk C I) as (sp & E1 & E2 & E3).
  { rewrite EB, !app_length. lia. }
  rewrite <- EB in E3. rewrite E3. cbn [bind].
  remember (drop_space r) as u. 
  assert (EB' : buf = (pre ++ sp) ++ u ++ NUL :: junk).
  { rewrite EB, E1, <- !app_assoc. reflexivity. }
  replace (length pre + length sp)%nat with (length (pre ++ sp)) by apply app_length.
  assert (CU : chars_ok u) by (rewrite E1 in C; apply chars_app in C; tauto).
  assert (IU : iso_ok iso u) by (rewrite E1 in I; exact (iso_app _ _ _ I)).
  assert (LB : (length u <= length buf)%nat) by (rewrite EB', !app_length; lia).
  destruct u as [|c t].
  - assert (GC : get buf (length (pre ++ sp)) = Ok NUL) by (rewrite EB'; apply get_eq; auto). rewrite GC. cbn [bind].
    change (NUL =? NUL) with true. cbv iota. eexists. split; [reflexivity|]. split; [constructor|]. exists (pre ++ sp), junk. auto.
  - assert (GC : get buf (length (pre ++ sp)) = Ok c) by (rewrite EB'; apply get_eq; auto). rewrite GC. cbn [bind].
    rewrite nz by (inversion CU; auto). destruct (is_quote c) eqn:Q.
    + destruct t as [|a t].
      * (* lone quote *)
        cbn [quoted]. right. split.
        { exists sp, c. split; [congruence|]. split; auto. apply last_space; auto. }
        assert (GN : get buf (S (length (pre ++ sp))) = Ok NUL).
        { rewrite EB'. replace ((pre ++ sp) ++ [c] ++ NUL :: junk) with ((pre ++ sp ++ [c]) ++ NUL :: junk) by (rewrite <- !app_assoc; reflexivity).
          apply get_eq. rewrite !app_length; cbn; lia. }
        cbn [word_loop]. rewrite GN. cbn [bind].
        change (NUL =? NUL) with true. cbv iota. eexists _, _, c. split; [reflexivity|].
        split; (split; [auto; try constructor|]).
        -- exists (pre ++ sp), junk. auto.
        -- exists (pre ++ sp ++ [c]), junk. split; [rewrite EB', <- !app_assoc; reflexivity|rewrite !app_length; cbn; lia].
      * pose proof (word_quoted iso c Q (a :: t) (S (length buf)) (pre ++ sp) [] junk ltac:(discriminate)
          ltac:(cbn [length] in *; lia) (chars_tail _ _ CU) (iso_tail _ _ _ IU)) as H.
        cbn [app length] in H. cbn [app] in EB'. rewrite <- EB' in H.
        replace (length (pre ++ sp) + 1 + 0)%nat with (S (length (pre ++ sp))) in H by lia.
        destruct (quoted c (a :: t)) as [[w rest]|].
        -- destruct H as [(r0 & EA & ->) H]. rewrite H. cbn [bind].
           assert (CW : chars_ok w /\ chars_ok rest).
           { pose proof (chars_tail _ _ CU) as CC. rewrite EA in CC. apply chars_app in CC. destruct CC as [X Y]. split; auto. exact (chars_tail _ _ Y). }
           eexists _, _, _. split; [reflexivity|].
           split; [split; [tauto|]; exists (pre ++ sp ++ [c]), (rest ++ NUL :: junk);
             split; [rewrite <- !app_assoc; reflexivity|rewrite !app_length; cbn; lia]|].
           split; [split; [tauto|]; exists (pre ++ sp ++ [c] ++ w ++ [NUL]), junk;
             split; [rewrite <- !app_assoc; reflexivity|rewrite !app_length; cbn; rewrite ?app_length; cbn; lia]|].
           assert (EBW : buf = (pre ++ sp ++ [c] ++ w) ++ c :: rest ++ NUL :: junk).
           { rewrite EB'. rewrite <- !app_assoc. cbn [app]. do 3 f_equal. change (a :: t ++ NUL :: junk) with ((a :: t) ++ NUL :: junk).
             rewrite EA. rewrite <- app_assoc. reflexivity. }
           replace ((pre ++ sp) ++ c :: w ++ NUL :: rest ++ NUL :: junk) with ((pre ++ sp ++ [c] ++ w) ++ NUL :: rest ++ NUL :: junk)
             by (rewrite <- !app_assoc; reflexivity).
           rewrite EBW. split; [apply firstn_put; auto; rewrite !app_length; cbn; lia|].
           rewrite !app_length. cbn [length]. rewrite !app_length. repeat split; lia.
        -- destruct H as [q H]. rewrite H. cbn [bind]. eauto.
    + pose proof (word_unquoted iso c Q t (S (length buf)) (pre ++ sp) [] junk
        ltac:(cbn [length] in *; lia) (chars_tail _ _ CU) (iso_tail _ _ _ IU)) as H.
      cbv zeta in H. cbn [app length] in H. cbn [app] in EB'. rewrite <- EB' in H.
      replace (length (pre ++ sp) + 1 + 0)%nat with (S (length (pre ++ sp))) in H by lia.
      destruct (unquoted t) as [w rest] eqn:EU. cbn [fst snd] in H.
      destruct H as [(d & EA & SD & H)|(EA & ER & H)]; rewrite H; cbn [bind].
      * assert (CW : chars_ok (c :: w) /\ chars_ok rest).
        { rewrite EA in CU. change (c :: w ++ d :: rest) with ((c :: w) ++ d :: rest) in CU.
          apply chars_app in CU. destruct CU as [X Y]. split; auto. exact (chars_tail _ _ Y). }
        eexists _, _, _. split; [reflexivity|].
        split; [split; [tauto|]; exists (pre ++ sp), (rest ++ NUL :: junk); auto|].
        split; [split; [tauto|]; exists (pre ++ sp ++ [c] ++ w ++ [NUL]), junk;
          split; [rewrite <- !app_assoc; reflexivity|rewrite !app_length; cbn; rewrite ?app_length; cbn; lia]|].
        assert (EBW : buf = (pre ++ sp ++ [c] ++ w) ++ d :: rest ++ NUL :: junk).
        { rewrite EB'. rewrite <- !app_assoc. cbn [app]. do 3 f_equal. rewrite EA, <- app_assoc. reflexivity. }
        replace ((pre ++ sp) ++ c :: w ++ NUL :: rest ++ NUL :: junk) with ((pre ++ sp ++ [c] ++ w) ++ NUL :: rest ++ NUL :: junk)
          by (rewrite <- !app_assoc; reflexivity).
        rewrite EBW. split; [apply firstn_put; auto; rewrite !app_length; cbn; lia|].
        rewrite !app_length. cbn [length]. rewrite !app_length. repeat split; lia.
      * subst w rest. eexists buf, (length (pre ++ sp)), _.
        split; [reflexivity|]. split; [split; [auto|]; exists (pre ++ sp), junk; auto|].
        split; [split; [constructor|]; exists (pre ++ sp ++ c :: t), junk;
          split; [rewrite EB', <- !app_assoc; reflexivity|rewrite !app_length; cbn; lia]|].
        rewrite app_length. cbn [length]. repeat split; lia.
Qed.

(** ** Repeated calls *)
Lemma words_S n r : words (S n) r = match first_word r with
  | Word w q r' => ((w, q) :: fst (words n r'), snd (words n r')) | NoWord => ([], false) | Unclosed => ([], true) end.
Proof. reflexivity. Qed.

Lemma drop_space_suffix r : exists sp, r = sp ++ drop_space r.
Proof.
  induction r as [|c r [sp IH]]; [exists []; reflexivity|]. cbn. destruct (isspace c).
  - exists (c :: sp). cbn. congruence.
  - exists []. reflexivity.
Qed.
Lemma quoted_split q t w r : quoted q t = Some (w, r) -> t = w ++ q :: r /\ word_end r = true.
Proof.
  revert w r. induction t as [|c t IH]; intros w r H; [discriminate|]. cbn in H.
  destruct ((c =? q) && word_end t) eqn:E.
  - apply andb_prop in E. destruct E as [E1 E2]. apply Z.eqb_eq in E1. inversion H; subst. auto.
  - destruct (quoted q t) as [[w' r']|]; [|discriminate]. inversion H; subst. destruct (IH w' r eq_refl). cbn. split; [congruence|auto].
Qed.

Lemma lone_quote_app a x b y : isspace x = true \/ isspace b = true ->
  lone_quote (b :: y) -> lone_quote (a ++ x :: b :: y).
Proof.
  intros H (u & qq & E1 & E2 & E3). exists (a ++ x :: u), qq. rewrite E1, <- app_assoc.
  split; [reflexivity|]. split; auto. right. destruct E3 as [->|(v & d & -> & D)].
  - cbn in E1. injection E1 as -> ->. destruct H as [H|H].
    + exists a, x. auto.
    + unfold is_quote in E2. apply orb_prop in E2. destruct E2 as [E2|E2]; apply Z.eqb_eq in E2; subst qq; discriminate.
  - exists (a ++ x :: v), d. split; [rewrite <- !app_assoc; reflexivity|auto].
Qed.
Lemma lone_quote_nil : ~ lone_quote [].
Proof. intros (a & q & E & _). destruct a; discriminate. Qed.

Lemma word_rest r w q r' : first_word r = Word w q r' ->
  (length r' < length r)%nat /\ (exists a, r = a ++ r') /\ (lone_quote r' -> lone_quote r).
Proof.
  unfold first_word. destruct (drop_space_suffix r) as [sp ES]. destruct (drop_space r) as [|c t]; [discriminate|].
  destruct (is_quote c).
  - destruct (quoted c t) as [[w' r'']|] eqn:QT; [|discriminate]. intros H. inversion H; subst; clear H.
    apply quoted_split in QT. destruct QT as [-> WE].
    assert (EQ : sp ++ q :: w ++ q :: r' = (sp ++ q :: w) ++ q :: r') by (rewrite <- app_assoc; reflexivity).
    rewrite EQ. split; [rewrite !app_length; cbn [length]; lia|]. split.
    + exists ((sp ++ q :: w) ++ [q]). rewrite <- !app_assoc. reflexivity.
    + destruct r' as [|b y]; [intros H; destruct (lone_quote_nil H)|]. apply lone_quote_app. right. exact WE.
  - destruct (unquoted t) as [w' r''] eqn:U. intros H. inversion H; subst; clear H.
    destruct (unquoted_split t) as [E|(d & E & D)]; rewrite U in E; cbn [fst snd] in E.
    + assert (r' = []).
      { clear -U E. subst w'. revert r' U. induction t as [|a t IH]; intros r' U; cbn in U; [congruence|].
        destruct (isspace a); [discriminate|]. 
        destruct (unquoted t) as [x y]; cbn in *. injection U as -> ->. auto. }
      subst r'. split; [rewrite app_length; cbn [length]; lia|]. split; [eexists; symmetry; apply app_nil_r|].
      intros H. destruct (lone_quote_nil H).
    + rewrite E.
      assert (EQ : sp ++ c :: w' ++ d :: r' = (sp ++ c :: w') ++ d :: r') by (rewrite <- app_assoc; reflexivity).
      rewrite EQ. split; [rewrite !app_length; cbn [length]; lia|]. split.
      * exists ((sp ++ c :: w') ++ [d]). rewrite <- !app_assoc. reflexivity.
      * destruct r' as [|b y]; [intros H; destruct (lone_quote_nil H)|]. apply lone_quote_app. left. exact D.
Qed.

Lemma str_at_firstn buf buf' p w m : str_at buf p w -> (p + length w < m)%nat -> length buf' = length buf ->
  firstn m buf' = firstn m buf -> str_at buf' p w.
Proof.
  intros (C & pre & junk & -> & L) M LB F. split; auto.
  rewrite <- (firstn_skipn m buf'), F.
  exists pre, (firstn (m - p - length w - 1) junk ++ skipn m buf'). split; [|auto].
  rewrite firstn_app, (firstn_all2 pre) by lia. rewrite firstn_app, (firstn_all2 w) by lia.
  replace (m - length pre - length w)%nat with (S (m - p - length w - 1)) by lia. cbn [firstn].
  rewrite <- !app_assoc. reflexivity.
Qed.

Lemma parse_words_ok iso : forall n r, (length r < n)%nat -> forall buf ptr, str_at buf ptr r -> iso_ok iso r -> ~ lone_quote r ->
  exists ws buf' rc, parse_words n iso buf ptr = Ok (ws, buf', rc) /\
    Forall2 (fun pw wq => str_at buf' (fst pw) (fst wq) /\ snd pw = snd wq) ws (fst (words n r)) /\
    rc = (if snd (words n r) then -1 else 0) /\
    length buf' = length buf /\ firstn (S ptr) buf' = firstn (S ptr) buf.
Proof.
  induction n as [|n IH]; intros r L buf ptr A I NL; [lia|]. rewrite words_S. cbn [parse_words].
  pose proof (parse_ok iso buf ptr r A I) as P. unfold call_ok in P.
  destruct (first_word r) as [w q r'| |] eqn:FW.
  - destruct P as (buf1 & p & ptr1 & E & S1 & S2 & F & LB & G1 & G2). rewrite E. cbn [bind].
    change (1 <=? 0) with false. cbv iota.
    destruct (word_rest r w q r' FW) as (LR & (a & EA) & LQ).
    destruct (IH r' ltac:(lia) buf1 ptr1 S2) as (ws & buf' & rc & E1 & E2 & E3 & E4 & E5).
    { rewrite EA in I. exact (iso_app _ _ _ I). }
    { tauto. }
    rewrite E1. cbn [bind fst snd]. eexists _, _, _. split; [reflexivity|]. split.
    + constructor; auto. cbn [fst snd]. split; auto.
      apply (str_at_firstn buf1 buf' p w (S ptr1)); auto. lia.
    + split; auto. split; [congruence|]. rewrite <- F.
      assert (MM : forall l : list Z, firstn (S ptr) l = firstn (S ptr) (firstn (S ptr1) l)).
      { intros l. rewrite firstn_firstn. f_equal. lia. }
      rewrite (MM buf'), (MM buf1), E5. reflexivity.
  - destruct P as (p & E & S1). rewrite E. cbn [bind]. change (0 <=? 0) with true. cbv iota.
    eexists _, _, _. split; [reflexivity|]. cbn. repeat split; auto.
  - destruct P as [(p & qq & E)|[LQ _]]; [|tauto]. rewrite E. cbn [bind]. change (-1 <=? 0) with true. cbv iota.
    eexists _, _, _. split; [reflexivity|]. cbn. repeat split; auto.
Qed.

(** ** create_time_delta_string *)
Lemma fields_digits d : forall acc u rest, Forall (fun c => isdigit c = true) d -> isdigit u = false ->
  fields acc (d ++ u :: rest) = (num acc d, unit_of u) :: fields 0 rest.
Proof.
  induction d as [|c d IH]; intros acc u rest F U; cbn [app fields num].
  - rewrite U. reflexivity.
  - inversion F; subst. rewrite H1. apply IH; auto.
Qed.
Lemma fields_item n u rest : 0 <= n -> isdigit u = false ->
  fields 0 ((fmt_d n ++ [u]) ++ rest) = (n, unit_of u) :: fields 0 rest.
Proof.
  intros H U. unfold fmt_d. destruct (Z.ltb_spec n 0); [lia|]. destruct (fmt_u_ok n H) as (F & V & _).
  rewrite <- app_assoc. cbn [app]. rewrite fields_digits by auto. rewrite V. reflexivity.
Qed.
Lemma fields_last n u : 0 <= n -> isdigit u = false -> fields 0 (fmt_d n ++ [u]) = [(n, unit_of u)].
Proof. intros H U. rewrite <- (app_nil_r (fmt_d n ++ [u])). rewrite fields_item; auto. Qed.
Lemma item_len n u j : 0 <= n < 10 ^ Z.of_nat j -> (0 < j)%nat -> (length (fmt_d n ++ [u]) <= j + 1)%nat.
Proof.
  intros H J. unfold fmt_d. destruct (Z.ltb_spec n 0); [lia|]. rewrite app_length. cbn [length].
  pose proof (fmt_u_len n j H J). lia.
Qed.

Lemma divs n : 0 <= n -> let s := Z.rem n 60 in let n1 := Z.quot n 60 in let m := Z.rem n1 60 in let n2 := Z.quot n1 60 in
  let h := Z.rem n2 24 in let n3 := Z.quot n2 24 in let d := Z.rem n3 7 in let n4 := Z.quot n3 7 in
  let w := Z.rem n4 52 in let y := Z.quot n4 52 in
  n = y * 31449600 + w * 604800 + d * 86400 + h * 3600 + m * 60 + s /\
  0 <= s < 60 /\ 0 <= m < 60 /\ 0 <= h < 24 /\ 0 <= d < 7 /\ 0 <= w < 52 /\ 0 <= y.
Proof.
  intros H. cbv zeta.
  assert (S1 : forall a b, 0 <= a -> 0 < b -> a = b * Z.quot a b + Z.rem a b /\ 0 <= Z.rem a b < b /\ 0 <= Z.quot a b).
  { intros a b A B. split; [apply Z.quot_rem'|]. split; [apply Z.rem_bound_pos; lia|apply Z.quot_pos; lia]. }
  destruct (S1 n 60 H ltac:(lia)) as (A1 & B1 & C1).
  destruct (S1 _ 60 C1 ltac:(lia)) as (A2 & B2 & C2).
  destruct (S1 _ 24 C2 ltac:(lia)) as (A3 & B3 & C3).
  destruct (S1 _ 7 C3 ltac:(lia)) as (A4 & B4 & C4).
  destruct (S1 _ 52 C4 ltac:(lia)) as (A5 & B5 & C5).
  repeat match goal with |- _ /\ _ => split end; try tauto; try lia.
Qed.

Lemma delta_ok dbg t0 t1 : 0 <= t1 - t0 < 2147483648 * 31449600 ->
  exists t, time_delta_string dbg t0 t1 = Ok t /\ (length t < 32)%nat /\
    total (fields 0 t) = t1 - t0 /\ ranged (fields 0 t) /\ leading (fields 0 t).
Proof.
  intros R. pose proof (divs (t1 - t0) ltac:(lia)) as H. cbv zeta in H. unfold time_delta_string. cbv zeta.
  set (s := Z.rem (t1 - t0) 60) in *. set (m := Z.rem (Z.quot (t1 - t0) 60) 60) in *.
  set (h := Z.rem (Z.quot (Z.quot (t1 - t0) 60) 60) 24) in *.
  set (d := Z.rem (Z.quot (Z.quot (Z.quot (t1 - t0) 60) 60) 24) 7) in *.
  set (w := Z.rem (Z.quot (Z.quot (Z.quot (Z.quot (t1 - t0) 60) 60) 24) 7) 52) in *.
  set (y := Z.quot (Z.quot (Z.quot (Z.quot (Z.quot (t1 - t0) 60) 60) 24) 7) 52) in *.
  clearbody s m h d w y. destruct H as (E & Hs & Hm & Hh & Hd & Hw & Hy).
  assert (Y : y < 10 ^ Z.of_nat 10) by (change (10 ^ Z.of_nat 10) with 10000000000; lia).
  pose proof (item_len s 115 2 ltac:(change (10 ^ Z.of_nat 2) with 100; lia) ltac:(lia)) as Ls.
  pose proof (item_len m 109 2 ltac:(change (10 ^ Z.of_nat 2) with 100; lia) ltac:(lia)) as Lm.
  pose proof (item_len h 104 2 ltac:(change (10 ^ Z.of_nat 2) with 100; lia) ltac:(lia)) as Lh.
  pose proof (item_len d 100 1 ltac:(change (10 ^ Z.of_nat 1) with 10; lia) ltac:(lia)) as Ld.
  pose proof (item_len w 119 2 ltac:(change (10 ^ Z.of_nat 2) with 100; lia) ltac:(lia)) as Lw.
  pose proof (item_len y 121 10 ltac:(lia) ltac:(lia)) as Ly.
  assert (A0 : assert_if dbg (0 <=? t1 - t0) = Ok tt).
  { unfold assert_if. destruct (Z.leb_spec 0 (t1 - t0)); [|lia]. destruct dbg; reflexivity. }
  rewrite A0. cbn [bind].
  match goal with |- context [assert_if dbg (length ?x <? 32)%nat] => set (t := x) end.
  assert (G : (length t < 32)%nat /\ total (fields 0 t) = t1 - t0 /\ ranged (fields 0 t) /\ leading (fields 0 t)).
  { subst t. destruct (Z.ltb_spec 0 y); [|destruct (Z.ltb_spec 0 w); [|destruct (Z.ltb_spec 0 d); [|destruct (Z.ltb_spec 0 h); [|destruct (Z.ltb_spec 0 m)]]]].
    all: split; [rewrite ?(app_length (fmt_d y ++ _)), ?(app_length (fmt_d w ++ _)), ?(app_length (fmt_d d ++ _)),
        ?(app_length (fmt_d h ++ _)), ?(app_length (fmt_d m ++ _)); lia|].
    all: rewrite ?fields_item by (auto; lia); rewrite fields_last by (auto; lia);
      cbn [total ranged leading]; unfold unit_of; cbn; lia. }
  destruct G as (G1 & G2). exists t. split; [|tauto].
  assert (A1 : assert_if dbg (length t <? 32)%nat = Ok tt).
  { unfold assert_if. destruct (Nat.ltb_spec (length t) 32); [|lia]. destruct dbg; reflexivity. }
  rewrite A1. cbn [bind]. rewrite firstn_all2 by lia. reflexivity.
Qed.
