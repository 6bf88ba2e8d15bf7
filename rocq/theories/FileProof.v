(** Proofs for FileProps. *)
From Verif Require Import Base BaseProof Mem Chars StrModel StrSpec LexSpec StrProof FileModel FileSpec.
Local Open Scope Z_scope.

(** ** read_line *)
Definition suffix {A} (s1 s : list A) : Prop := exists u, s = u ++ s1.
Lemma suffix_refl {A} (s : list A) : suffix s s. Proof. exists []. reflexivity. Qed.
Lemma suffix_cons {A} (x : A) s1 s : suffix s1 s -> suffix s1 (x :: s). Proof. intros [u ->]. exists (x :: u). reflexivity. Qed.

Lemma read_1 sched c t : sys_read sched (c :: t) 1 =
  match sched with Intr :: s => (IoIntr, s, c :: t) | Fail :: s => (IoErr, s, c :: t) | Chunk _ :: s => (IoOk [c], s, t) | [] => (IoOk [c], [], t) end.
Proof. destruct sched as [|[| |k] s]; try reflexivity. cbn [sys_read]. replace (Nat.min 1 (Nat.max 1 k)) with 1%nat by lia. reflexivity. Qed.
Lemma read_0 sched w : sys_read sched [] w =
  match sched with Intr :: s => (IoIntr, s, []) | Fail :: s => (IoErr, s, []) | Chunk _ :: s => (IoOk [], s, []) | [] => (IoOk [], [], []) end.
Proof. destruct sched as [|[| |k] s]; cbn [sys_read]; rewrite ?firstn_nil, ?skipn_nil; reflexivity. Qed.

(** How a call may end: [line] is what it should read. *)
Definition line_res (got rest : list Z) (sched : list io_ev) (stream line : list Z) (stop : bool)
    (o : res (list Z * line_end * list io_ev * list Z)) : Prop :=
  exists s1, suffix s1 sched /\
  ((o = Ok (got ++ line ++ skipn (length line) rest,
            if stop then LEof else LDone (length got + length line), s1, skipn (length line) stream)) \/
   (In Fail sched /\ exists k, (k <= length line)%nat /\
     o = Ok (got ++ firstn k line ++ skipn k rest, LErr, s1, skipn k stream))).

Lemma read_line_loop_ok f : forall sched stream got rest maxlen,
  (length sched + (maxlen - length got) < f)%nat -> (length got + length rest > maxlen)%nat -> (length got <= maxlen)%nat ->
  line_res got rest sched stream (firstn (maxlen - length got) (first_line stream))
    (match stream with [] => (length got =? 0)%nat && (0 <? maxlen)%nat | _ => false end)
    (read_line_loop f sched stream (got ++ rest) (length got) maxlen).
Proof.
  induction f as [|f IH]; intros sched stream got rest maxlen F L G; [lia|]. cbn [read_line_loop].
  destruct (Nat.ltb_spec (length got) maxlen) as [LT|GE].
  2:{ assert (E : match stream with [] => (length got =? 0)%nat && (0 <? maxlen)%nat | _ :: _ => false end = false).
      { destruct stream; auto. destruct (Nat.eqb_spec (length got) 0), (Nat.ltb_spec 0 maxlen); auto; lia. }
      rewrite E. exists sched. split; [apply suffix_refl|]. left. replace (maxlen - length got)%nat with 0%nat by lia.
      cbn [firstn length app skipn]. rewrite Nat.add_0_r. reflexivity. }
  destruct stream as [|c t].
  - rewrite read_0. rewrite firstn_nil. cbn [length skipn firstn app].
    assert (E : (length got =? 0)%nat && (0 <? maxlen)%nat = (length got =? 0)%nat).
    { destruct (Nat.ltb_spec 0 maxlen); [apply andb_true_r|lia]. }
    destruct sched as [|[| |k] s].
    + exists []. split; [apply suffix_refl|]. left. rewrite E, Nat.add_0_r. reflexivity.
    + cbn in F. destruct (IH s [] got rest maxlen ltac:(lia) L G) as (s1 & S1 & R).
      rewrite firstn_nil in R. exists s1. split; [apply suffix_cons; auto|].
      destruct R as [R|(R1 & R2)]; [left; exact R|right; split; [right; auto|exact R2]].
    + exists s. split; [apply suffix_cons, suffix_refl|]. right. split; [left; auto|]. exists 0%nat. split; [cbn; lia|]. reflexivity.
    + exists s. split; [apply suffix_cons, suffix_refl|]. left. rewrite E, Nat.add_0_r. reflexivity.
  - rewrite read_1. destruct rest as [|o rest]; [cbn in L; lia|].
    set (line := firstn (maxlen - length got) (first_line (c :: t))).
    assert (GOT : forall s, suffix s sched -> (length s + (maxlen - S (length got)) < f)%nat -> 
      (In Fail s -> In Fail sched) ->
      line_res got (o :: rest) sched (c :: t) line false
      (do buf1 <- put (got ++ o :: rest) (length got) c;
       if c =? LF then Ok (buf1, LDone (S (length got)), s, t) else read_line_loop f s t buf1 (S (length got)) maxlen)).
    { intros s SS FF INF. rewrite (put_eq got o rest) by auto. cbn [bind]. unfold line. cbn [first_line].
      destruct (maxlen - length got)%nat as [|m] eqn:M; [lia|]. destruct (c =? LF) eqn:CL.
      - exists s. split; auto. left. cbn [firstn]. rewrite firstn_nil. cbn [length skipn app]. do 3 f_equal. f_equal. f_equal. lia.
      - destruct (IH s t (got ++ [c]) rest maxlen) as (s1 & S1 & R).
        + rewrite app_length. cbn. lia.
        + rewrite app_length. cbn in *. lia.
        + rewrite app_length. cbn. lia.
        + rewrite app_length in R. cbn [length] in R.
          replace (length got + 1)%nat with (S (length got)) in R by lia. rewrite <- !app_assoc in R. cbn [app] in R.
          replace (maxlen - S (length got))%nat with m in R by lia.
          assert (EE : match t with [] => (S (length got) =? 0)%nat && (0 <? maxlen)%nat | _ :: _ => false end = false) by (destruct t; reflexivity).
          rewrite EE in R.
          assert (SX : suffix s1 sched) by (destruct SS as [u1 ->], S1 as [u2 ->]; exists (u1 ++ u2); rewrite app_assoc; auto).
          exists s1. split; auto. cbn [firstn].
          destruct R as [R|(R1 & k & K1 & R2)].
          * left. rewrite R. cbn [length skipn app]. do 4 f_equal. f_equal. lia.
          * right. split; auto. exists (S k). split; [cbn; lia|]. rewrite R2. cbn [firstn skipn app]. rewrite <- ?app_assoc. reflexivity. }
    destruct sched as [|[| |k] s].
    + apply GOT; [apply suffix_refl|cbn in *; lia|auto].
    + cbn in F. destruct (IH s (c :: t) got (o :: rest) maxlen ltac:(lia) L G) as (s1 & S1 & R).
      exists s1. split; [apply suffix_cons; auto|].
      destruct R as [R|(R1 & R2)]; [left; exact R|right; split; [right; auto|exact R2]].
    + exists s. split; [apply suffix_cons, suffix_refl|]. right. split; [left; auto|]. exists 0%nat. split; [lia|]. reflexivity.
    + apply GOT; [apply suffix_cons, suffix_refl|cbn in *; lia|right; auto].
Qed.

Lemma first_line_nil s : first_line s = [] -> s = [].
Proof. destruct s as [|c t]; auto. cbn. destruct (c =? LF); discriminate. Qed.

Lemma read_line_ok sched stream buf maxlen : (maxlen <= length buf)%nat -> (0 < maxlen)%nat ->
  let line := firstn (maxlen - 1) (first_line stream) in
  exists s1, suffix s1 sched /\
  ((exists buf', read_line sched stream buf maxlen = Ok (buf', Z.of_nat (length line), s1, skipn (length line) stream) /\
      length buf' = length buf /\
      ((stream = [] /\ (1 < maxlen)%nat /\ buf' = buf) \/ exists j, buf' = line ++ NUL :: j /\ j = skipn (S (length line)) buf)) \/
   (In Fail sched /\ exists k buf', (k <= length line)%nat /\ length buf' = length buf /\ skipn maxlen buf' = skipn maxlen buf /\
      read_line sched stream buf maxlen = Ok (buf', -1, s1, skipn k stream))).
Proof.
  intros L P line. unfold read_line. destruct (Nat.eqb_spec maxlen 0); [lia|].
  destruct (read_line_loop_ok (S (length sched + maxlen)) sched stream [] buf (maxlen - 1)) as (s1 & S1 & R).
  { cbn. lia. }
  { cbn. lia. }
  { cbn. lia. }
  cbn [length app] in R. rewrite Nat.sub_0_r in R. fold line in R.
  assert (LL : (length line <= maxlen - 1)%nat) by (unfold line; rewrite firstn_length; lia).
  exists s1. split; auto. destruct R as [R|(R1 & k & K1 & R2)].
  - left. rewrite R. cbn [bind].
    assert (LS : length (line ++ skipn (length line) buf) = length buf) by (rewrite app_length, skipn_length; lia).
    destruct stream as [|c t].
    + destruct (Nat.ltb_spec 0 (maxlen - 1)).
      * cbn [andb Nat.eqb]. assert (EL : line = []) by (unfold line; cbn; apply firstn_nil). rewrite EL in *. cbn in *.
        eexists. split; [reflexivity|]. split; auto. left. repeat split; auto. lia.
      * rewrite andb_false_r. cbn [Nat.add].
        destruct (skipn (length line) buf) as [|x r] eqn:SK.
        { assert (length (skipn (length line) buf) = 0%nat) by (rewrite SK; reflexivity). rewrite skipn_length in *. lia. }
        rewrite (put_eq line x r) by auto. cbn [bind]. eexists. split; [reflexivity|].
        rewrite app_length in *. cbn [length] in *. split; [lia|]. right. exists r. split; [auto|]. change (S (length line)) with (1 + length line)%nat. rewrite <- skipn_skipn_add, SK. reflexivity.
    + cbn [Nat.add].
      destruct (skipn (length line) buf) as [|x r] eqn:SK.
      { assert (length (skipn (length line) buf) = 0%nat) by (rewrite SK; reflexivity). rewrite skipn_length in *. lia. }
      rewrite (put_eq line x r) by auto. cbn [bind]. eexists. split; [reflexivity|].
      rewrite app_length in *. cbn [length] in *. split; [lia|]. right. exists r. split; [auto|]. change (S (length line)) with (1 + length line)%nat. rewrite <- skipn_skipn_add, SK. reflexivity.
  - right. split; auto. rewrite R2. cbn [bind]. eexists k, _. split; auto.
    assert (LF : length (firstn k line) = k) by (rewrite firstn_length; lia).
    split; [|split; [|reflexivity]].
    + rewrite app_length, LF, skipn_length. lia.
    + rewrite skipn_app, LF, skipn_all2, skipn_skipn_add by lia. cbn [app]. f_equal. lia.
Qed.

(** ** read_n *)
Lemma read_w sched stream w : (0 < w)%nat -> exists s1, suffix s1 sched /\
  ((sched <> [] /\ (length s1 < length sched)%nat /\ 
     (sys_read sched stream w = (IoIntr, s1, stream) \/ (In Fail sched /\ sys_read sched stream w = (IoErr, s1, stream)))) \/
   exists n, (0 < n <= w)%nat /\ (length s1 <= length sched)%nat /\ sys_read sched stream w = (IoOk (firstn n stream), s1, skipn n stream)).
Proof.
  intros W. destruct sched as [|[| |k] s].
  - exists []. split; [apply suffix_refl|]. right. exists w. split; [lia|]. split; auto.
  - exists s. split; [apply suffix_cons, suffix_refl|]. left. split; [discriminate|]. split; [cbn; lia|]. auto.
  - exists s. split; [apply suffix_cons, suffix_refl|]. left. split; [discriminate|]. split; [cbn; lia|]. right. split; [left|]; auto.
  - exists s. split; [apply suffix_cons, suffix_refl|]. right. exists (Nat.min w (Nat.max 1 k)). split; [lia|]. split; [cbn; lia|]. reflexivity.
Qed.

Lemma suffix_trans {A} (a b c : list A) : suffix a b -> suffix b c -> suffix a c.
Proof. intros [u ->] [v ->]. exists (v ++ u). rewrite app_assoc. auto. Qed.
Lemma suffix_in {A} (x : A) a b : suffix a b -> In x a -> In x b.
Proof. intros [u ->] H. apply in_or_app. auto. Qed.

Lemma read_n_loop_ok f : forall sched stream got rest nleft,
  (length sched + nleft < f)%nat -> (nleft <= length rest)%nat ->
  let d := firstn nleft stream in
  exists s1, suffix s1 sched /\
  ((read_n_loop f sched stream (got ++ rest) (length got) nleft =
      Ok (got ++ d ++ skipn (length d) rest, Some (nleft - length d)%nat, s1, skipn (length d) stream)) \/
   (In Fail sched /\ exists k, (k <= length d)%nat /\
      read_n_loop f sched stream (got ++ rest) (length got) nleft = Ok (got ++ firstn k d ++ skipn k rest, None, s1, skipn k stream))).
Proof.
  induction f as [|f IH]; intros sched stream got rest nleft F L; [lia|]. cbv zeta. cbn [read_n_loop].
  destruct (Nat.eqb_spec nleft 0) as [->|NZ].
  { exists sched. split; [apply suffix_refl|]. left. reflexivity. }
  destruct (read_w sched stream nleft ltac:(lia)) as (s1 & S1 & [(NE & LS & [R|(INF & R)])|(n & N & LS & R)]); rewrite R.
  - destruct (IH s1 stream got rest nleft ltac:(lia) L) as (s2 & S2 & H). exists s2. split; [eapply suffix_trans; eauto|].
    destruct H as [H|(H1 & H2)]; [left; exact H|right; split; [eapply suffix_in; eauto|exact H2]].
  - exists s1. split; auto. right. split; auto. exists 0%nat. split; [lia|reflexivity].
  - destruct (Nat.eqb_spec (length (firstn n stream)) 0) as [E|E].
    + assert (stream = []) by (destruct stream; auto; rewrite firstn_length in E; cbn in E; lia). subst stream.
      exists s1. split; auto. left. rewrite firstn_nil, skipn_nil. cbn. rewrite Nat.sub_0_r. reflexivity.
    + set (d := firstn n stream) in *. assert (LD : (length d <= n)%nat) by (unfold d; rewrite firstn_length; lia).
      destruct (split_block rest 0 (length d)) as (p0 & mid & post & EQ & P0 & M0); [lia|].
      destruct p0; [|discriminate]. cbn [app] in EQ. subst rest. rewrite (blit_eq got mid post d) by auto. cbn [bind].
      destruct (IH s1 (skipn n stream) (got ++ d) post (nleft - length d)%nat) as (s2 & S2 & H).
      { lia. }
      { rewrite app_length in L. lia. }
      rewrite app_length, <- !app_assoc in H. exists s2. split; [eapply suffix_trans; eauto|].
      assert (SKN : skipn (length d) stream = skipn n stream).
      { unfold d. rewrite firstn_length. destruct (le_lt_dec n (length stream)); [f_equal; lia|rewrite !skipn_all2 by lia; auto]. }
      assert (FD : firstn nleft stream = d ++ firstn (nleft - length d) (skipn n stream)).
      { rewrite <- SKN. rewrite <- (firstn_skipn (length d) stream) at 1. rewrite firstn_app.
        assert (ED : firstn (length d) stream = d). { unfold d. rewrite firstn_length. destruct (le_lt_dec n (length stream)); [f_equal; lia|rewrite !firstn_all2 by lia; auto]. }
        rewrite ED, firstn_all2 by lia. reflexivity. }
      rewrite FD. set (d2 := firstn (nleft - length d) (skipn n stream)) in *.
      assert (SR : forall m, skipn (length d + m) (mid ++ post) = skipn m post).
      { intros m. rewrite Nat.add_comm, <- skipn_skipn_add. f_equal. rewrite skipn_app, <- M0, skipn_all2, Nat.sub_diag by lia. reflexivity. }
      assert (SS : forall m, skipn (length d + m) stream = skipn m (skipn n stream)).
      { intros m. rewrite Nat.add_comm, <- skipn_skipn_add, SKN. reflexivity. }
      destruct H as [H|(H1 & k & K & H2)].
      * left. rewrite H. rewrite app_length, SR, SS, <- app_assoc. do 4 f_equal. f_equal. lia.
      * right. split; [eapply suffix_in; eauto|]. exists (length d + k)%nat. split; [rewrite app_length; lia|].
        rewrite H2, SR, SS. rewrite firstn_app_2, <- !app_assoc. reflexivity.
Qed.

(** ** write_n *)
Lemma write_n_loop_ok f : forall sched out buf pre rest p nleft,
  (length sched + 1 < f)%nat -> buf = pre ++ rest -> p = length pre -> (nleft <= length rest)%nat ->
  exists s1, suffix s1 sched /\
  (write_n_loop f sched out buf p nleft = Ok (out ++ firstn nleft rest, true, s1) \/
   (In Fail sched /\ exists k, (k < nleft)%nat /\ write_n_loop f sched out buf p nleft = Ok (out ++ firstn k rest, false, s1))).
Proof.
  induction f as [|f IH]; intros sched out buf pre rest p nleft F EB EP L; [lia|]. cbn [write_n_loop].
  destruct (Nat.eqb_spec nleft 0) as [->|NZ].
  { exists sched. split; [apply suffix_refl|]. left. cbn. rewrite app_nil_r. reflexivity. }
  assert (SL : slice buf p nleft = Ok (firstn nleft rest)).
  { rewrite EB, <- (firstn_skipn nleft rest) at 1. rewrite app_assoc.
    rewrite <- app_assoc. apply slice_eq; auto. rewrite firstn_length. lia. }
  rewrite SL. cbn [bind].
  assert (STEP : forall s1 k, suffix s1 sched -> (length s1 + 1 < f)%nat -> (k <= nleft)%nat ->
    exists s2, suffix s2 sched /\
    (write_n_loop f s1 (out ++ firstn k (firstn nleft rest)) buf (p + k) (nleft - k) = Ok (out ++ firstn nleft rest, true, s2) \/
    (In Fail sched /\ exists k0, (k0 < nleft)%nat /\
      write_n_loop f s1 (out ++ firstn k (firstn nleft rest)) buf (p + k) (nleft - k) = Ok (out ++ firstn k0 rest, false, s2)))).
  { intros s1 k S1 FF K.
    destruct (IH s1 (out ++ firstn k (firstn nleft rest)) buf (pre ++ firstn k rest) (skipn k rest) (p + k)%nat (nleft - k)%nat FF) as (s2 & S2 & H).
    { rewrite <- app_assoc, firstn_skipn. auto. }
    { rewrite app_length, firstn_length. lia. }
    { rewrite skipn_length. lia. }
    assert (FS : forall m, firstn k rest ++ firstn m (skipn k rest) = firstn (k + m) rest).
    { intros m. rewrite <- (firstn_skipn k rest) at 3. rewrite firstn_app, firstn_firstn, firstn_length.
      replace (Nat.min (k + m) k) with k by lia. f_equal. f_equal. lia. }
    rewrite firstn_firstn in *. replace (Nat.min k nleft) with k in * by lia.
    exists s2. split; [eapply suffix_trans; eauto|]. destruct H as [H|(H1 & k0 & K0 & H)].
    - left. rewrite H, <- app_assoc, FS. replace (k + (nleft - k))%nat with nleft by lia. reflexivity.
    - right. split; [eapply suffix_in; eauto|]. exists (k + k0)%nat. split; [lia|]. rewrite H, <- app_assoc, FS. reflexivity. }
  destruct sched as [|[| |k] s]; cbn [sys_write].
  - rewrite firstn_length. replace (Nat.min nleft (length rest)) with nleft by lia.
    destruct f as [|f]; [cbn in F; lia|]. rewrite Nat.sub_diag. cbn [write_n_loop Nat.eqb].
    exists []. split; [apply suffix_refl|]. left. rewrite firstn_firstn, Nat.min_id. reflexivity.
  - cbn in F. destruct (IH s out buf pre rest p nleft ltac:(lia) EB EP L) as (s2 & S2 & H).
    exists s2. split; [apply suffix_cons; auto|]. destruct H as [H|(H1 & H2)]; [left; auto|right; split; [right; auto|auto]].
  - exists s. split; [apply suffix_cons, suffix_refl|]. right. split; [left; auto|]. exists 0%nat. split; [lia|]. cbn. rewrite app_nil_r. reflexivity.
  - cbn in F. apply STEP; [apply suffix_cons, suffix_refl|lia|rewrite firstn_length; lia].
Qed.

(** ** get_dir_name *)
Lemma trim_end_snoc f a c : trim_end f (a ++ [c]) = if f c then trim_end f a else a ++ [c].
Proof.
  unfold trim_end. rewrite rev_app_distr. cbn [rev app drop_while]. destruct (f c); auto.
  cbn [rev]. rewrite rev_involutive. reflexivity.
Qed.
Lemma trim_end_prefix f a : exists b, a = trim_end f a ++ b.
Proof.
  induction a as [|c a [b IH]] using rev_ind; [exists []; reflexivity|]. rewrite trim_end_snoc. destruct (f c).
  - exists (b ++ [c]). rewrite app_assoc, <- IH. reflexivity.
  - exists []. rewrite app_nil_r. reflexivity.
Qed.
Lemma trim_end_all f a : trim_end f a = [] -> Forall (fun c => f c = true) a.
Proof.
  induction a as [|c a IH] using rev_ind; [constructor|]. rewrite trim_end_snoc. destruct (f c) eqn:E.
  - intros H. apply Forall_app. auto.
  - intros H. destruct a; discriminate.
Qed.
Lemma trim_end_last f a : trim_end f a = [] \/ exists b c, trim_end f a = b ++ [c] /\ f c = false.
Proof.
  induction a as [|c a IH] using rev_ind; [auto|]. rewrite trim_end_snoc. destruct (f c) eqn:E; auto. right. eauto.
Qed.

(** What the loop over slashes leaves: never less than one character. *)
Definition keep1 (a : list Z) : list Z := match trim_end is_slash a with [] => firstn 1 a | t => t end.
Lemma keep1_snoc a c : a <> [] -> keep1 (a ++ [c]) = if is_slash c then keep1 a else a ++ [c].
Proof.
  intros N. unfold keep1. rewrite trim_end_snoc. destruct (is_slash c).
  - destruct (trim_end is_slash a); auto. destruct a; [congruence|reflexivity].
  - destruct a; [congruence|reflexivity].
Qed.
Lemma keep1_prefix a : exists b, a = keep1 a ++ b.
Proof.
  unfold keep1. destruct (trim_end_prefix is_slash a) as [b H]. destruct (trim_end is_slash a) eqn:E.
  - exists (skipn 1 a). symmetry. apply firstn_skipn.
  - exists b. auto.
Qed.

Lemma zget_snoc a c r : zget ((a ++ [c]) ++ r) (Z.of_nat (length (a ++ [c])) - 1) = Ok c.
Proof.
  unfold zget. rewrite app_length. cbn [length]. destruct (Z.ltb_spec (Z.of_nat (length a + 1) - 1) 0); [lia|].
  replace (Z.to_nat (Z.of_nat (length a + 1) - 1)) with (length a) by lia. rewrite <- app_assoc. apply get_eq. auto.
Qed.

Lemma back_slash_ok a : forall f r, (length a < f)%nat ->
  back_slash f (a ++ r) (Z.of_nat (length a) - 1) = Ok (Z.of_nat (length (keep1 a)) - 1).
Proof.
  induction a as [|c a IH] using rev_ind; intros f r F; (destruct f as [|f]; [lia|]); cbn [back_slash].
  - reflexivity.
  - destruct a as [|b a'] eqn:EA.
    + cbn. unfold keep1, trim_end. cbn. destruct (is_slash c); reflexivity.
    + rewrite <- EA in *. assert (NE : a <> []) by (rewrite EA; discriminate). rewrite keep1_snoc by auto.
      destruct (Z.ltb_spec 0 (Z.of_nat (length (a ++ [c])) - 1)).
      * rewrite zget_snoc. cbn [bind]. fold (is_slash c). destruct (is_slash c); auto.
        rewrite <- app_assoc. rewrite app_length in *. cbn [length] in *.
        replace (Z.of_nat (length a + 1) - 1 - 1) with (Z.of_nat (length a) - 1) by lia. apply IH. lia.
      * rewrite app_length in H. cbn [length] in H. destruct a; [congruence|]. cbn [length] in H. lia.
Qed.
Lemma back_name_ok a : forall f r, (length a < f)%nat ->
  back_name f (a ++ r) (Z.of_nat (length a) - 1) = Ok (Z.of_nat (length (trim_end (fun c => negb (is_slash c)) a)) - 1).
Proof.
  induction a as [|c a IH] using rev_ind; intros f r F; (destruct f as [|f]; [lia|]); cbn [back_name].
  - reflexivity.
  - destruct (Z.leb_spec 0 (Z.of_nat (length (a ++ [c])) - 1)); [|rewrite app_length in H; cbn in H; lia].
    rewrite zget_snoc. cbn [bind]. fold (is_slash c). rewrite trim_end_snoc. destruct (is_slash c); cbn [negb]; auto.
    rewrite <- app_assoc. rewrite app_length in *. cbn [length] in *.
    replace (Z.of_nat (length a + 1) - 1 - 1) with (Z.of_nat (length a) - 1) by lia. apply IH. lia.
Qed.

Lemma all_slash_1 a : a <> [] -> Forall (fun c => is_slash c = true) a -> firstn 1 a = [SLASH].
Proof. intros N F. destruct a as [|c a]; [congruence|]. inversion F; subst. unfold is_slash in H1. apply Z.eqb_eq in H1. subst. reflexivity. Qed.

Lemma dirname_eq a : dirname a = match keep1 (trim_end (fun c => negb (is_slash c)) (keep1 a)) with [] => [DOT] | d => d end.
Proof.
  destruct a as [|c0 a0] eqn:EA; [reflexivity|]. rewrite <- EA. assert (NE : a <> []) by (rewrite EA; discriminate).
  assert (D : dirname a = match trim_end is_slash a with [] => [SLASH] | t =>
    match trim_end (fun c => negb (is_slash c)) t with [] => [DOT]
    | u => match trim_end is_slash u with [] => [SLASH] | v => v end end end) by (rewrite EA; reflexivity).
  rewrite D. clear D EA c0 a0. unfold keep1 at 2. destruct (trim_end is_slash a) as [|x t] eqn:T.
  - apply trim_end_all in T. rewrite (all_slash_1 a) by auto. reflexivity.
  - destruct (trim_end (fun c => negb (is_slash c)) (x :: t)) as [|y u] eqn:U; [reflexivity|].
    unfold keep1. destruct (trim_end is_slash (y :: u)) as [|z v] eqn:V; [|reflexivity].
    apply trim_end_all in V. rewrite all_slash_1; auto; discriminate.
Qed.

Lemma get_dir_name_ok s path dst dstlen : holds s path -> (dstlen <= length dst)%nat ->
  exists o, get_dir_name s dst dstlen = Ok o /\
  if (length (dirname path) <? dstlen)%nat
  then exists dst', o = Some dst' /\ (exists j, dst' = dirname path ++ NUL :: j) /\ length dst' = length dst /\
         skipn dstlen dst' = skipn dstlen dst
  else o = None.
Proof.
  intros H L. unfold get_dir_name. rewrite (strlen_ok s path H). cbn [bind]. destruct H as (C & junk & ->).
  rewrite back_slash_ok by (rewrite app_length; cbn; lia). cbn [bind].
  destruct (keep1_prefix path) as [b1 E1].
  assert (LP1 : length path = (length (keep1 path) + length b1)%nat) by (rewrite E1 at 1; apply app_length).
  pose proof (back_name_ok (keep1 path) (S (S (length (path ++ NUL :: junk)))) (b1 ++ NUL :: junk)
    ltac:(rewrite app_length; lia)) as H2.
  rewrite app_assoc, <- E1 in H2. rewrite H2. cbn [bind]. clear H2.
  set (a2 := trim_end (fun c => negb (is_slash c)) (keep1 path)) in *.
  destruct (trim_end_prefix (fun c => negb (is_slash c)) (keep1 path)) as [b2 E2]. fold a2 in E2.
  assert (LP2 : length (keep1 path) = (length a2 + length b2)%nat) by (rewrite E2 at 1; apply app_length).
  pose proof (back_slash_ok a2 (S (S (length (path ++ NUL :: junk)))) (b2 ++ b1 ++ NUL :: junk)
    ltac:(rewrite app_length; lia)) as H3.
  assert (EP : a2 ++ b2 ++ b1 ++ NUL :: junk = path ++ NUL :: junk).
  { rewrite app_assoc, <- E2, app_assoc, <- E1. reflexivity. }
  rewrite EP in H3. rewrite H3. cbn [bind]. clear H3.
  destruct (keep1_prefix a2) as [b3 E3].
  assert (DN : dirname path = match keep1 a2 with [] => [DOT] | d => d end) by (apply dirname_eq).
  destruct (keep1 a2) as [|z v] eqn:K3.
  - cbn [length]. change (Z.of_nat 0 - 1 <? 0) with true. cbv iota. rewrite DN. cbn [length].
    destruct (Nat.ltb_spec dstlen 2), (Nat.ltb_spec 1 dstlen); try lia.
    + exists None. auto.
    + destruct dst as [|x0 [|x1 dst]]; cbn in L; try lia.
      rewrite (put_eq [] x0 (x1 :: dst)) by auto. cbn [bind app].
      rewrite (put_eq [DOT] x1 dst) by auto. cbn [bind app].
      eexists. split; [reflexivity|]. eexists. split; [reflexivity|]. split; [exists dst; reflexivity|]. split; [reflexivity|].
      destruct dstlen as [|[|m]]; [lia|lia|reflexivity].
  - rewrite <- K3 in *. assert (NE : keep1 a2 <> []) by (rewrite K3; discriminate).
    assert (DN' : dirname path = keep1 a2) by (rewrite DN, K3; reflexivity). rewrite DN'. clear DN DN'.
    assert (LK : (0 < length (keep1 a2))%nat) by (rewrite K3; cbn; lia).
    destruct (Z.ltb_spec (Z.of_nat (length (keep1 a2)) - 1) 0); [lia|].
    replace (Z.to_nat (Z.of_nat (length (keep1 a2)) - 1 + 1)) with (length (keep1 a2)) by lia.
    destruct (Nat.leb_spec dstlen (length (keep1 a2))), (Nat.ltb_spec (length (keep1 a2)) dstlen); try lia.
    + exists None. auto.
    + assert (SL : slice (path ++ NUL :: junk) 0 (length (keep1 a2)) = Ok (keep1 a2)).
      { rewrite <- EP, E3 at 1. rewrite <- app_assoc. apply (slice_eq [] (keep1 a2)); auto. }
      rewrite SL. cbn [bind].
      destruct (split_block dst 0 (length (keep1 a2))) as (p0 & mid & post & EQ & P0 & M0); [lia|].
      destruct p0; [|discriminate]. cbn [app] in EQ. subst dst.
      rewrite (blit_eq [] mid post (keep1 a2)) by auto. cbn [bind app].
      destruct post as [|x post]; [rewrite app_nil_r in L; lia|].
      rewrite (put_eq (keep1 a2) x post) by auto. cbn [bind].
      eexists. split; [reflexivity|]. eexists. split; [reflexivity|]. split; [eauto|].
      split; [rewrite !app_length; cbn; lia|].
      rewrite !skipn_app. rewrite (skipn_all2 mid), (skipn_all2 (keep1 a2)) by lia. rewrite <- M0.
      destruct (dstlen - length mid)%nat eqn:DM; [lia|]. reflexivity.
Qed.

(** ** create_dirs *)
Lemma names_slash a : forall acc b, names acc (a ++ SLASH :: b) = names acc a ++ names [] b.
Proof.
  induction a as [|c a IH]; intros acc b; cbn [app names].
  - change (SLASH =? SLASH) with true. cbv iota. destruct acc; reflexivity.
  - destruct (c =? SLASH).
    + destruct acc; [apply IH|]. cbn [app]. f_equal. apply IH.
    + apply IH.
Qed.
Lemma names_slashes sl s : Forall (fun c => is_slash c = true) sl -> names [] (sl ++ s) = names [] s.
Proof.
  induction sl as [|c sl IH]; intros F; [reflexivity|]. inversion F; subst. cbn [app names].
  unfold is_slash in H1. rewrite H1. auto.
Qed.
Lemma names_comp cs : forall acc, Forall (fun c => is_slash c = false) cs -> (acc ++ cs) <> [] -> names acc cs = [acc ++ cs].
Proof.
  induction cs as [|c cs IH]; intros acc F N; cbn [names].
  - rewrite app_nil_r in *. destruct acc; [congruence|reflexivity].
  - inversion F; subst. unfold is_slash in H1. rewrite H1. rewrite IH; auto; rewrite <- app_assoc; auto.
Qed.
Lemma names_trail sl s : Forall (fun c => is_slash c = true) sl -> names [] (s ++ sl) = names [] s.
Proof.
  induction sl as [|c sl IH]; intros F; [rewrite app_nil_r; reflexivity|]. inversion F; subst.
  unfold is_slash in H1. apply Z.eqb_eq in H1. subst c. rewrite names_slash.
  rewrite <- (app_nil_r sl), names_slashes by auto. apply app_nil_r.
Qed.

Lemma names_eqb_eq a : forall b, names_eqb a b = true <-> a = b.
Proof.
  induction a as [|x a IH]; intros [|y b]; cbn; try (split; congruence).
  destruct (list_eq_dec Z.eq_dec x y); cbn; [rewrite IH; split; congruence|split; congruence].
Qed.
Lemma path_eqb_eq p q : path_eqb p q = true <-> p = q.
Proof.
  destruct p as [a l], q as [b m]. unfold path_eqb. cbn. rewrite andb_true_iff, names_eqb_eq, Bool.eqb_true_iff.
  split; [intros [-> ->]; auto|intros H; inversion H; auto].
Qed.
Lemma fs_add_same fs p : fs_add fs p p = Some Dir.
Proof. unfold fs_add. destruct (path_eqb p p) eqn:E; auto. assert (path_eqb p p = true) by (apply path_eqb_eq; auto). congruence. Qed.
Lemma fs_add_other fs p q : p <> q -> fs_add fs p q = fs q.
Proof. intros N. unfold fs_add. destruct (path_eqb p q) eqn:E; auto. apply path_eqb_eq in E. congruence. Qed.

(** Creating the directories [done ++ prefix of todo], shortest first. *)
Fixpoint walk (deny : fpath -> bool) (fs : fsys) (abs : bool) (don todo : list (list Z)) : fsys * bool :=
  match todo with
  | [] => (fs, true)
  | c :: t =>
      let q := (abs, don ++ [c]) in
      match fs q with
      | Some Dir => walk deny fs abs (don ++ [c]) t
      | Some File => (fs, false)
      | None => if deny q then (fs, false) else walk deny (fs_add fs q) abs (don ++ [c]) t
      end
  end.

Lemma find_slash_ok cs : forall n pre r, Forall (fun c => is_slash c = false /\ c <> NUL) cs -> (length cs < n)%nat ->
  find_slash n (pre ++ cs ++ SLASH :: r) (length pre) = Ok (Some (length pre + length cs)%nat) /\
  find_slash n (pre ++ cs ++ NUL :: r) (length pre) = Ok None.
Proof.
  induction cs as [|c cs IH]; intros n pre r F L; (destruct n; [cbn in L; lia|]); cbn [find_slash app].
  - rewrite !(get_eq pre) by auto. cbn. rewrite Nat.add_0_r. auto.
  - inversion F as [|? ? [F1 F2] F3]; subst. rewrite !(get_eq pre) by auto. cbn [bind]. unfold is_slash in F1. rewrite F1.
    apply Z.eqb_neq in F2. rewrite F2. destruct (IH n (pre ++ [c]) r F3 ltac:(cbn in L; lia)) as [H1 H2].
    rewrite <- !app_assoc in H1, H2. cbn [app] in H1, H2.
    replace (length (pre ++ [c])) with (S (length pre)) in H1, H2 by (rewrite app_length; cbn; lia).
    rewrite H1, H2. split; auto. do 2 f_equal. cbn [length]. lia.
Qed.
Lemma skip_slashes_ok sl : forall n pre c r, Forall (fun c => is_slash c = true) sl -> is_slash c = false -> (length sl < n)%nat ->
  skip_slashes n (pre ++ sl ++ c :: r) (length pre) = Ok (length pre + length sl)%nat.
Proof.
  induction sl as [|x sl IH]; intros n pre c r F NC L; (destruct n; [cbn in L; lia|]); cbn [skip_slashes app].
  - rewrite (get_eq pre) by auto. cbn [bind]. fold (is_slash c). rewrite NC. rewrite Nat.add_0_r. auto.
  - inversion F; subst. rewrite (get_eq pre) by auto. cbn [bind]. fold (is_slash x). rewrite H1.
    pose proof (IH n (pre ++ [x]) c r H2 NC ltac:(cbn in L; lia)) as H.
    rewrite <- app_assoc in H. cbn [app] in H.
    replace (length (pre ++ [x])) with (S (length pre)) in H by (rewrite app_length; cbn; lia).
    rewrite H. f_equal. cbn [length]. lia.
Qed.

Lemma cstr_ok s j : chars_ok s -> cstr (s ++ NUL :: j) = Ok s.
Proof.
  intros C. unfold cstr. rewrite (strlen_ok _ s) by (split; [auto|exists j; auto]). cbn [bind].
  rewrite firstn_app, Nat.sub_diag, firstn_all. cbn. rewrite app_nil_r. reflexivity.
Qed.

(** The first name of a text. *)
Lemma split_name r : names [] r <> [] -> exists sl cs tl, r = sl ++ cs ++ tl /\
  Forall (fun c => is_slash c = true) sl /\ Forall (fun c => is_slash c = false) cs /\ cs <> [] /\
  (tl = [] \/ exists tl', tl = SLASH :: tl').
Proof.
  induction r as [|c r IH]; intros N; [cbn in N; congruence|].
  destruct (is_slash c) eqn:E.
  - unfold is_slash in E. cbn [names] in N. rewrite E in N. destruct (IH N) as (sl & cs & tl & -> & H1 & H2 & H3 & H4).
    exists (c :: sl), cs, tl. repeat split; auto.
  - clear IH N. exists [].
    assert (G : exists cs tl, c :: r = cs ++ tl /\ Forall (fun c => is_slash c = false) cs /\ cs <> [] /\ (tl = [] \/ exists tl', tl = SLASH :: tl')).
    { revert c E. induction r as [|d r IH]; intros c E.
      - exists [c], []. repeat split; auto; discriminate.
      - destruct (is_slash d) eqn:D.
        + exists [c], (d :: r). unfold is_slash in D. apply Z.eqb_eq in D. subst d. repeat split; auto; try discriminate. right. eauto.
        + destruct (IH d D) as (cs & tl & H1 & H2 & H3 & H4). exists (c :: cs), tl. cbn. rewrite H1. repeat split; auto; discriminate. }
    destruct G as (cs & tl & H1 & H2 & H3 & H4). exists cs, tl. repeat split; auto.
Qed.

Lemma names_end_ne l : is_slash l = false -> forall a acc, names acc (a ++ [l]) <> [].
Proof.
  intros NL. unfold is_slash in NL. induction a as [|x a IH]; intros acc; cbn [app names].
  - rewrite NL. destruct acc; discriminate.
  - destruct (x =? SLASH); [destruct acc; [apply IH|discriminate]|apply IH].
Qed.

Definition abs_of (s : list Z) : bool := match s with c :: _ => c =? SLASH | [] => false end.
Lemma abs_prefix a b : a <> [] -> abs_of (a ++ b) = abs_of a.
Proof. destruct a; [congruence|reflexivity]. Qed.

(** The done part ends with a slash (or is empty); the rest does not. *)
Lemma dirs_loop_ok deny abs : forall n rest, (length rest <= n)%nat -> forall f fs don junk,
  (length rest < f)%nat -> chars_ok (don ++ rest) -> names [] rest <> [] -> 
  (exists l, rest = removelast rest ++ [l] /\ is_slash l = false) ->
  (don = [] \/ exists d, don = d ++ [SLASH]) -> abs_of (don ++ rest) = abs ->
  fs (abs, names [] don) = Some Dir ->
  let w := walk deny fs abs (names [] don) (names [] rest) in
  dirs_loop f deny fs (don ++ rest ++ NUL :: junk) (length don) = Ok (fst w, if snd w then 0 else -1).
Proof.
  induction n as [|n IH]; intros rest RN f fs don junk F C NE LAST DON ABS PD; cbv zeta.
  { destruct rest; [cbn in NE; congruence|cbn in RN; lia]. }
  destruct f as [|f]; [lia|].
  destruct (split_name rest NE) as (sl & cs & tl & ER & FS & FC & CN & TL).
  assert (CC : chars_ok don /\ chars_ok sl /\ chars_ok cs /\ chars_ok tl).
  { rewrite ER in C. apply chars_app in C. destruct C as [? C]. apply chars_app in C. destruct C as [? C]. apply chars_app in C. tauto. }
  destruct CC as (C1 & C2 & C3 & C4).
  assert (FC' : Forall (fun c => is_slash c = false /\ c <> NUL) cs).
  { apply Forall_forall. intros x X. rewrite Forall_forall in FC. unfold chars_ok in C3. rewrite Forall_forall in C3.
    split; auto. specialize (C3 x X). unfold char_ok, NUL in *. lia. }
  cbn [dirs_loop].
  assert (HC : exists c0 cs0, cs = c0 :: cs0 /\ is_slash c0 = false).
  { destruct cs as [|c0 cs0]; [congruence|]. inversion FC; subst. eauto. }
  destruct HC as (c0 & cs0 & EC & NC0).
  assert (LBUF : (length rest <= length (don ++ rest ++ NUL :: junk))%nat) by (rewrite !app_length; lia).
  assert (SK : skip_slashes (S (length (don ++ rest ++ NUL :: junk))) (don ++ rest ++ NUL :: junk) (length don) = Ok (length don + length sl)%nat).
  { replace (don ++ rest ++ NUL :: junk) with (don ++ sl ++ c0 :: (cs0 ++ tl ++ NUL :: junk)) at 2
      by (rewrite ER, EC, <- !app_assoc; reflexivity).
    apply skip_slashes_ok; auto. rewrite ER, !app_length in LBUF |- *. lia. }
  rewrite SK. cbn [bind].
  assert (NMS : names [] rest = cs :: names [] tl).
  { rewrite ER. rewrite names_slashes by auto. destruct TL as [->|[tl' ->]].
    - rewrite app_nil_r. cbn [names]. rewrite (names_comp cs []) by auto. reflexivity.
    - rewrite names_slash. rewrite (names_comp cs []) by auto. cbn [names]. change (SLASH =? SLASH) with true. reflexivity. }
  assert (NMD : names [] (don ++ sl ++ cs) = names [] don ++ [cs]).
  { destruct DON as [->|[d ->]].
    - cbn [app]. rewrite names_slashes by auto. rewrite (names_comp cs []) by auto. rewrite ?app_nil_r. reflexivity.
    - rewrite <- app_assoc. cbn [app]. rewrite !names_slash. cbn [names]. rewrite app_nil_r.
      rewrite names_slashes by auto. rewrite (names_comp cs []) by auto. rewrite ?app_nil_r. reflexivity. }
  assert (PO : path_of (don ++ sl ++ cs) = (abs, names [] don ++ [cs])).
  { unfold path_of. rewrite NMD. f_equal. fold (abs_of (don ++ sl ++ cs)). rewrite <- ABS, ER.
    assert (N : don ++ sl ++ cs <> []) by (rewrite EC; destruct don; [destruct sl|]; discriminate).
    rewrite <- (abs_prefix (don ++ sl ++ cs) tl N). rewrite <- !app_assoc. reflexivity. }
  assert (CNM : chars_ok (don ++ sl ++ cs)) by (repeat (apply Forall_app; split); auto).
  assert (RL : removelast (names [] don ++ [cs]) = names [] don) by apply removelast_last.
  set (q := (abs, names [] don ++ [cs])) in *.
  (* what mkdir does *)
  assert (MK : sys_mkdir deny fs q = match fs q with Some _ => (fs, MkExist) | None => if deny q then (fs, MkOther) else (fs_add fs q, MkOk) end).
  { unfold sys_mkdir. destruct (fs q); auto. cbn [fst snd q]. rewrite RL, PD. reflexivity. }
  rewrite NMS. cbn [walk]. fold q.
  destruct TL as [->|[tl' ->]].
  - rewrite !app_nil_r in *. 
    assert (FN : find_slash (S (length (don ++ rest ++ NUL :: junk))) (don ++ rest ++ NUL :: junk) (length don + length sl) = Ok None).
    { replace (don ++ rest ++ NUL :: junk) with ((don ++ sl) ++ cs ++ NUL :: junk) at 2 by (rewrite ER, <- !app_assoc; reflexivity).
      rewrite <- app_length. apply find_slash_ok; auto. rewrite ER, !app_length in LBUF |- *. lia. }
    rewrite FN. cbn [bind].
    assert (CS : cstr (don ++ rest ++ NUL :: junk) = Ok (don ++ sl ++ cs)).
    { replace (don ++ rest ++ NUL :: junk) with ((don ++ sl ++ cs) ++ NUL :: junk) by (rewrite ER, <- !app_assoc; reflexivity). apply cstr_ok; auto. }
    rewrite CS. cbn [bind]. rewrite PO, MK. cbn [names].
    destruct (fs q) as [[|]|] eqn:FQ; cbn [walk]; rewrite ?FQ; cbn [fst snd]; auto.
    destruct (deny q); auto.
  - assert (FN : find_slash (S (length (don ++ rest ++ NUL :: junk))) (don ++ rest ++ NUL :: junk) (length don + length sl) = Ok (Some (length (don ++ sl ++ cs)))).
    { replace (don ++ rest ++ NUL :: junk) with ((don ++ sl) ++ cs ++ SLASH :: tl' ++ NUL :: junk) at 2 by (rewrite ER, <- !app_assoc; reflexivity).
      rewrite <- app_length. replace (length (don ++ sl ++ cs)) with (length (don ++ sl) + length cs)%nat by (rewrite !app_length; lia).
      apply find_slash_ok; auto. rewrite ER, !app_length in LBUF |- *. lia. }
    rewrite FN. cbn [bind].
    assert (EB : don ++ rest ++ NUL :: junk = (don ++ sl ++ cs) ++ SLASH :: tl' ++ NUL :: junk) by (rewrite ER, <- !app_assoc; reflexivity).
    rewrite EB. rewrite (put_eq (don ++ sl ++ cs) SLASH (tl' ++ NUL :: junk)) by auto. cbn [bind].
    rewrite cstr_ok by auto. cbn [bind]. rewrite PO, MK.
    assert (GO : forall fs', fs' q = Some Dir ->
      (do buf2 <- put ((don ++ sl ++ cs) ++ NUL :: tl' ++ NUL :: junk) (length (don ++ sl ++ cs)) SLASH;
       dirs_loop f deny fs' buf2 (S (length (don ++ sl ++ cs)))) =
      (let w := walk deny fs' abs (names [] don ++ [cs]) (names [] (SLASH :: tl')) in Ok (fst w, if snd w then 0 else -1))).
    { intros fs' Q. rewrite (put_eq (don ++ sl ++ cs) NUL (tl' ++ NUL :: junk)) by auto. cbn [bind].
      assert (NT : names [] tl' <> [] /\ exists l, tl' = removelast tl' ++ [l] /\ is_slash l = false).
      { destruct LAST as (l & EL & NL).
        assert (TN : tl' <> []).
        { intros ->. rewrite ER in EL. assert (X : last (sl ++ cs ++ [SLASH]) 0 = last (removelast (sl ++ cs ++ [SLASH]) ++ [l]) 0) by congruence.
          rewrite app_assoc, !last_last in X. subst l. discriminate. }
        assert (TL : tl' = removelast tl' ++ [last tl' 0]) by (apply app_removelast_last; auto).
        assert (LL : last tl' 0 = l).
        { assert (X : last rest 0 = l) by (rewrite EL; apply last_last).
          rewrite <- X, ER, TL. rewrite last_last. rewrite app_comm_cons, !app_assoc. symmetry. apply last_last. }
        rewrite LL in TL. split; [|eauto].
        rewrite TL. apply names_end_ne; auto. }
      destruct NT as [NT LT].
      pose proof (IH tl' ltac:(rewrite ER, !app_length in RN; cbn in RN; lia) f fs' ((don ++ sl ++ cs) ++ [SLASH]) junk) as H.
      cbv zeta in H. rewrite names_slash in H. cbn [names] in H. rewrite app_nil_r, NMD in H.
      replace (((don ++ sl ++ cs) ++ [SLASH]) ++ tl' ++ NUL :: junk) with ((don ++ sl ++ cs) ++ SLASH :: tl' ++ NUL :: junk) in H
        by (rewrite <- (app_assoc (don ++ sl ++ cs) [SLASH]); reflexivity).
      replace (length ((don ++ sl ++ cs) ++ [SLASH])) with (S (length (don ++ sl ++ cs))) in H by (rewrite (app_length _ [SLASH]); cbn [length]; lia).
      cbn [names]. change (SLASH =? SLASH) with true. cbv iota. cbv zeta. apply H; auto.
      - rewrite ER, !app_length in F. cbn in F. lia.
      - rewrite <- app_assoc. apply Forall_app. split; auto.
      - right. eauto.
      - rewrite <- ABS, ER. rewrite <- !app_assoc. reflexivity. }
    destruct (fs q) as [[|]|] eqn:FQ; rewrite ?FQ; cbn [fst snd].
    + apply GO; auto.
    + reflexivity.
    + destruct (deny q); [reflexivity|]. apply GO. apply fs_add_same.
Qed.

Lemma trim_slashes_ok : forall k f a junk, chars_ok a -> length a = k -> (k < f)%nat ->
  exists junk', trim_slashes f (a ++ NUL :: junk) (Z.of_nat (length a) - 1) = Ok (keep1 a ++ NUL :: junk') /\
    (length (keep1 a ++ NUL :: junk') = length (a ++ NUL :: junk)).
Proof.
  intros k f a. revert k f. induction a as [|c a IH] using rev_ind; intros k f junk C L F; (destruct f as [|f]; [lia|]); cbn [trim_slashes].
  - exists junk. auto.
  - destruct a as [|b a'] eqn:EA.
    + exists junk. cbn. unfold keep1, trim_end. cbn. destruct (is_slash c); auto.
    + rewrite <- EA in *. assert (NE : a <> []) by (rewrite EA; discriminate). rewrite keep1_snoc by auto.
      assert (LA : (0 < length a)%nat) by (rewrite EA; cbn; lia).
      destruct (Z.ltb_spec 0 (Z.of_nat (length (a ++ [c])) - 1)); [|rewrite app_length in H; cbn [length] in H; lia].
      rewrite zget_snoc. cbn [bind]. fold (is_slash c). destruct (is_slash c); [|exists junk; auto].
      rewrite app_length. cbn [length]. replace (Z.to_nat (Z.of_nat (length a + 1) - 1)) with (length a) by lia.
      rewrite <- app_assoc. cbn [app]. rewrite (put_eq a c) by auto. cbn [bind].
      apply chars_app in C. rewrite app_length in L. cbn [length] in L.
      destruct (IH (length a) f (NUL :: junk) (proj1 C) eq_refl ltac:(lia)) as (j' & E1 & E2).
      replace (Z.of_nat (length a + 1) - 1 - 1) with (Z.of_nat (length a) - 1) by lia.
      exists j'. split; auto. rewrite E2, !app_length. cbn. lia.
Qed.

Lemma keep1_names a : names [] (keep1 a) = names [] a /\ (a <> [] -> abs_of (keep1 a) = abs_of a).
Proof.
  split; [|intros N].
  - unfold keep1. destruct (trim_end is_slash a) as [|x t] eqn:E.
    + apply trim_end_all in E. destruct a as [|c a]; [reflexivity|]. cbn [firstn].
      rewrite <- (app_nil_r (c :: a)), names_slashes by auto. inversion E; subst. unfold is_slash in H1. cbn. rewrite H1. reflexivity.
    + rewrite <- E. clear x t E. induction a as [|c a IH] using rev_ind; [reflexivity|]. rewrite trim_end_snoc.
      destruct (is_slash c) eqn:S; [|reflexivity]. rewrite IH. symmetry. apply names_trail. auto.
  - destruct (keep1_prefix a) as [b E]. rewrite E at 2. symmetry. apply abs_prefix. unfold keep1.
    destruct (trim_end is_slash a); [destruct a; [congruence|discriminate]|discriminate].
Qed.

Lemma keep1_last a : names [] a <> [] -> exists l, keep1 a = removelast (keep1 a) ++ [l] /\ is_slash l = false.
Proof.
  intros N. unfold keep1. destruct (trim_end is_slash a) as [|x t] eqn:E.
  - exfalso. apply N. apply trim_end_all in E. rewrite <- (app_nil_r a), names_slashes; auto.
  - rewrite <- E. destruct (trim_end_last is_slash a) as [H|(b & c & H & HC)]; [congruence|].
    exists c. rewrite H, removelast_last. auto.
Qed.

Lemma create_dirs_walk deny fs pmax junk dir_name s : fs_ok fs -> holds dir_name s -> s <> [] -> length junk = pmax ->
  let q := path_of s in
  let w := walk deny fs (fst q) [] (snd q) in
  create_dirs deny fs pmax junk dir_name =
  match fs q with
  | Some Dir => Ok (fs, 0) | Some File => Ok (fs, -1)
  | None => if (pmax <=? length s)%nat then Ok (fs, -1) else Ok (fst w, if snd w then 0 else -1)
  end.
Proof.
  intros (FR & FT) (C & j & ->) NE LJ. cbv zeta. unfold create_dirs. rewrite cstr_ok by auto. cbn [bind].
  destruct s as [|c0 s0] eqn:ES; [congruence|]. rewrite <- ES in *. clear NE.
  destruct (fs (path_of s)) as [[|]|] eqn:FQ; auto.
  assert (NN : names [] s <> []).
  { intros N. unfold path_of in FQ. rewrite N in FQ. rewrite FR in FQ. discriminate. }
  destruct (Nat.eq_dec pmax 0) as [Z0|NZ].
  { rewrite Z0. rewrite (strlcpy_zero junk 0 _ s) by (split; [auto|exists j; auto]). cbn [bind]. reflexivity. }
  pose proof (strlcpy_ok [] junk [] (s ++ NUL :: j) s pmax ltac:(split; [auto|exists j; auto]) LJ ltac:(lia)) as CP.
  cbn [app length] in CP. rewrite !app_nil_r in CP. rewrite CP. cbn [bind]. 
  destruct (Nat.leb_spec pmax (length s)); auto.
  assert (EC : copied junk s = s ++ NUL :: skipn (S (length s)) junk).
  { unfold copied. rewrite LJ, firstn_all2 by lia. do 3 f_equal. lia. }
  rewrite EC. rewrite (strlen_ok _ s) by (split; [auto|eauto]). cbn [bind].
  destruct (trim_slashes_ok (length s) (S (length (s ++ NUL :: skipn (S (length s)) junk))) s (skipn (S (length s)) junk) C eq_refl
    ltac:(rewrite app_length; lia)) as (j' & E1 & E2).
  rewrite E1. cbn [bind].
  destruct (keep1_names s) as [K1 K2]. 
  pose proof (dirs_loop_ok deny (abs_of s) (length (keep1 s)) (keep1 s) (le_n _)
    (S (length (keep1 s ++ NUL :: j'))) fs [] j') as HD. cbv zeta in HD. cbn [app length] in HD.
  rewrite K1 in HD. rewrite HD; auto.
  - rewrite app_length. cbn. lia.
  - destruct (keep1_prefix s) as [b EB]. rewrite EB in C. apply chars_app in C. tauto.
  - apply keep1_last; auto.
  - apply K2. congruence.
Qed.

(** Properties of walk. *)
Lemma walk_props deny abs : forall todo fs don, fs_ok fs -> fs (abs, don) = Some Dir ->
  let w := walk deny fs abs don todo in
  fs_ok (fst w) /\
  (forall p, fs p <> None -> fst w p = fs p) /\
  (forall p, fs p = None -> fst w p <> None -> fst w p = Some Dir /\ exists k, p = (abs, don ++ firstn k todo)) /\
  (snd w = true -> forall k, fst w (abs, don ++ firstn k todo) = Some Dir) /\
  (snd w = false <-> exists k, fs (abs, don ++ firstn k todo) = Some File \/ 
     (fs (abs, don ++ firstn k todo) = None /\ deny (abs, don ++ firstn k todo) = true)).
Proof.
  induction todo as [|c t IH]; intros fs don OK D; cbv zeta; cbn [walk].
  - cbn [fst snd]. split; auto. split; auto. split; [congruence|]. split.
    + intros _ k. rewrite firstn_nil, app_nil_r. auto.
    + split; [discriminate|]. intros [k H]. rewrite firstn_nil, app_nil_r in H. destruct H as [H|[H _]]; congruence.
  - set (q := (abs, don ++ [c])) in *.
    assert (SH : forall k, don ++ firstn (S k) (c :: t) = (don ++ [c]) ++ firstn k t) by (intros; rewrite <- app_assoc; reflexivity).
    destruct (fs q) as [[|]|] eqn:FQ.
    + destruct (IH fs (don ++ [c]) OK FQ) as (H1 & H2 & H3 & H4 & H5). split; auto. split; auto. split.
      { intros p A B. destruct (H3 p A B) as (X & k & Y). split; auto. exists (S k). rewrite SH. auto. }
      split.
      { intros S [|k]; [cbn; rewrite app_nil_r, H2; congruence|]. rewrite SH. auto. }
      rewrite H5. split; intros [k K].
      * exists (S k). rewrite SH. auto.
      * destruct k as [|k]; [cbn in K; rewrite app_nil_r in K; destruct K as [K|[K _]]; congruence|]. rewrite SH in K. eauto.
    + cbn [fst snd]. split; auto. split; auto. split; [congruence|]. split; [discriminate|]. split; auto. intros _. exists 1%nat. left. exact FQ.
    + destruct (deny q) eqn:DQ.
      * cbn [fst snd]. split; auto. split; auto. split; [congruence|]. split; [discriminate|]. split; auto. intros _. exists 1%nat. right. auto.
      * assert (OK' : fs_ok (fs_add fs q)).
        { destruct OK as [O1 O2]. split.
          - intros a. rewrite fs_add_other; auto. unfold q. destruct don; discriminate.
          - intros a l x H. assert (NQ : q <> (a, l)).
            { intros E. 
              (* q has nothing below it *)
              unfold q in E. injection E as <- <-. rewrite fs_add_other in H.
              - specialize (O2 abs (don ++ [c]) x H). fold q in O2. congruence.
              - unfold q. intros X. inversion X. apply (f_equal (@length _)) in H1. rewrite !app_length in H1. cbn in H1. lia. }
            rewrite (fs_add_other fs q (a, l)) by auto. destruct (path_eqb q (a, l ++ [x])) eqn:EQ.
            + apply path_eqb_eq in EQ. unfold q in EQ. inversion EQ. apply app_inj_tail in H2. destruct H2 as [<- _]. subst a. auto.
            + rewrite fs_add_other in H; [apply (O2 a l x H)|]. intros E. apply path_eqb_eq in E. congruence. }
        destruct (IH (fs_add fs q) (don ++ [c]) OK' (fs_add_same fs q)) as (H1 & H2 & H3 & H4 & H5).
        assert (Q2 : fst (walk deny (fs_add fs q) abs (don ++ [c]) t) q = Some Dir).
        { rewrite H2; rewrite fs_add_same; congruence. }
        split; auto. split.
        { intros p A. assert (q <> p) by congruence. rewrite H2; rewrite fs_add_other; auto. }
        split.
        { intros p A B. destruct (path_eqb q p) eqn:E.
          - apply path_eqb_eq in E. subst p. split; auto. exists 1%nat. reflexivity.
          - assert (q <> p) by (intros X; apply path_eqb_eq in X; congruence).
            destruct (H3 p) as (X & k & Y); auto; [rewrite fs_add_other; auto|]. split; auto. exists (S k). rewrite SH. auto. }
        split.
        { intros S [|k]; [cbn; rewrite app_nil_r|rewrite SH; auto].
          rewrite H2; rewrite fs_add_other; try congruence; unfold q; intros X; inversion X;
          apply (f_equal (@length _)) in H0; rewrite app_length in H0; cbn in H0; lia. }
        rewrite H5. split; intros [k K].
        -- exists (S k). rewrite SH. destruct (path_eqb q (abs, (don ++ [c]) ++ firstn k t)) eqn:E.
           ++ apply path_eqb_eq in E. rewrite <- E in K. rewrite fs_add_same in K. destruct K as [K|[K _]]; congruence.
           ++ assert (q <> (abs, (don ++ [c]) ++ firstn k t)) by (intros X; apply path_eqb_eq in X; congruence).
              rewrite fs_add_other in K by auto. auto.
        -- destruct k as [|k]; [cbn in K; rewrite app_nil_r in K; destruct K as [K|[K _]]; congruence|]. rewrite SH in K.
           destruct (path_eqb q (abs, (don ++ [c]) ++ firstn k t)) eqn:E.
           ++ apply path_eqb_eq in E. rewrite <- E in K. destruct K as [K|[_ K]]; congruence.
           ++ assert (q <> (abs, (don ++ [c]) ++ firstn k t)) by (intros X; apply path_eqb_eq in X; congruence).
              exists k. rewrite fs_add_other by auto. auto.
Qed.
