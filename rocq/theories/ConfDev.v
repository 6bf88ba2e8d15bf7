(** Device strings: the arguments, and what they denote. *)
From Coq Require Import String.
From Verif Require Import Base BaseProof Chars Fmt LexModel StrModel FnameModel FnameSpec FnameProof OptModel StrSpec StrProof QuerySpec QueryProof LexSpec LexProof
  ConfModel ConfSpec ConfProof.
Local Open Scope Z_scope.
Local Open Scope list_scope.

(** ** Arguments *)
Lemma words_fuel : forall n m s, (length s < n)%nat -> (length s < m)%nat -> words n s = words m s.
Proof.
  induction n as [|n IH]; intros m s N M; [lia|]. destruct m as [|m]; [lia|]. rewrite !words_S.
  destruct (first_word s) as [w q r| |] eqn:FW; auto. destruct (word_rest _ _ _ _ FW) as (L & _ & _). rewrite (IH m r) by lia. reflexivity.
Qed.
Lemma c_string_at buf p w : str_at buf p w -> c_string (skipn p buf) = Ok w.
Proof.
  intros (C & pre & junk & -> & <-). rewrite skipn_app, skipn_all, Nat.sub_diag. cbn [skipn app]. apply c_string_ok; auto.
  rewrite firstn_app. rewrite firstn_all2 by lia. replace (S (length w) - length w)%nat with 1%nat by lia. reflexivity.
Qed.
Lemma replaced_chars c sub s : chars_ok sub -> chars_ok s -> chars_ok (replaced c sub s).
Proof.
  intros CS. assert (G : forall n s, (length s <= n)%nat -> chars_ok s -> chars_ok (replaced c sub s)).
  { clear s. induction n as [|n IH]; intros [|a s] L C; cbn [length] in L; try lia; try constructor.
    cbn [replaced]. inversion C as [|? ? CA CT]; subst. destruct (a =? PERCENT).
    - destruct s as [|b s]; [constructor; auto; constructor|]. inversion CT; subst. cbn [length] in L. destruct (b =? c).
      + apply Forall_app. split; auto. apply IH; auto. lia.
      + constructor; auto. apply IH; auto. cbn [length]. lia.
    - constructor; auto. apply IH; auto. lia. }
  intros C. eapply G; eauto.
Qed.

Lemma subst_words_ok name buf ws wqs : chars_ok name ->
  Forall2 (fun pw wq => str_at buf (fst pw) (fst wq) /\ snd pw = snd wq) ws wqs ->
  Forall (fun w => snd w = QUOTE \/ (length (argument name w) < MAX_LINE)%nat) wqs ->
  subst_words name buf ws = Ok (Some (map (argument name) wqs)).
Proof.
  intros CN. induction 1 as [|[p q] [w q'] ws wqs [SA Q] F2 IH]; intros F; [reflexivity|]. cbn [subst_words map fst snd] in *. subst q'.
  inversion F as [|? ? H F']; subst. rewrite (c_string_at _ _ _ SA). cbn [bind]. unfold argument at 1 in H. cbn [fst snd] in H.
  unfold argument at 1. cbn [fst snd]. destruct (q =? QUOTE) eqn:EQ; cbn [bind]; [rewrite IH by auto; reflexivity|].
  destruct H as [H|H]; [apply Z.eqb_neq in EQ; congruence|].
  assert (CW : chars_ok w) by apply SA. pose proof (replaced_chars 78 name w CN CW) as CR'.
  destruct (subst_ok (repeat 0 MAX_LINE) MAX_LINE (cstr w) w 78 (Some (cstr name)) name) as (dst & rv & ES & LD & R).
  - split; [exact CW|]. exists []. reflexivity.
  - split; [exact CN|]. exists []. reflexivity.
  - exact CN.
  - discriminate.
  - apply repeat_length.
  - unfold MAX_LINE. lia.
  - rewrite ES. cbn [bind]. unfold argument in H. cbn [snd fst] in H. apply Nat.ltb_lt in H as H'. rewrite H' in R. destruct R as (-> & j & ->).
    destruct (Z.ltb_spec (Z.of_nat (length (replaced 78 name w))) 0); [lia|].
    rewrite (c_string_ok _ (replaced 78 name w)); auto.
    + cbn [bind]. rewrite IH by auto. reflexivity.
    + rewrite firstn_app. rewrite firstn_all2 by lia.
      replace (S (length (replaced 78 name w)) - length (replaced 78 name w))%nat with 1%nat by lia. reflexivity.
Qed.

Lemma dev_args_ok E name s args : plain_text E s -> chars_ok name -> ~ lone_quote s -> device_words name s args ->
  dev_args E name s = Ok (Some args).
Proof.
  intros (C & I) CN NL (ws & W & -> & F). unfold dev_args.
  destruct (parse_words_ok (e_iso E) (S (length (cstr s))) s ltac:(unfold cstr; rewrite app_length; cbn; lia) (cstr s) 0
    ltac:(split; [auto|exists [], []; split; reflexivity]) I NL) as (pws & buf & rc & EP & F2 & RC & _).
  rewrite (words_fuel _ (S (length s))), W in F2, RC by (unfold cstr; rewrite ?app_length; cbn; lia). cbn [fst snd] in *.
  rewrite EP. cbn [bind]. rewrite (subst_words_ok _ _ _ _ CN F2 F). cbn [bind]. subst rc. reflexivity.
Qed.

(** A word that gets too long by its %N. *)
Lemma subst_words_long name buf ws wqs : chars_ok name ->
  Forall2 (fun pw wq => str_at buf (fst pw) (fst wq) /\ snd pw = snd wq) ws wqs ->
  Exists (fun w => snd w <> QUOTE /\ (MAX_LINE <= length (argument name w))%nat) wqs ->
  subst_words name buf ws = Ok None.
Proof.
  intros CN. induction 1 as [|[p q] [w q'] ws wqs [SA Q] F2 IH]; intros F; [inversion F|]. cbn [subst_words fst snd] in *. subst q'.
  rewrite (c_string_at _ _ _ SA). cbn [bind].
  assert (CW : chars_ok w) by apply SA. pose proof (replaced_chars 78 name w CN CW) as CR'.
  destruct (q =? QUOTE) eqn:EQ; cbn [bind].
  - inversion F as [? ? [H _]|? ? H]; subst; [apply Z.eqb_eq in EQ; cbn [snd] in H; congruence|]. rewrite IH by auto. reflexivity.
  - destruct (subst_ok (repeat 0 MAX_LINE) MAX_LINE (cstr w) w 78 (Some (cstr name)) name) as (dst & rv & ES & LD & R).
    + split; [exact CW|]. exists []. reflexivity.
    + split; [exact CN|]. exists []. reflexivity.
    + exact CN.
    + discriminate.
    + apply repeat_length.
    + unfold MAX_LINE. lia.
    + rewrite ES. cbn [bind]. destruct (Nat.ltb_spec (length (replaced 78 name w)) MAX_LINE) as [L|L].
      * destruct R as (-> & j & ->). destruct (Z.ltb_spec (Z.of_nat (length (replaced 78 name w))) 0); [lia|].
        rewrite (c_string_ok _ (replaced 78 name w)); auto.
        -- cbn [bind]. inversion F as [? ? [_ H']|? ? H']; subst; [exfalso; unfold argument in H'; cbn [fst snd] in H'; rewrite EQ in H'; lia|]. rewrite IH by auto. reflexivity.
        -- rewrite firstn_app. rewrite firstn_all2 by lia.
           replace (S (length (replaced 78 name w)) - length (replaced 78 name w))%nat with 1%nat by lia. reflexivity.
      * destruct R as [-> _]. reflexivity.
Qed.
Lemma dev_args_long E name s ws bad : plain_text E s -> chars_ok name -> ~ lone_quote s -> words (S (length s)) s = (ws, bad) ->
  Exists (fun w => snd w <> QUOTE /\ (MAX_LINE <= length (argument name w))%nat) ws -> dev_args E name s = Ok None.
Proof.
  intros (C & I) CN NL W F. unfold dev_args.
  destruct (parse_words_ok (e_iso E) (S (length (cstr s))) s ltac:(unfold cstr; rewrite app_length; cbn; lia) (cstr s) 0
    ltac:(split; [auto|exists [], []; split; reflexivity]) I NL) as (pws & buf & rc & EP & F2 & RC & _).
  rewrite (words_fuel _ (S (length s))), W in F2, RC by (unfold cstr; rewrite ?app_length; cbn; lia). cbn [fst snd] in *.
  rewrite EP. cbn [bind]. rewrite (subst_words_long _ _ _ _ CN F2 F). reflexivity.
Qed.

(** A quote that is not closed. *)
Lemma dev_args_unmatched E name s ws : plain_text E s -> chars_ok name -> ~ lone_quote s -> words (S (length s)) s = (ws, true) -> dev_args E name s = Ok None.
Proof.
  intros P CN NL W.
  assert (D : Exists (fun w => snd w <> QUOTE /\ (MAX_LINE <= length (argument name w))%nat) ws \/ Forall (fun w => snd w = QUOTE \/ (length (argument name w) < MAX_LINE)%nat) ws).
  { clear. induction ws as [|w ws IH]; [right; constructor|]. destruct IH as [IH|IH]; [left; now apply Exists_cons_tl|].
    destruct (Z.eq_dec (snd w) QUOTE); [right; constructor; auto|]. destruct (Nat.lt_ge_cases (length (argument name w)) MAX_LINE); [right; constructor; auto|left; apply Exists_cons_hd; auto]. }
  destruct D as [D|D]; [eapply dev_args_long; eassumption|]. destruct P as (C & I). unfold dev_args.
  destruct (parse_words_ok (e_iso E) (S (length (cstr s))) s ltac:(unfold cstr; rewrite app_length; cbn; lia) (cstr s) 0
    ltac:(split; [auto|exists [], []; split; reflexivity]) I NL) as (pws & buf & rc & EP & F2 & RC & _).
  rewrite (words_fuel _ (S (length s))), W in F2, RC by (unfold cstr; rewrite ?app_length; cbn; lia). cbn [fst snd] in *.
  rewrite EP. cbn [bind]. rewrite (subst_words_ok _ _ _ _ CN F2 D). cbn [bind]. subst rc. reflexivity.
Qed.

(** ** Paths *)
Lemma absolute_ok s : absolute s = true <-> exists t, s = SLASH :: t.
Proof.
  destruct s as [|c s]; cbn [absolute]; [split; [discriminate|intros [t H]; discriminate]|].
  destruct (Z.eqb_spec c SLASH) as [->|N]; split; intros H; eauto; try discriminate. destruct H as [t H]. congruence.
Qed.
Lemma full_path_ok E s path : full_path (e_cwd E) s = Some path <-> located E s path.
Proof.
  unfold full_path, located, join. destruct (absolute s) eqn:A.
  - apply absolute_ok in A as A'. split.
    + intros X. injection X as <-. left. auto.
    + intros [[_ ->]|[N _]]; [reflexivity|]. destruct A' as [t ->]. destruct (N t eq_refl).
  - assert (N : forall t, s <> SLASH :: t).
    { intros t ->. cbn in A. discriminate. }
    destruct (PATH_MAX <=? _)%nat eqn:L; split.
    + discriminate.
    + intros [[[t ->] _]|(_ & -> & H)]; [destruct (N t eq_refl)|]. apply Nat.leb_le in L. lia.
    + intros X. injection X as <-. apply Nat.leb_gt in L. right. auto.
    + intros [[[t ->] _]|(_ & -> & H)]; [destruct (N t eq_refl)|reflexivity].
Qed.
Lemma starts_ok p s : starts p s = true <-> prefixed p s (skipn (length (zs p)) s) /\ (length (zs p) <= length s)%nat.
Proof.
  unfold starts, prefixed. rewrite Z.eqb_eq, cmp_zero. split.
  - intros H. split; [exists (firstn (length (zs p)) s); rewrite firstn_skipn; auto|].
    apply (f_equal (@length Z)) in H. rewrite !map_length, firstn_length in H. lia.
  - intros [(q & EQ & H) L]. assert (LQ : length q = length (zs p)).
    { apply (f_equal (@length Z)) in H. rewrite !map_length in H. exact H. }
    rewrite <- H. f_equal. rewrite EQ, <- LQ. rewrite firstn_app, Nat.sub_diag, firstn_all. cbn [firstn]. apply app_nil_r.
Qed.
Lemma prefixed_skip p s t : prefixed p s t -> starts p s = true /\ skipn (length (zs p)) s = t.
Proof.
  intros (q & -> & H). assert (LQ : length q = length (zs p)).
  { apply (f_equal (@length Z)) in H. rewrite !map_length in H. exact H. }
  assert (SK : skipn (length (zs p)) (q ++ t) = t). { rewrite <- LQ, skipn_app, skipn_all, Nat.sub_diag. reflexivity. }
  split; [|exact SK]. apply starts_ok. split; [exists q; rewrite SK; auto|rewrite app_length; lia].
Qed.
Lemma starts_inv p s : starts p s = true -> prefixed p s (skipn (length (zs p)) s).
Proof. intros H. apply starts_ok in H. apply H. Qed.

Lemma unix_dev E s path : is_unixsock_dev E s = Some path <-> unix_like E s path.
Proof.
  unfold is_unixsock_dev, unix_like. split.
  - destruct (starts "unix:" s) eqn:ST; [|discriminate]. apply starts_inv in ST. change (length (zs "unix:")) with 5%nat in ST.
    destruct (skipn 5 s) as [|c p] eqn:SK; [discriminate|]. intros H. apply full_path_ok in H. exists (c :: p). split; [exact ST|]. split; [discriminate|exact H].
  - intros (p & P & N & L). apply prefixed_skip in P. destruct P as [-> SK]. change (length (zs "unix:")) with 5%nat in SK. rewrite SK.
    destruct p; [congruence|]. apply full_path_ok. exact L.
Qed.
Lemma no_unix E s : (forall path, ~ unix_like E s path) -> is_unixsock_dev E s = None.
Proof. intros H. destruct (is_unixsock_dev E s) eqn:U; auto. apply unix_dev in U. destruct (H _ U). Qed.

Lemma at_colon_some h p : ~ In COLON h -> at_colon (h ++ COLON :: p) = Some (h, p).
Proof.
  induction h as [|c h IH]; intros N; cbn [app at_colon]; [reflexivity|]. destruct (Z.eqb_spec c COLON) as [->|NE]; [destruct N; left; auto|].
  rewrite IH; [reflexivity|]. intros I. apply N. right. auto.
Qed.
Lemma forall_digits p : forallb isdigit p = true <-> Forall digit p.
Proof.
  rewrite forallb_forall, Forall_forall. split; intros H x I; apply isdigit_ok, H, I.
Qed.
Lemma telnet_dev s h p : telnet_like s h p -> number p <= INT_MAX -> is_telnet_dev s = Ok (Some (h, number p)).
Proof.
  intros (-> & N & NE & D & L) M. unfold is_telnet_dev. apply Nat.leb_gt in L. rewrite L. rewrite at_colon_some by auto.
  destruct p as [|c p]; [congruence|]. change ((length (c :: p) =? 0)%nat) with false. rewrite (proj2 (forall_digits _) D). cbn [orb negb].
  rewrite atoi_digits by auto. reflexivity.
Qed.
Lemma no_telnet s : (forall h p, ~ telnet_like s h p) -> is_telnet_dev s = Ok None.
Proof.
  intros H. unfold is_telnet_dev. destruct (_ <=? _)%nat eqn:L; [reflexivity|]. apply Nat.leb_gt in L.
  destruct (at_colon s) as [[h p]|] eqn:AC; [|reflexivity]. apply at_colon_ok in AC. destruct AC as [-> N].
  destruct (_ || _) eqn:B; [reflexivity|]. apply orb_false_iff in B. destruct B as [B1 B2]. apply negb_false_iff, forall_digits in B2.
  destruct (H h p). repeat split; auto. intros ->. discriminate.
Qed.
Lemma serial_dev E s path : is_serial_dev E s = Some path <-> is_file E s Chr path.
Proof.
  unfold is_serial_dev, is_file. destruct (full_path (e_cwd E) s) as [p|] eqn:FP.
  - apply full_path_ok in FP as L. split.
    + destruct (e_stat E p) eqn:ST; try discriminate. intros X. injection X as <-. auto.
    + intros [L' ST]. apply full_path_ok in L'. rewrite FP in L'. injection L' as <-. rewrite ST. reflexivity.
  - split; [discriminate|]. intros [L' _]. apply full_path_ok in L'. congruence.
Qed.
Lemma no_serial E s : (forall p, ~ is_file E s Chr p) -> is_serial_dev E s = None.
Proof. intros H. destruct (is_serial_dev E s) eqn:U; auto. apply serial_dev in U. destruct (H _ U). Qed.

(** ** EXECPATH *)
Lemma elements_app d : ~ In COLON d -> forall cur r, elements cur (d ++ COLON :: r) = (rev cur ++ d) :: elements [] r.
Proof.
  induction d as [|c d IH]; intros N cur r; cbn [app elements].
  - rewrite Z.eqb_refl, app_nil_r. reflexivity.
  - destruct (Z.eqb_spec c COLON) as [->|NE]; [destruct N; left; auto|]. rewrite IH by (intros I; apply N; right; auto). cbn [rev].
    rewrite <- app_assoc. reflexivity.
Qed.
Lemma elements_last d : ~ In COLON d -> forall cur, rev cur ++ d <> [] -> elements cur d = [rev cur ++ d].
Proof.
  induction d as [|c d IH]; intros N cur NE; cbn [elements].
  - rewrite app_nil_r in *. destruct cur; [destruct (NE eq_refl)|reflexivity].
  - destruct (Z.eqb_spec c COLON) as [->|NC]; [destruct N; left; auto|]. rewrite IH.
    + cbn [rev]. rewrite <- app_assoc. reflexivity.
    + intros I. apply N. right. auto.
    + cbn [rev]. rewrite <- app_assoc. destruct (rev cur); discriminate.
Qed.
Lemma elements_colons dirs : Forall (fun d => d <> [] /\ ~ In COLON d) dirs -> elements [] (colons dirs) = dirs.
Proof.
  induction 1 as [|d dirs [NE N] F IH]; [reflexivity|]. cbn [colons]. destruct dirs as [|e dirs].
  - rewrite elements_last by auto. reflexivity.
  - rewrite elements_app by auto. rewrite IH. reflexivity.
Qed.
Lemma has_exec_dec E s d : (exists f, has_exec E s d f) \/ forall g, ~ has_exec E s d g.
Proof.
  destruct (e_stat E d) eqn:ST; try (right; intros g (H & _); congruence).
  destruct (Nat.ltb_spec (length (d ++ SLASH :: s)) PATH_MAX) as [L|L]; [|right; intros g (_ & -> & H & _); lia].
  destruct (e_x E (d ++ SLASH :: s)) eqn:X; [left; exists (d ++ SLASH :: s); repeat split; auto|]. right. intros g (_ & -> & _ & H). congruence.
Qed.
Lemma search_found E s dirs path : search_loop E s dirs = Some path <-> found E s dirs path.
Proof.
  induction dirs as [|d dirs IH]; cbn [search_loop]; [split; [discriminate|intros H; inversion H]|].
  assert (HE : forall f, has_exec E s d f <-> e_stat E d = Dir /\ join d s = Some f /\ e_x E f = true).
  { intros f. unfold has_exec, join. destruct (PATH_MAX <=? _)%nat eqn:L; [apply Nat.leb_le in L|apply Nat.leb_gt in L].
    - split; [intros (_ & -> & H & _); lia|intros (_ & H & _); discriminate].
    - split; [intros (H1 & -> & H2 & H3); auto|intros (H1 & H2 & H3)]. injection H2 as <-. auto. }
  assert (NO : (forall g, ~ has_exec E s d g) -> (search_loop E s dirs = Some path <-> found E s (d :: dirs) path)).
  { intros N. rewrite IH. split; [intros F; apply F_later; auto|]. intros F. inversion F as [? ? ? HX|? ? ? NX FX]; subst; auto. destruct (N _ HX). }
  destruct (e_stat E d) eqn:ST; try (apply NO; intros g H; apply HE in H; destruct H; congruence).
  destruct (join d s) as [f|] eqn:J; [|apply NO; intros g H; apply HE in H; destruct H as (_ & H & _); congruence].
  destruct (e_x E f) eqn:X; [|apply NO; intros g H; apply HE in H; destruct H as (_ & H & Y); injection H as <-; congruence].
  assert (HF : has_exec E s d f) by (apply HE; auto). split.
  - intros Y. injection Y as <-. apply F_here. auto.
  - intros F. inversion F as [? ? ? H|? ? ? N _]; subst; [|destruct (N _ HF)]. apply HE in H. destruct H as (_ & H & _). congruence.
Qed.
Lemma has_char_ok x s : has_char x s = true <-> In x s.
Proof.
  unfold has_char. rewrite existsb_exists. split.
  - intros (y & I & H). apply Z.eqb_eq in H. subst. auto.
  - intros I. exists x. split; auto. apply Z.eqb_refl.
Qed.
Lemma search_path E c dirs s : exec_path c dirs -> search_exec_path E (c_execpath c) s = search_loop E s dirs.
Proof.
  intros (F & P). unfold search_exec_path. destruct (c_execpath c) as [p|]; [|subst; reflexivity].
  destruct P as [-> L]. apply Nat.leb_gt in L. rewrite L. rewrite elements_colons by auto. reflexivity.
Qed.
Lemma exec_path_unique c d1 d2 : exec_path c d1 -> exec_path c d2 -> d1 = d2.
Proof.
  intros (F1 & P1) (F2 & P2). destruct (c_execpath c) as [p|]; [|congruence]. destruct P1 as [-> _], P2 as [P2 _].
  rewrite <- (elements_colons d1), <- (elements_colons d2), P2 by auto. reflexivity.
Qed.
Lemma process_dev E c s path : (exists dirs, exec_path c dirs) ->
  (is_process_dev E (c_execpath c) s = Some path <-> program E c s path).
Proof.
  intros (dirs & XP). unfold is_process_dev, program. rewrite (search_path E c dirs s XP).
  assert (D : forall p, match (if has_char SLASH s then None else search_loop E s dirs) with Some f => Some f | None => full_path (e_cwd E) s end = Some p <->
    (~ In SLASH s /\ found E s dirs p \/ (In SLASH s \/ (forall g, ~ found E s dirs g)) /\ located E s p)).
  { intros p. destruct (has_char SLASH s) eqn:HC.
    - apply has_char_ok in HC. rewrite full_path_ok. tauto.
    - assert (NI : ~ In SLASH s) by (intros I; apply has_char_ok in I; congruence).
      destruct (search_loop E s dirs) as [f|] eqn:SL.
      + apply search_found in SL as FD. rewrite <- SL, search_found. split; [auto|]. intros [H|[[H|H] _]]; [tauto|tauto|]. destruct (H _ FD).
      + rewrite full_path_ok. assert (NF : forall g, ~ found E s dirs g) by (intros g F; apply search_found in F; congruence).
        split; [auto|]. intros [[_ H]|[_ H]]; [destruct (NF _ H)|auto]. }
  split.
  - destruct (match _ with Some f => Some f | None => _ end) as [p|] eqn:EP; [|discriminate].
    destruct (e_stat E p) eqn:ST; try discriminate. destruct (e_x E p) eqn:X; [|discriminate]. intros Y. injection Y as <-.
    split; [|auto]. exists dirs. split; [auto|]. apply D. reflexivity.
  - intros ((dirs' & XP' & H) & ST & X). rewrite <- (exec_path_unique _ _ _ XP XP') in H. apply D in H. rewrite H, ST, X. reflexivity.
Qed.
Lemma no_process E c s : (exists dirs, exec_path c dirs) -> (forall p, ~ program E c s p) -> is_process_dev E (c_execpath c) s = None.
Proof. intros XP H. destruct (is_process_dev _ _ _) eqn:U; auto. apply process_dev in U; auto. destruct (H _ U). Qed.

(** errno stays clear *)
Lemma search_clear E s dirs : search_er E s dirs false = false.
Proof.
  induction dirs as [|d dirs IH]; cbn [search_er]; auto. assert (S0 : stat_er E d false = false) by (unfold stat_er; destruct (e_stat E d); auto).
  destruct (e_stat E d); rewrite ?S0; auto. destruct (join d s) as [f|]; auto. destruct (e_x E f); auto.
Qed.
Lemma process_clear E path s : process_er E path s false = false.
Proof.
  unfold process_er. assert (S0 : forall p, stat_er E p false = false) by (intros p; unfold stat_er; destruct (e_stat E p); auto).
  assert (X0 : forall p, x_er E p false = false) by reflexivity.
  destruct (if has_char SLASH s then None else path) as [p|].
  - destruct (PATH_MAX <=? length p)%nat; rewrite ?search_clear; (destruct (search_exec_path _ _ _); [rewrite S0; auto|]);
      (destruct (full_path _ _); [rewrite S0; auto|auto]).
  - destruct (search_exec_path _ _ _); [rewrite S0; auto|]. destruct (full_path _ _); [rewrite S0; auto|auto].
Qed.

(** ** From the meaning to find_dev() *)
Lemma prefixed_test_unix E s path : prefixed "test:" s [] -> ~ unix_like E s path.
Proof.
  intros (q & -> & H) (p & (r & EQ & H2) & N & _). rewrite app_nil_r in EQ. subst q. rewrite map_app, H2 in H.
  apply (f_equal (@hd Z 0)) in H. discriminate.
Qed.
Lemma prefixed_test_telnet s h p : prefixed "test:" s [] -> ~ telnet_like s h p.
Proof.
  intros (q & -> & H) (EQ & NI & NE & D & L). rewrite app_nil_r in EQ. subst q. rewrite map_app in H. cbn [map] in H.
  change (map tolower (zs "test:")) with [116; 101; 115; 116; 58] in H. change (tolower COLON) with 58 in H.
  destruct (exists_last NE) as (u & z & ->). apply Forall_app in D. destruct D as [_ D]. inversion D as [|? ? DZ _]; subst.
  rewrite map_app in H. cbn [map] in H. change (58 :: map tolower u ++ [tolower z]) with ((58 :: map tolower u) ++ [tolower z]) in H.
  rewrite app_assoc in H. change [116; 101; 115; 116; 58] with ([116; 101; 115; 116] ++ [58]) in H. apply app_inj_tail in H. destruct H as [_ H].
  unfold digit in DZ. unfold tolower, isupper in H. destruct ((65 <=? z) && (z <=? 90)); lia.
Qed.
Lemma test_dev s : prefixed "test:" s [] -> is_test_dev s = true /\ is_ipmi_dev s = None.
Proof.
  intros P. assert (P0 := P). destruct P as (q & -> & H). rewrite app_nil_r in *. split.
  - unfold is_test_dev. apply Z.eqb_eq, cmp_zero. exact H.
  - unfold is_ipmi_dev. destruct (starts "ipmi:" q) eqn:ST; [|reflexivity]. apply starts_inv in ST. destruct ST as (r & EQ & H2).
    rewrite EQ, map_app, H2 in H. apply (f_equal (@hd Z 0)) in H. discriminate.
Qed.

Lemma means_find E c kvs n args d :
  n_sopts n = last_str "SEROPTS" kvs -> n_iopts n = last_str "IPMIOPTS" kvs -> n_topts n = last_str "TESTOPTS" kvs ->
  means E c kvs args d -> exists er, find_dev E c n args = Ok (Some d, er).
Proof.
  intros SO IO TO M. unfold find_dev. destruct M.
  - apply unix_dev in H. rewrite H. eauto.
  - rewrite no_unix by auto. rewrite (telnet_dev _ _ _ H0) by lia. cbn [bind]. eauto.
  - rewrite no_unix, no_telnet by auto. cbn [bind]. apply serial_dev in H1. rewrite H1, H2. cbn [negb]. rewrite SO.
    destruct (last_str "SEROPTS" kvs); [rewrite H3|subst]; eauto.
  - rewrite no_unix, no_telnet, no_serial by auto. cbn [bind]. apply process_dev in H2; [|destruct H2 as ((dirs & X & _) & _); eauto]. rewrite H2. eauto.
  - rewrite no_unix, no_telnet, no_serial by auto. cbn [bind]. rewrite no_process by auto. rewrite H4.
    apply prefixed_skip in H5. destruct H5 as [ST SK]. unfold is_ipmi_dev. rewrite ST. change (length (zs "ipmi:")) with 5%nat in SK. rewrite SK.
    destruct h; [congruence|]. cbn [negb]. rewrite IO. destruct (last_str "IPMIOPTS" kvs); [rewrite H7; cbn [bind]; eauto|subst; eauto].
  - rewrite no_unix by (intros; apply prefixed_test_unix; auto). rewrite no_telnet by (intros; apply prefixed_test_telnet; auto). cbn [bind].
    destruct H as (p & L & ST). rewrite no_serial by (intros p' [L' S']; apply full_path_ok in L, L'; congruence).
    rewrite no_process by auto. destruct (test_dev s H2) as [-> ->].
    replace (if e_ipmi E then None else None) with (@None (list Z)) by (destruct (e_ipmi E); reflexivity). cbn [negb orb].
    assert (ER : serial_er E s (c_erange c) = false).
    { unfold serial_er. apply full_path_ok in L. rewrite L. unfold stat_er. rewrite ST. reflexivity. }
    rewrite ER, process_clear. rewrite TO. destruct (last_str "TESTOPTS" kvs); [destruct H3 as (er & ->); eauto|subst; eauto].
Qed.

(** ** From what has no meaning to find_dev() *)
Lemma ipmi_dev s h : prefixed "ipmi:" s h -> h <> [] -> is_ipmi_dev s = Some h.
Proof.
  intros P N. apply prefixed_skip in P. destruct P as [ST SK]. unfold is_ipmi_dev. rewrite ST.
  change (length (zs "ipmi:")) with 5%nat in SK. rewrite SK. destruct h; [congruence|reflexivity].
Qed.
Ltac refuse := eexists _, _; split; [reflexivity|exact I].
Lemma refused_find E c kvs n name args objs :
  n_sopts n = last_str "SEROPTS" kvs -> n_iopts n = last_str "IPMIOPTS" kvs -> n_topts n = last_str "TESTOPTS" kvs ->
  refused E c kvs args ->
  exists r er, find_dev E c n args = Ok (r, er) /\
    match r with None => True | Some d => create_console E name d objs = Ok None end.
Proof.
  intros SO IO TO M. unfold find_dev. destruct M.
  - refuse.
  - apply unix_dev in H. rewrite H. eexists _, _. split; [reflexivity|]. cbn beta iota. unfold create_console.
    apply Nat.ltb_lt in H0. rewrite H0. destruct (e_dbg E); reflexivity.
  - apply unix_dev in H. rewrite H. refuse.
  - rewrite no_unix by auto. rewrite (telnet_dev _ _ _ H0) by (rewrite H2; discriminate). cbn [bind].
    eexists _, _. split; [reflexivity|]. cbn beta iota. unfold create_console. rewrite H2.
    destruct host; [congruence|]. destruct (e_dbg E); reflexivity.
  - rewrite no_unix by auto. rewrite (telnet_dev _ _ _ H0) by auto. cbn [bind]. refuse.
  - rewrite no_unix, no_telnet by auto. cbn [bind]. apply serial_dev in H1. rewrite H1. cbn [negb]. refuse.
  - rewrite no_unix, no_telnet by auto. cbn [bind]. apply serial_dev in H1. rewrite H1, H2. cbn [negb]. refuse.
  - rewrite no_unix, no_telnet by auto. cbn [bind]. apply serial_dev in H1. rewrite H1. cbn [negb].
    destruct (e_rw E path); cbn [negb]; [|refuse]. rewrite SO, H2, H3. refuse.
  - destruct H as (U & T & S), H0 as (X & P). rewrite no_unix, no_telnet, no_serial by auto. cbn [bind].
    rewrite no_process by auto. rewrite H1, (ipmi_dev _ _ H2 H3). cbn [negb]. refuse.
  - destruct H as (U & T & S), H0 as (X & P). rewrite no_unix, no_telnet, no_serial by auto. cbn [bind].
    rewrite no_process by auto. rewrite H1, (ipmi_dev _ _ H2 H3). cbn [negb]. rewrite IO, H4, H5. cbn [bind]. refuse.
  - destruct H as (U & T & S), H0 as (X & P). rewrite no_unix, no_telnet, no_serial by auto. cbn [bind].
    rewrite no_process by auto. destruct (test_dev s H1) as [-> ->].
    replace (if e_ipmi E then None else None) with (@None (list Z)) by (destruct (e_ipmi E); reflexivity). cbn [negb orb]. refuse.
  - rewrite no_unix by (intros; apply prefixed_test_unix; auto). rewrite no_telnet by (intros; apply prefixed_test_telnet; auto). cbn [bind].
    destruct H as (p & L & ST), H0 as (X & P). rewrite no_serial by (intros p' [L' S']; apply full_path_ok in L, L'; congruence).
    rewrite no_process by auto. destruct (test_dev s H1) as [-> ->].
    replace (if e_ipmi E then None else None) with (@None (list Z)) by (destruct (e_ipmi E); reflexivity). cbn [negb orb].
    assert (ER : serial_er E s (c_erange c) = false).
    { unfold serial_er. apply full_path_ok in L. rewrite L. unfold stat_er. rewrite ST. reflexivity. }
    rewrite ER, process_clear. rewrite TO, H2, H3. refuse.
  - destruct H as (U & T & S), H0 as (X & P). rewrite no_unix, no_telnet, no_serial by auto. cbn [bind].
    rewrite no_process by auto.
    assert (IN : (if e_ipmi E then is_ipmi_dev s else None) = None).
    { destruct (e_ipmi E); [|reflexivity]. unfold is_ipmi_dev. destruct (starts "ipmi:" s) eqn:ST; [|reflexivity].
      apply starts_inv in ST. apply H1 in ST; [|reflexivity]. change (length (zs "ipmi:")) with 5%nat in ST. now rewrite ST. }
    rewrite IN. assert (TD : is_test_dev s = false).
    { unfold is_test_dev. destruct (strcasecmp s (zs "test:") =? 0) eqn:TD; [|reflexivity]. exfalso. apply H2.
      apply Z.eqb_eq, cmp_zero in TD. exists s. rewrite app_nil_r. auto. }
    rewrite TD. cbn [negb orb]. refuse.
Qed.
