From Coq Require Import String.
From Verif Require Import Base BaseProof Mem Chars Fmt StrModel StrSpec StrProof MsgModel MsgSpec MsgProof EscModel EscSpec EscProof TermModel TermSpec.
From Coq Require Import ZifyNat.
Local Open Scope Z_scope.
Local Open Scope list_scope.

(** ** Terminals *)
Lemma land_sub w m b : Z.land (Z.lnot m) b = 0 -> off (Z.land w (Z.lnot m)) b.
Proof. intros H. unfold off. rewrite <- Z.land_assoc, H. apply Z.land_0_r. Qed.
Lemma raw_ok t : raw_mode (get_tty_raw t) /\ echoing (get_tty_raw t) = false.
Proof.
  split.
  - unfold raw_mode, get_tty_raw. cbn [iflag oflag cflag lflag vmin vtime].
    split; [apply land_sub; reflexivity|]. split; [apply land_sub; reflexivity|]. split; [apply land_sub; reflexivity|]. split; [apply land_sub; reflexivity|]. split; [apply land_sub; reflexivity|].
    split; [apply land_sub; reflexivity|].
    split. { rewrite !Z.land_lor_distr_l, <- !Z.land_assoc. change (Z.land (Z.lnot CSIZE) (Z.land (Z.lnot PARENB) CSIZE)) with 0. rewrite Z.land_0_r. reflexivity. }
    split. { unfold off. rewrite !Z.land_lor_distr_l, <- !Z.land_assoc. change (Z.land (Z.lnot PARENB) PARENB) with 0. rewrite !Z.land_0_r. reflexivity. }
    split; [apply land_sub; reflexivity|]. split; [apply land_sub; reflexivity|]. split; [apply land_sub; reflexivity|]. split; reflexivity.
  - unfold echoing, get_tty_raw. cbn [lflag]. rewrite land_sub by reflexivity. reflexivity.
Qed.
Lemma xor_other w b : Z.land ECHO b = 0 -> Z.land (Z.lxor w ECHO) b = Z.land w b.
Proof.
  intros H. apply Z.bits_inj'. intros n N. rewrite !Z.land_spec, Z.lxor_spec. assert (X : Z.testbit (Z.land ECHO b) n = false) by (rewrite H; apply Z.bits_0). rewrite Z.land_spec in X.
  destruct (Z.testbit ECHO n), (Z.testbit b n), (Z.testbit w n); cbn in *; congruence.
Qed.
Lemma echo_bit t : echoing t = Z.testbit (lflag t) 3.
Proof.
  unfold echoing. destruct (Z.testbit (lflag t) 3) eqn:B.
  - destruct (Z.eqb_spec (Z.land (lflag t) ECHO) 0) as [E|_]; [|reflexivity]. assert (X : Z.testbit (Z.land (lflag t) ECHO) 3 = false) by (rewrite E; apply Z.bits_0). rewrite Z.land_spec, B in X. discriminate X.
  - assert (X : Z.land (lflag t) ECHO = 0); [|rewrite X; reflexivity]. apply Z.bits_inj'. intros n N. rewrite Z.land_spec, Z.bits_0. destruct (Z.eq_dec n 3) as [->|NE]; [rewrite B; reflexivity|].
    change ECHO with (2 ^ 3). rewrite Z.pow2_bits_false by auto. apply andb_false_r.
Qed.
Lemma toggle_ok t : (raw_mode t -> raw_mode (toggle_echo t)) /\ echoing (toggle_echo t) = negb (echoing t).
Proof.
  split.
  - unfold raw_mode, off, toggle_echo. cbn [iflag oflag cflag lflag vmin vtime]. rewrite !xor_other by reflexivity. tauto.
  - rewrite !echo_bit. unfold toggle_echo. cbn [lflag]. rewrite Z.lxor_spec. change (Z.testbit ECHO 3) with true. apply xorb_true_r.
Qed.

(** ** Messages *)
Lemma fmt_chars n : 0 <= n -> chars_ok (fmt_d n).
Proof.
  intros N. unfold fmt_d. destruct (Z.ltb_spec n 0); [lia|]. destruct (fmt_u_ok n N) as (D & _). eapply Forall_impl; [|exact D]. intros c H1. unfold isdigit in H1. unfold char_ok. lia.
Qed.
Lemma c_string_ok b s : holds b s -> c_string b = Ok s.
Proof. intros H. unfold c_string. rewrite (strlen_ok b s H). cbn [bind]. destruct H as (_ & j & ->). rewrite slice_ok by (rewrite app_length; cbn [List.length]; lia). cbn [skipn]. rewrite firstn_app, firstn_all, Nat.sub_diag. cbn [firstn]. rewrite app_nil_r. reflexivity. Qed.
Lemma shown_ok L buf t : List.length buf = L -> (4 <= L)%nat -> chars_ok t ->
  (do r <- vsnprintf buf 0 L t; do b <- (if (L <=? snd r)%nat then blit (fst r) (L - 3) [CR; LF; NUL] else Ok (fst r)); c_string b) = Ok (shown L t).
Proof.
  intros HL L4 Ct. pose proof (clip_put [] buf L t) as V. cbn [app List.length] in V. rewrite V by lia. clear V. cbn [bind fst snd]. unfold shown.
  set (f := firstn (L - 1) t). set (r := NUL :: skipn (S (List.length f)) buf).
  assert (Lf : List.length f = Nat.min (L - 1) (List.length t)) by (unfold f; rewrite firstn_length; lia).
  assert (L1 : List.length (f ++ r) = L) by (rewrite app_length; unfold r; cbn [List.length]; rewrite skipn_length; lia).
  destruct (Nat.leb_spec L (List.length t)), (Nat.ltb_spec (List.length t) L); try lia.
  - change [CR; LF; NUL] with ([CR; LF] ++ [NUL]). rewrite overwrite; [|rewrite L1; cbn; lia|lia]. cbn [bind]. apply c_string_ok. split.
    + apply chars_app; [apply firstn_chars, Ct|repeat (apply Forall_cons; [cbv; split; discriminate || reflexivity|]); apply Forall_nil].
    + eexists. rewrite <- app_assoc. f_equal. unfold f. rewrite firstn_firstn. f_equal. lia.
  - cbn [bind]. apply c_string_ok. split; [exact Ct|]. unfold f, r. rewrite firstn_all2 by lia. eexists. reflexivity.
Qed.
Lemma chars_b s : forallb (fun c => (1 <=? c) && (c <? 256)) s = true -> chars_ok s.
Proof. intros H. apply Forall_forall. intros c I. rewrite forallb_forall in H. specialize (H c I). unfold char_ok. lia. Qed.
Ltac ch := apply chars_b; vm_compute; reflexivity.
Lemma status_chars c msg : Forall chars_ok (names c) -> chars_ok msg -> chars_ok (status_text c msg).
Proof.
  intros F M. unfold status_text.
  assert (X : chars_ok (MSG_PREFIX ++ zs "Broadcast to " ++ fmt_d (Z.of_nat (List.length (names c))) ++ zs " consoles " ++ msg ++ MSG_SUFFIX)).
  { apply chars_app; [apply prefix_chars|]. apply chars_app; [ch|]. apply chars_app; [apply fmt_chars; lia|]. apply chars_app; [ch|]. apply chars_app; [exact M|apply suffix_chars]. }
  destruct (names c) as [|n [|m l]] eqn:E; try exact X. inversion F; subst. apply chars_app; [apply prefix_chars|]. apply chars_app; [ch|]. apply chars_app; [assumption|]. apply chars_app; [ch|]. apply chars_app; [exact M|apply suffix_chars].
Qed.
Lemma status_ok c msg : cfg_ok c -> chars_ok msg -> status c msg = Ok (shown (List.length (line_buf c)) (status_text c msg)).
Proof.
  intros (NE & F & _ & L4 & _) M. unfold status. pose proof (status_chars c msg F M) as SC. rewrite <- (shown_ok (List.length (line_buf c)) (line_buf c) (status_text c msg) eq_refl L4 SC).
  unfold status_text, single, first_name, put_name. destruct (names c) as [|n [|m l]]; [congruence| |reflexivity]. cbn [List.length Nat.eqb bind]. rewrite <- !app_assoc. reflexivity.
Qed.
Lemma shown_ended L t : (4 <= L)%nat -> (exists a, t = a ++ [CR; LF]) -> line_ended (shown L t) /\ (List.length (shown L t) < L)%nat.
Proof.
  intros L4 (a & E). unfold shown. destruct (Nat.ltb_spec (List.length t) L); [split; [exists a; exact E|assumption]|]. split; [eexists; reflexivity|]. rewrite app_length, firstn_length. cbn [List.length]. lia.
Qed.

(** ** Help *)
Lemma esc_text_ok k : esc_text k = Ok (printable k).
Proof.
  unfold esc_text, write_esc_char, printable. cbv zeta. destruct (_ <? 32); [reflexivity|]. destruct (_ =? 127); reflexivity.
Qed.
Lemma help_lines_ok esc l : help_lines (printable esc) l = Ok (flat_map (fun x => match x with (true, k, s) => [help_line esc k s] | _ => [] end) l).
Proof.
  induction l as [|[[b k] s] l IH]; [reflexivity|]. destruct b; cbn [help_lines flat_map]; [|exact IH]. rewrite esc_text_ok. cbn [bind]. rewrite IH. reflexivity.
Qed.
Lemma append_all_ok : forall ts buf s n, holds buf s -> Forall chars_ok ts -> Forall (fun t => t <> []) ts -> (List.length (s ++ concat ts) < List.length buf)%nat ->
  exists buf', append_all buf n ts = Ok (buf', match ts with [] => n | _ => Z.of_nat (List.length (s ++ concat ts)) end) /\ holds buf' (s ++ concat ts).
Proof.
  induction ts as [|t ts IH]; intros buf s n H F NE L; cbn [append_all concat].
  - exists buf. rewrite app_nil_r. auto.
  - inversion F as [|? ? F1 F2]; subst. inversion NE as [|? ? N1 N2]; subst. cbn [concat] in L. rewrite app_assoc in L. destruct (append_ok (List.length buf) buf s t H eq_refl F1) as (d & E & H2 & L2). rewrite E. cbn [bind fst snd].
    assert (LT : (List.length (s ++ t) < List.length buf)%nat) by (rewrite app_length in L; lia).
    assert (AP : appended (List.length buf) s t = s ++ t) by (unfold appended; apply firstn_all2; lia). rewrite AP in H2.
    assert (RV : append_rv (List.length buf) s t = Z.of_nat (List.length (s ++ t))).
    { unfold append_rv. destruct (Nat.ltb_spec (List.length s + 1) (List.length buf)), (Nat.ltb_spec (List.length (s ++ t)) (List.length buf)); cbn [andb]; try reflexivity; try lia. exfalso. rewrite app_length in LT. destruct t; [congruence|cbn [List.length] in LT; lia]. }
    rewrite RV. destruct (IH d (s ++ t) (Z.of_nat (List.length (s ++ t))) H2 F2 N2) as (b' & E3 & H3); [rewrite L2; exact L|]. rewrite E3. exists b'. rewrite app_assoc. split; [|exact H3].
    destruct ts; [rewrite app_nil_r|]; reflexivity.
Qed.
Lemma printable_len k : (List.length (printable k) <= 2)%nat.
Proof. unfold printable. cbv zeta. destruct (_ <? 32); [cbn; lia|]. destruct (_ =? 127); cbn; lia. Qed.
Lemma printable_chars k : chars_ok (printable k).
Proof.
  unfold printable. cbv zeta. pose proof (Z.mod_pos_bound k 128). destruct (Z.ltb_spec (k mod 128) 32); [constructor; [unfold char_ok; lia|]; constructor; [unfold char_ok; lia|constructor]|].
  destruct (_ =? 127); [constructor; [unfold char_ok; lia|]; constructor; [unfold char_ok; lia|constructor]|]. constructor; [unfold char_ok; lia|constructor].
Qed.
Lemma repeat_chars n : chars_ok (repeat SPACE n).
Proof. apply Forall_forall. intros x I. apply repeat_spec in I. subst x. unfold char_ok, SPACE. lia. Qed.
Lemma help_line_chars e k w : chars_ok w -> chars_ok (help_line e k w).
Proof.
  intros W. unfold help_line, left2, right2. apply chars_app; [ch|]. apply chars_app; [apply chars_app; [apply repeat_chars|apply printable_chars]|]. apply chars_app; [apply chars_app; [apply printable_chars|apply repeat_chars]|]. apply chars_app; [ch|]. apply chars_app; [exact W|ch].
Qed.
Lemma help_line_len e k w : List.length (help_line e k w) = (12 + List.length w)%nat.
Proof. unfold help_line, left2, right2. rewrite !app_length, !repeat_length. pose proof (printable_len e). pose proof (printable_len k). cbn [List.length zs String.list_ascii_of_string map]. change (List.length (zs "  ")) with 2%nat. change (List.length (zs " -  ")) with 4%nat. lia. Qed.
(** the lines of the help message *)
Definition helped (c : cfg) (t : tty) : list (list Z) :=
  (CR :: LF :: zs "Supported ConMan Escape Sequences:" ++ [CR; LF]) :: flat_map (fun x => match x with (true, k, s) => [help_line (escape c) k s] | _ => [] end) (help_items c t).
Lemma help_ok dbg c t : (1100 <= List.length (help_buf c))%nat -> help dbg c t = Ok (concat (helped c t)).
Proof.
  intros L. unfold help. rewrite esc_text_ok. cbn [bind]. rewrite help_lines_ok. cbn [bind].
  set (items := help_items c t).
  assert (IC : Forall (fun x => chars_ok (snd x) /\ (List.length (snd x) <= 50)%nat) items).
  { assert (IB : forall x, forallb (fun c => (1 <=? c) && (c <? 256)) x && (List.length x <=? 50)%nat = true -> chars_ok x /\ (List.length x <= 50)%nat) by (intros x Q; apply andb_prop in Q; destruct Q as [Q1 Q2]; split; [apply chars_b; exact Q1|apply Nat.leb_le; exact Q2]).
    unfold items, help_items. clear -IB. generalize (single c), (t_echo t), (t_quiet t). intros si ec qu.
    repeat (apply Forall_cons; [cbn [snd]; apply IB; try (destruct si); try (destruct ec); try (destruct qu); vm_compute; reflexivity|]); apply Forall_nil. }
  assert (LI : List.length items = 14%nat) by reflexivity.
  assert (X : forall l, Forall (fun x => chars_ok (snd x) /\ (List.length (snd x) <= 50)%nat) l -> let r := flat_map (fun x : bool * Z * list Z => match x with (true, k, s) => [help_line (escape c) k s] | _ => [] end) l in
     Forall chars_ok r /\ Forall (fun t => t <> []) r /\ (List.length (concat r) <= 62 * List.length l)%nat).
  { clear. induction l as [|[[b k] s] l IH]; intros F; [split; [constructor|]; split; [constructor|cbn; lia]|]. inversion F as [|? ? [F1 F2] F3]; subst. destruct (IH F3) as (A & B & C). cbn [flat_map]. cbn [snd] in F1, F2.
    destruct b; cbn [app]; [|split; [exact A|]; split; [exact B|]; cbn [List.length]; lia]. split; [constructor; [apply help_line_chars; exact F1|exact A]|]. split; [constructor; [discriminate|exact B]|]. cbn [concat List.length]. rewrite app_length, help_line_len. lia. }
  destruct (X items IC) as (A & B & C). rewrite LI in C. cbv zeta in A, B, C.
  unfold helped. fold items. set (r := flat_map _ items) in *. clearbody r.
  set (h := CR :: LF :: zs "Supported ConMan Escape Sequences:" ++ [CR; LF]).
  assert (HL : List.length h = 38%nat) by reflexivity.
  destruct (append_all_ok (h :: r) (repeat NUL (List.length (help_buf c))) [] 0) as (b & E & H).
  - split; [constructor|]. destruct (List.length (help_buf c)) as [|n]; [lia|]. exists (repeat NUL n). reflexivity.
  - constructor; [unfold h; ch|exact A].
  - constructor; [discriminate|exact B].
  - cbn [app concat]. rewrite app_length, repeat_length, HL. lia.
  - rewrite E. cbn [bind fst snd]. destruct (Z.eqb_spec (Z.of_nat (List.length ([] ++ concat (h :: r)))) (-1)) as [Q|_]; [exfalso; clear -Q; lia|]. cbn [bind fst snd]. rewrite Nat2Z.id. cbn [app] in *. rewrite (strlen_ok b _ H). cbn [bind].
    rewrite Nat.eqb_refl. assert (AI : assert_if dbg true = Ok tt) by (destruct dbg; reflexivity). rewrite AI. cbn [bind]. pose proof (c_string_ok b _ H) as CS. unfold c_string in CS. rewrite (strlen_ok b _ H) in CS. exact CS.
Qed.

(** ** The help in a buffer of any size *)
Lemma append_all_any : forall ts buf s n, holds buf s -> (0 < List.length buf)%nat -> Forall chars_ok ts -> Forall (fun t => t <> []) ts ->
  let L := List.length buf in let a := s ++ concat ts in
  exists buf', append_all buf n ts = Ok (buf', match ts with [] => n | _ => if (List.length a <? L)%nat then Z.of_nat (List.length a) else -1 end) /\
    holds buf' (firstn (L - 1) a) /\ List.length buf' = L.
Proof.
  induction ts as [|t ts IH]; intros buf s n H P F NE L a; subst a; cbn [append_all concat].
  - exists buf. rewrite app_nil_r. split; [reflexivity|]. split; [|reflexivity]. rewrite firstn_all2; [exact H|].
    destruct H as (_ & j & X). apply (f_equal (@List.length Z)) in X. rewrite app_length in X. cbn [List.length] in X. unfold L. lia.
  - inversion F as [|? ? F1 F2]; subst. inversion NE as [|? ? N1 N2]; subst.
    destruct (append_ok L buf s t H eq_refl F1) as (d & E & H2 & L2). fold L. rewrite E. cbn [bind fst snd].
    destruct (IH d (appended L s t) (append_rv L s t) H2) as (b' & E3 & H3 & L3); auto; [rewrite L2; exact P|].
    cbv zeta in E3, H3, L3. rewrite L2 in E3, H3, L3. exists b'. rewrite E3. split; [|split; [|exact L3]].
    + f_equal. f_equal. assert (TL : (0 < List.length t)%nat) by (destruct t; [congruence|cbn; lia]).
      unfold append_rv, appended. rewrite !app_length. destruct ts as [|t2 ts].
      * cbn [concat List.length]. rewrite Nat.add_0_r. destruct (Nat.ltb_spec (List.length s + 1) L), (Nat.ltb_spec (List.length s + List.length t) L); cbn [andb]; try reflexivity. lia.
      * inversion N2 as [|? ? N3 _]; subst. assert (T2 : (0 < List.length (concat (t2 :: ts)))%nat) by (cbn [concat]; rewrite app_length; destruct t2; [congruence|cbn [List.length]; lia]).
        rewrite firstn_length, app_length. destruct (Nat.ltb_spec (List.length s + List.length t) L).
        -- rewrite Nat.min_r by lia. rewrite Nat.add_assoc. reflexivity.
        -- rewrite Nat.min_l by lia. destruct (Nat.ltb_spec (L - 1 + List.length (concat (t2 :: ts))) L); [lia|].
           destruct (Nat.ltb_spec (List.length s + (List.length t + List.length (concat (t2 :: ts)))) L); [lia|reflexivity].
    + replace (firstn (L - 1) (s ++ t ++ concat ts)) with (firstn (L - 1) (appended L s t ++ concat ts)); [exact H3|].
      unfold appended. rewrite app_assoc. generalize (s ++ t). intros u. rewrite !firstn_app, firstn_firstn, Nat.min_id, firstn_length.
      destruct (Nat.le_gt_cases (L - 1) (List.length u)).
      * rewrite Nat.min_l by lia. replace (L - 1 - (L - 1))%nat with 0%nat by lia. replace (L - 1 - List.length u)%nat with 0%nat by lia. reflexivity.
      * rewrite Nat.min_r by lia. reflexivity.
Qed.

Lemma helped_chars c t : Forall chars_ok (helped c t) /\ Forall (fun x => x <> []) (helped c t).
Proof.
  unfold helped. set (items := help_items c t).
  assert (IC : Forall (fun x : bool * Z * list Z => chars_ok (snd x)) items).
  { assert (IB : forall x, forallb (fun c => (1 <=? c) && (c <? 256)) x = true -> chars_ok x) by (intros x Q; apply chars_b; exact Q).
    unfold items, help_items. clear -IB. generalize (single c), (t_echo t), (t_quiet t). intros si ec qu.
    repeat (apply Forall_cons; [cbn [snd]; apply IB; try (destruct si); try (destruct ec); try (destruct qu); vm_compute; reflexivity|]); apply Forall_nil. }
  assert (X : Forall chars_ok (flat_map (fun x : bool * Z * list Z => match x with (true, k, s) => [help_line (escape c) k s] | _ => [] end) items) /\
    Forall (fun x => x <> []) (flat_map (fun x : bool * Z * list Z => match x with (true, k, s) => [help_line (escape c) k s] | _ => [] end) items)).
  { revert IC. generalize items. clear. induction items as [|[[b k] s] l IH]; intros F; [split; constructor|]. inversion F as [|? ? F1 F3]; subst.
    destruct (IH F3) as (A & B). cbn [flat_map]. cbn [snd] in F1.
    destruct b; cbn [app]; [|split; assumption]. split; constructor; auto; [apply help_line_chars; exact F1|discriminate]. }
  destruct X as [A B]. split; constructor; auto; [ch|discriminate].
Qed.

Lemma help_any dbg c t : (4 <= List.length (help_buf c))%nat ->
  let L := List.length (help_buf c) in let x := concat (helped c t) in
  help dbg c t = Ok (if (List.length x <? L)%nat then x else firstn (L - 4) x ++ [PLUS; CR; LF]).
Proof.
  intros L4 L x. unfold help. rewrite esc_text_ok. cbn [bind]. rewrite help_lines_ok. cbn [bind].
  change ((CR :: LF :: zs "Supported ConMan Escape Sequences:" ++ [CR; LF]) :: flat_map _ (help_items c t)) with (helped c t).
  destruct (helped_chars c t) as [A B]. fold L.
  destruct (append_all_any (helped c t) (repeat NUL L) [] 0) as (b & E & H & LB); auto.
  { split; [constructor|]. unfold L. destruct (List.length (help_buf c)) as [|n]; [lia|]. exists (repeat NUL n). reflexivity. }
  { rewrite repeat_length. lia. }
  cbv zeta in E, H, LB. rewrite repeat_length in E, H, LB. cbn [app] in E, H. fold x in E, H. rewrite E. cbn [bind fst snd].
  replace (match helped c t with [] => 0 | _ :: _ => if (List.length x <? L)%nat then Z.of_nat (List.length x) else -1 end) with (if (List.length x <? L)%nat then Z.of_nat (List.length x) else -1) by reflexivity.
  assert (AI : forall n, assert_if dbg (n =? n)%nat = Ok tt) by (intros n; rewrite Nat.eqb_refl; destruct dbg; reflexivity).
  assert (FIN : forall b s, holds b s -> (do n <- strlen b; do _ <- assert_if dbg (List.length s =? n)%nat; slice b 0 (List.length s)) = Ok s).
  { intros b0 s0 H0. rewrite (strlen_ok b0 _ H0). cbn [bind]. rewrite AI. cbn [bind]. pose proof (c_string_ok b0 _ H0) as CS. unfold c_string in CS. rewrite (strlen_ok b0 _ H0) in CS. exact CS. }
  destruct (Nat.ltb_spec (List.length x) L) as [X|X].
  - destruct (Z.eqb_spec (Z.of_nat (List.length x)) (-1)) as [Q|_]; [exfalso; clear -Q; lia|]. cbn [bind fst snd]. rewrite Nat2Z.id.
    rewrite firstn_all2 in H by lia. apply FIN. exact H.
  - cbn [Z.eqb Pos.eqb]. destruct (Nat.leb_spec 4 L) as [_|Y]; [|unfold L in Y; lia]. cbn [assert_ bind].
    destruct H as (CH & junk & HB).
    assert (JN : junk = []). { apply (f_equal (@List.length Z)) in HB. rewrite LB, app_length in HB. cbn [List.length] in HB. rewrite firstn_length, Nat.min_l in HB by lia. destruct junk; [reflexivity|cbn [List.length] in HB; unfold L in *; lia]. }
    subst junk. set (y := firstn (L - 1) x) in *.
    assert (Y1 : y = firstn (L - 4) x ++ skipn (L - 4) y). { rewrite <- (firstn_skipn (L - 4) y) at 1. f_equal. unfold y. rewrite firstn_firstn. f_equal. lia. }
    assert (YL : List.length y = (L - 1)%nat) by (unfold y; rewrite firstn_length; lia).
    rewrite HB, Y1, <- app_assoc. rewrite <- (app_nil_r (skipn (L - 4) y ++ [NUL])).
    rewrite (blit_eq (firstn (L - 4) x) (skipn (L - 4) y ++ [NUL]) [] [PLUS; CR; LF; NUL]).
    2:{ rewrite firstn_length. lia. }
    2:{ rewrite app_length, skipn_length, YL. cbn [List.length]. unfold L in *. lia. }
    cbn [bind fst snd]. rewrite app_nil_r.
    replace (L - 1)%nat with (List.length (firstn (L - 4) x ++ [PLUS; CR; LF])) by (rewrite app_length, firstn_length; cbn [List.length]; unfold L in *; lia).
    apply FIN. split.
    + apply chars_app; [|ch]. rewrite Y1 in CH. apply Forall_app in CH. apply CH.
    + exists []. rewrite <- app_assoc. reflexivity.
Qed.
