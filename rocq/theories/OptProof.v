(** Proofs about option strings. *)
From Coq Require Import String.
From Verif Require Import Base BaseProof Chars Fmt LexModel StrModel StrSpec StrProof OptModel OptSpec.
From Coq Require Import ZifyNat.
Local Open Scope Z_scope.

(** ** strtok *)

Lemma tokens_cut (sep : Z -> bool) (P : Z -> Prop) (SP : forall c, sep c = true <-> P c) s :
  forall cur, Forall (fun c => ~ P c) cur ->
  exists fs, cut P (rev cur ++ s) fs /\ tokens sep cur s = filter (fun f => negb (length f =? 0)%nat) fs.
Proof.
  induction s as [|c t IH]; intros cur F.
  - exists [rev cur]. rewrite app_nil_r. split; [constructor; apply Forall_rev; auto|].
    cbn [tokens filter]. rewrite rev_length. destruct cur as [|a cur]; reflexivity.
  - cbn [tokens]. destruct (sep c) eqn:E.
    + destruct (IH [] ltac:(constructor)) as (fs & C & T). exists (rev cur :: fs). split.
      * constructor; [apply Forall_rev; auto|apply SP; auto|exact C].
      * rewrite T. cbn [filter]. rewrite rev_length. destruct cur; reflexivity.
    + assert (N : ~ P c) by (intros X; apply SP in X; congruence).
      destruct (IH (c :: cur) ltac:(constructor; auto)) as (fs & C & T). exists fs.
      cbn [rev] in C. rewrite <- app_assoc in C. split; auto.
Qed.

Lemma cut_fun P s fs : cut P s fs -> forall gs, cut P s gs -> fs = gs.
Proof.
  induction 1 as [f F|f c s fs F S C IH]; intros gs G.
  - inversion G as [|f' c' s' fs' F' S' C' E']; subst; [reflexivity|].
    exfalso. apply Forall_app in F. destruct F as [_ F]. inversion F; subst. auto.
  - inversion G as [? F'|f' c' s' fs' F' S' C' E']; subst.
    + exfalso. apply Forall_app in F'. destruct F' as [_ F']. inversion F'; subst. auto.
    + assert (E : f' = f /\ c' = c /\ s' = s).
      { clear IH G C C'. revert f' F' E'. induction f as [|a f IHf]; intros [|b f'] F' E'; cbn [app] in E'.
        - injection E'; auto.
        - injection E'; intros; subst. inversion F'; subst. contradiction.
        - injection E'; intros; subst. inversion F; subst. contradiction.
        - injection E'; intros E1 E2; subst. inversion F; inversion F'; subst.
          destruct (IHf ltac:(auto) f') as (-> & -> & ->); auto. }
      destruct E as (-> & -> & ->). f_equal. apply IH. auto.
Qed.

Lemma strtok_fields sep P (SP : forall c, sep c = true <-> P c) s ts :
  fields P s ts <-> ts = strtok_all sep s.
Proof.
  unfold fields, strtok_all. destruct (tokens_cut sep P SP s [] ltac:(constructor)) as (fs & C & T).
  split.
  - intros (gs & G & ->). rewrite T. rewrite (cut_fun _ _ _ C gs G). reflexivity.
  - intros ->. exists fs. auto.
Qed.

Lemma is_comma_ok c : is_comma c = true <-> comma c.
Proof. unfold is_comma, comma. lia. Qed.

Lemma tokens_app (sep : Z -> bool) c a : sep c = true -> forall cur b,
  tokens sep cur (a ++ c :: b) = tokens sep cur a ++ tokens sep [] b.
Proof.
  intros E. induction a as [|x a IH]; intros cur b; cbn [app tokens].
  - rewrite E. destruct cur; reflexivity.
  - destruct (sep x); [|apply IH]. destruct cur; rewrite IH; reflexivity.
Qed.

(** ** Numbers *)

Lemma digit_dec c : is_dig 10 c = true <-> dec_digit c.
Proof. unfold is_dig, dval, isdigit, isalpha, isupper, islower, tolower, dec_digit, isupper in *.
  destruct (Z.leb_spec 48 c), (Z.leb_spec c 57), (Z.leb_spec 65 c), (Z.leb_spec c 90), (Z.leb_spec 97 c), (Z.leb_spec c 122); cbn [andb orb]; lia. Qed.
Lemma digit_oct c : is_dig 8 c = true <-> oct_digit c.
Proof. unfold is_dig, dval, isdigit, isalpha, isupper, islower, tolower, oct_digit, isupper in *.
  destruct (Z.leb_spec 48 c), (Z.leb_spec c 57), (Z.leb_spec 65 c), (Z.leb_spec c 90), (Z.leb_spec 97 c), (Z.leb_spec c 122); cbn [andb orb]; lia. Qed.
Lemma digit_hex c : is_dig 16 c = true <-> hex_digit c.
Proof. unfold is_dig, dval, isdigit, isalpha, isupper, islower, tolower, hex_digit, isupper in *.
  destruct (Z.leb_spec 48 c), (Z.leb_spec c 57), (Z.leb_spec 65 c), (Z.leb_spec c 90), (Z.leb_spec 97 c), (Z.leb_spec c 122); cbn [andb orb]; lia. Qed.

Lemma dval_hexv c : hex_digit c -> dval c = hexv c.
Proof. unfold dval, hexv, isdigit, isalpha, isupper, islower, tolower, hex_digit, isupper in *. intros H.
  destruct (Z.leb_spec 48 c), (Z.leb_spec c 57), (Z.leb_spec 65 c), (Z.leb_spec c 90), (Z.leb_spec 97 c), (Z.leb_spec c 122), (Z.leb_spec c 70); cbn [andb orb]; lia. Qed.
Lemma toint_hexv c : hex_digit c -> toint c = hexv c.
Proof. unfold toint, hexv, hex_digit. intros H.
  destruct (Z.leb_spec 48 c), (Z.leb_spec c 57), (Z.leb_spec 65 c), (Z.leb_spec c 70), (Z.leb_spec 97 c), (Z.leb_spec c 102); cbn [andb orb]; lia. Qed.

Lemma hexv_range c : hex_digit c -> 0 <= hexv c < 16.
Proof. unfold hexv, hex_digit. intros H. destruct (Z.leb_spec c 57), (Z.leb_spec c 70); lia. Qed.

Lemma dec_hex c : dec_digit c -> hex_digit c.
Proof. unfold dec_digit, hex_digit. lia. Qed.
Lemma oct_hex c : oct_digit c -> hex_digit c.
Proof. unfold oct_digit, hex_digit. lia. Qed.

Lemma take_digits_ok b ds : forall acc rest, Forall (fun c => is_dig b c = true) ds -> Forall hex_digit ds ->
  match rest with c :: _ => is_dig b c = false | [] => True end ->
  take_digits b acc (ds ++ rest) = (fold_left (fun a d => a * b + hexv d) ds acc, rest).
Proof.
  induction ds as [|d ds IH]; intros acc rest F H R.
  - destruct rest as [|c r]; cbn [app take_digits fold_left]; [reflexivity|rewrite R; reflexivity].
  - cbn [app take_digits fold_left]. inversion F; inversion H; subst. rewrite H2. rewrite (dval_hexv d) by auto. apply IH; auto.
Qed.

Lemma take_digits_inv b s : forall acc v rest, take_digits b acc s = (v, rest) ->
  exists ds, s = ds ++ rest /\ Forall (fun c => is_dig b c = true) ds /\
    match rest with c :: _ => is_dig b c = false | [] => True end.
Proof.
  induction s as [|c t IH]; intros acc v rest E; cbn [take_digits] in E.
  - injection E; intros; subst. exists []. auto.
  - destruct (is_dig b c) eqn:D.
    + destruct (IH _ _ _ E) as (ds & -> & F & R). exists (c :: ds). cbn [app]. auto.
    + injection E; intros; subst. exists []. auto.
Qed.

Lemma skip_space_ok sp rest : Forall space sp ->
  match rest with c :: _ => ~ space c | [] => True end -> skip_space (sp ++ rest) = rest.
Proof.
  induction sp as [|c sp IH]; intros F R; cbn [app].
  - destruct rest as [|c r]; [reflexivity|]. cbn [skip_space].
    assert (isspace c = false) as -> by (unfold isspace, space in *; destruct (_ || _) eqn:Q; lia). reflexivity.
  - inversion F; subst. cbn [skip_space].
    assert (isspace c = true) as -> by (unfold isspace, space in *; destruct (_ || _) eqn:Q; lia). auto.
Qed.

Lemma skip_space_inv s : exists sp, s = sp ++ skip_space s /\ Forall space sp.
Proof.
  induction s as [|c t (sp & E & F)]; [exists []; auto|]. cbn [skip_space]. destruct (isspace c) eqn:Q.
  - exists (c :: sp). cbn [app]. rewrite <- E. split; auto. constructor; auto. unfold isspace, space in *. lia.
  - exists []. auto.
Qed.

Lemma hexmark_inv s : hexmark s = true ->
  exists x h r, s = 48 :: x :: h :: r /\ (x = 120 \/ x = 88) /\ is_dig 16 h = true.
Proof.
  destruct s as [|z [|x [|h r]]]; cbn [hexmark]; try discriminate. intros H.
  apply andb_true_iff in H. destruct H as [H D]. exists x, h, r.
  assert (z = 48) as -> by lia. repeat split; auto; lia.
Qed.

Definition base_of (s2 : list Z) : Z * list Z :=
  if hexmark s2 then (16, skipn 2 s2) else match s2 with 48 :: _ => (8, s2) | _ => (10, s2) end.

Lemma base_other d ds : d <> 48 -> base_of (d :: ds) = (10, d :: ds).
Proof.
  intros N. unfold base_of. destruct (hexmark (d :: ds)) eqn:H.
  - destruct (hexmark_inv _ H) as (x & h & r & E & _). injection E; intros; subst; congruence.
  - destruct d as [|p|p]; auto. do 6 (destruct p; auto); congruence.
Qed.

(** A whole magnitude. *)
Lemma magnitude_ok s m : magnitude s m <->
  (let '(b, s3) := base_of s in
   match s3 with
   | c :: _ => is_dig b c = true /\ take_digits b 0 s3 = (m, [])
   | [] => False
   end).
Proof.
  split.
  - intros [(x & ds & -> & X & N & F & ->)|[(ds & -> & F & ->)|(d & ds & -> & D & F & ->)]].
    + destruct ds as [|h r]; [congruence|]. unfold base_of.
      assert (H : hexmark (48 :: x :: h :: r) = true).
      { cbn [hexmark]. inversion F; subst. rewrite (proj2 (digit_hex h)) by auto. destruct X as [-> | ->]; reflexivity. }
      rewrite H. cbn [skipn]. split; [apply digit_hex; inversion F; auto|].
      rewrite <- (app_nil_r (h :: r)) at 1. apply take_digits_ok; auto.
      eapply Forall_impl; [|exact F]. intros; apply digit_hex; auto.
    + unfold base_of. destruct (hexmark (48 :: ds)) eqn:H.
      { destruct (hexmark_inv _ H) as (x & h & r & E & X & _). injection E; intros; subst.
        inversion F; subst. unfold oct_digit in *. lia. }
      split; [reflexivity|]. rewrite <- (app_nil_r (48 :: ds)) at 1. rewrite take_digits_ok; auto.
      * constructor; [reflexivity|]. eapply Forall_impl; [|exact F]. intros; apply digit_oct; auto.
      * constructor; [unfold hex_digit; lia|]. eapply Forall_impl; [|exact F]. intros; apply oct_hex; auto.
    + rewrite base_other by lia. split; [apply digit_dec; unfold dec_digit; lia|].
      rewrite <- (app_nil_r (d :: ds)) at 1. apply take_digits_ok; auto.
      * constructor; [apply digit_dec; unfold dec_digit; lia|]. eapply Forall_impl; [|exact F]. intros; apply digit_dec; auto.
      * constructor; [unfold hex_digit; lia|]. eapply Forall_impl; [|exact F]. intros; apply dec_hex; auto.
  - unfold base_of. destruct (hexmark s) eqn:H.
    + destruct (hexmark_inv _ H) as (x & h & r & -> & X & D). cbn [skipn]. intros [_ T].
      destruct (take_digits_inv _ _ _ _ _ T) as (ds & E & F & _). rewrite app_nil_r in E. subst ds.
      assert (FH : Forall hex_digit (h :: r)) by (eapply Forall_impl; [|exact F]; intros; apply digit_hex; auto).
      left. exists x, (h :: r). repeat (match goal with |- _ /\ _ => split end); auto; [congruence|].
      rewrite <- (app_nil_r (h :: r)) in T. rewrite take_digits_ok in T; auto. injection T; intros <-; reflexivity.
    + destruct s as [|c t]; [tauto|]. destruct (Z.eq_dec c 48) as [->|N].
      * intros [_ T]. destruct (take_digits_inv _ _ _ _ _ T) as (ds & E & F & _). rewrite app_nil_r in E. subst ds.
        inversion F as [|? ? D F']; subst.
        assert (FO : Forall oct_digit t) by (eapply Forall_impl; [|exact F']; intros; apply digit_oct; auto).
        assert (FH : Forall hex_digit t) by (eapply Forall_impl; [|exact FO]; intros; apply oct_hex; auto).
        right; left. exists t. repeat split; auto.
        rewrite <- (app_nil_r (48 :: t)) in T. rewrite take_digits_ok in T; auto; [|constructor; auto; unfold hex_digit; lia].
        injection T; intros <-. reflexivity.
      * intros X. pose proof (base_other c t N) as B. unfold base_of in B. rewrite H in B. rewrite B in X.
        destruct X as [D T]. destruct (take_digits_inv _ _ _ _ _ T) as (ds & E & F & _). rewrite app_nil_r in E. subst ds.
        inversion F as [|? ? D' F']; subst. apply digit_dec in D.
        assert (FO : Forall dec_digit t) by (eapply Forall_impl; [|exact F']; intros; apply digit_dec; auto).
        assert (FH : Forall hex_digit t) by (eapply Forall_impl; [|exact FO]; intros; apply dec_hex; auto).
        right; right. exists c, t. unfold dec_digit in D. repeat split; auto; try lia.
        rewrite <- (app_nil_r (c :: t)) in T. rewrite take_digits_ok in T; auto; [|constructor; auto; unfold hex_digit; lia].
        injection T; intros <-. reflexivity.
Qed.

Lemma magnitude_head s m : magnitude s m -> exists c r, s = c :: r /\ dec_digit c.
Proof.
  intros [(x & ds & -> & _)|[(ds & -> & _)|(d & ds & -> & D & _)]]; eexists _, _; split; try reflexivity; unfold dec_digit; lia.
Qed.

Lemma subject_base s neg s2 : take_sign (skip_space s) = (neg, s2) ->
  subject s = let '(b, s3) := base_of s2 in
    match s3 with
    | c :: _ => if is_dig b c then let '(v, rest) := take_digits b 0 s3 in Some (neg, v, rest) else None
    | [] => None
    end.
Proof. intros E. unfold subject. rewrite E. reflexivity. Qed.

Lemma subject_whole s neg s2 m : take_sign (skip_space s) = (neg, s2) ->
  subject s = Some (neg, m, []) <-> magnitude s2 m.
Proof.
  intros E. rewrite (subject_base s neg s2 E), magnitude_ok. destruct (base_of s2) as [b s3].
  destruct s3 as [|c r]; [split; [discriminate|tauto]|]. destruct (is_dig b c).
  - destruct (take_digits b 0 (c :: r)) as [v rest]. split; [intros X; injection X; intros; subst; auto|].
    intros [_ X]; injection X; intros; subst; auto.
  - split; [discriminate|intros [X _]; discriminate].
Qed.

Lemma numeral_subject s v : numeral s v <->
  exists neg m, subject s = Some (neg, m, []) /\ v = (if neg then - m else m).
Proof.
  split.
  - intros (sp & body & m & F & M & C). destruct (magnitude_head _ _ M) as (c & r & -> & D). unfold dec_digit in D.
    destruct C as [[-> ->]|[[-> ->]|[-> ->]]].
    + exists false, m. split; auto. apply (subject_whole _ false (c :: r)); auto.
      rewrite skip_space_ok; auto; [|unfold space; lia]. cbn [take_sign]. unfold MINUS, PLUS.
      destruct (Z.eqb_spec c 45); [lia|]. destruct (Z.eqb_spec c 43); [lia|]. reflexivity.
    + exists false, m. split; auto. apply (subject_whole _ false (c :: r)); auto.
      rewrite skip_space_ok; auto; unfold space, PLUS; lia.
    + exists true, m. split; auto. apply (subject_whole _ true (c :: r)); auto.
      rewrite skip_space_ok; auto; unfold space, MINUS; lia.
  - intros (neg & m & E & ->). destruct (take_sign (skip_space s)) as [neg' s2] eqn:T.
    assert (neg' = neg).
    { rewrite (subject_base s neg' s2 T) in E. destruct (base_of s2) as [b [|c r]]; [discriminate|].
      destruct (is_dig b c); [|discriminate]. destruct (take_digits b 0 (c :: r)). injection E; auto. }
    subst neg'. apply (subject_whole s neg s2 m T) in E.
    destruct (skip_space_inv s) as (sp & S & F). exists sp, s2, m. repeat split; auto.
    destruct (skip_space s) as [|c t] eqn:Q; cbn [take_sign] in T.
    + injection T; intros; subst. destruct (magnitude_head _ _ E) as (? & ? & ? & _); discriminate.
    + unfold MINUS, PLUS in T. destruct (Z.eqb_spec c 45); [|destruct (Z.eqb_spec c 43)]; injection T; intros; subst; unfold MINUS, PLUS; auto.
Qed.

Lemma magnitude_nonneg s m : magnitude s m -> 0 <= m.
Proof.
  assert (G : forall b ds, 0 <= b -> Forall hex_digit ds -> forall a, 0 <= a -> 0 <= fold_left (fun a d => a * b + hexv d) ds a).
  { intros b ds B. induction ds as [|d ds IH]; intros F a A; cbn [fold_left]; auto. inversion F; subst.
    apply IH; auto. pose proof (hexv_range d ltac:(auto)). nia. }
  intros [(x & ds & -> & X & N & F & ->)|[(ds & -> & F & ->)|(d & ds & -> & D & F & ->)]]; apply G; try lia; auto.
  - eapply Forall_impl; [|exact F]; intros; apply oct_hex; auto.
  - constructor; [unfold hex_digit; lia|]. eapply Forall_impl; [|exact F]; intros; apply dec_hex; auto.
Qed.

(** A string accepted as a whole. *)
Lemma strtol0_whole s v : strtol0 s = (v, [], false) <->
  (numeral s v /\ LONG_MIN <= v <= LONG_MAX) \/ (s = [] /\ v = 0).
Proof.
  unfold strtol0. destruct (subject s) as [[[neg m] rest]|] eqn:E.
  - assert (NE : s <> []) by (intros ->; discriminate).
    set (w := if neg then - m else m).
    split.
    + intros X. left. destruct (Z.ltb_spec LONG_MAX w); [discriminate|]. destruct (Z.ltb_spec w LONG_MIN); [discriminate|].
      injection X; intros; subst. split; [|lia]. apply numeral_subject. eauto.
    + intros [[N R]|[-> _]]; [|congruence]. apply numeral_subject in N. destruct N as (neg' & m' & E' & ->).
      rewrite E in E'. injection E'; intros; subst. fold w in R.
      destruct (Z.ltb_spec LONG_MAX w); [lia|]. destruct (Z.ltb_spec w LONG_MIN); [lia|]. reflexivity.
  - split.
    + intros X; injection X; intros; subst. right; auto.
    + intros [[N R]|[-> ->]]; [|reflexivity]. apply numeral_subject in N. destruct N as (? & ? & X & _); congruence.
Qed.
