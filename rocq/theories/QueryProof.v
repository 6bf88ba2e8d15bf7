(** Proofs about the order and the selection of consoles. *)
From Coq Require Import String Permutation Sorted.
From Verif Require Import Base BaseProof Chars Fmt ListSpec ListProof QueryModel QuerySpec.
From Coq Require Import ZifyNat.
Local Open Scope Z_scope.

Lemma isdigit_ok c : isdigit c = true <-> digit c.
Proof. unfold isdigit, digit. lia. Qed.

(** ** The trailing integer *)

Lemma ti_app a : forall i q b, trailing_int i q (a ++ b) = trailing_int (i + length a) (trailing_int i q a) b.
Proof.
  induction a as [|c a IH]; intros i q b; cbn [app trailing_int length]; [rewrite Nat.add_0_r; reflexivity|].
  rewrite IH. f_equal. lia.
Qed.

Lemma ti_digits ds : forall i q, Forall digit ds -> trailing_int i (Some q) ds = Some q.
Proof.
  induction ds as [|d ds IH]; intros i q F; cbn [trailing_int]; [reflexivity|]. inversion F; subst.
  rewrite (proj2 (isdigit_ok d)) by auto. apply IH; auto.
Qed.

Definition oi (i : nat) (ds : list Z) : option nat := match ds with [] => None | _ => Some i end.

Lemma find_int st ds : stem_ok st -> Forall digit ds -> find_trailing_int_str (st ++ ds) = oi (length st) ds.
Proof.
  intros S F. unfold find_trailing_int_str. rewrite ti_app. cbn [Nat.add].
  assert (N : trailing_int 0 None st = None).
  { destruct S as [->|(s & c & -> & D)]; [reflexivity|]. rewrite ti_app. cbn [trailing_int].
    destruct (isdigit c) eqn:Q; [apply isdigit_ok in Q; contradiction|reflexivity]. }
  rewrite N. destruct ds as [|d ds]; [reflexivity|]. cbn [trailing_int oi]. inversion F; subst.
  rewrite (proj2 (isdigit_ok d)) by auto. apply ti_digits; auto.
Qed.

Lemma split_name name : exists st ds, name = st ++ ds /\ stem_ok st /\ Forall digit ds.
Proof.
  induction name as [|c name IH] using rev_ind.
  - exists [], []. split; auto. split; [left; auto|constructor].
  - destruct (isdigit c) eqn:Q.
    + destruct IH as (st & ds & -> & S & F). exists st, (ds ++ [c]). rewrite app_assoc. split; auto. split; auto.
      apply Forall_app. split; auto. constructor; auto. apply isdigit_ok; auto.
    + exists (name ++ [c]), []. rewrite app_nil_r. split; auto. split; [|constructor]. right. exists name, c. split; auto.
      intros D. apply isdigit_ok in D. congruence.
Qed.

Lemma num_number ds : forall a, Forall digit ds -> num a ds = fold_left (fun a d => a * 10 + (d - 48)) ds a.
Proof.
  induction ds as [|d ds IH]; intros a F; cbn [num fold_left]; [reflexivity|]. inversion F; subst.
  rewrite (proj2 (isdigit_ok d)) by auto. auto.
Qed.

Lemma number_nonneg ds : Forall digit ds -> 0 <= number ds.
Proof.
  unfold number. assert (G : forall a, 0 <= a -> Forall digit ds -> 0 <= fold_left (fun a d => a * 10 + (d - 48)) ds a); [|intros; apply G; auto; lia].
  induction ds as [|d ds IH]; intros a A F; cbn [fold_left]; auto. inversion F; subst. apply IH; auto. unfold digit in *. lia.
Qed.

Lemma atoi_digits ds : Forall digit ds -> number ds <= INT_MAX -> atoi ds = Ok (number ds).
Proof.
  intros F N. pose proof (number_nonneg ds F) as P. unfold atoi.
  assert (E : skip_space ds = ds).
  { destruct ds as [|d ds]; [reflexivity|]. apply skip_space_digit. inversion F; subst. apply isdigit_ok; auto. }
  rewrite E. set (v := match ds with [] => _ | _ => _ end). assert (EV : v = number ds).
  { unfold v. destruct ds as [|d ds]; [reflexivity|]. inversion F as [|? ? D F']; subst. unfold digit, MINUS, PLUS in *.
    destruct (Z.eqb_spec d 45); [lia|]. destruct (Z.eqb_spec d 43); [lia|]. apply num_number; auto. }
  rewrite EV. destruct (Z.leb_spec INT_MIN (number ds)); [|unfold INT_MIN in *; lia]. destruct (Z.leb_spec (number ds) INT_MAX); [reflexivity|lia].
Qed.

(** ** Comparing *)

Lemma from_lex sgn i1 i2 r1 : forall i r2, (forall j, (i <= j < i + length r1)%nat -> is_at i1 j && is_at i2 j = false) ->
  compare_from sgn i1 i2 i r1 r2 = Ok (lex sgn r1 r2).
Proof.
  induction r1 as [|c t IH]; intros i r2 H; cbn [compare_from lex].
  - destruct r2; reflexivity.
  - rewrite H by (cbn [length]; lia). destruct r2 as [|c2 t2]; [f_equal; lia|].
    destruct (c =? c2); [|reflexivity]. apply IH. intros j J. apply H. cbn [length]. lia.
Qed.

Lemma from_common sgn i1 i2 st : forall i a b, (forall j, (i <= j < i + length st)%nat -> is_at i1 j && is_at i2 j = false) ->
  compare_from sgn i1 i2 i (st ++ a) (st ++ b) = compare_from sgn i1 i2 (i + length st) a b.
Proof.
  induction st as [|c t IH]; intros i a b H; cbn [app length]; [rewrite Nat.add_0_r; reflexivity|].
  cbn [compare_from]. rewrite H by (cbn [length]; lia). rewrite Z.eqb_refl. rewrite IH; [f_equal; lia|].
  intros j J. apply H. cbn [length]. lia.
Qed.

Lemma at_oi k ds j : is_at (oi k ds) j = true -> k = j /\ ds <> [].
Proof. destruct ds; cbn [oi is_at]; [discriminate|]. intros H. apply Nat.eqb_eq in H. split; [auto|discriminate]. Qed.

Lemma compare_numeric sgn st d1 d2 : stem_ok st -> Forall digit d1 -> Forall digit d2 -> d1 <> [] -> d2 <> [] ->
  number d1 <= INT_MAX -> number d2 <= INT_MAX ->
  compare_objs sgn (st ++ d1) (st ++ d2) = Ok (number d1 - number d2).
Proof.
  intros S F1 F2 N1 N2 M1 M2. unfold compare_objs. rewrite !find_int by auto. rewrite from_common.
  - cbn [Nat.add]. pose proof (atoi_digits d1 F1 M1) as A1. pose proof (atoi_digits d2 F2 M2) as A2.
    pose proof (number_nonneg d1 F1). pose proof (number_nonneg d2 F2).
    destruct d1 as [|x d1]; [congruence|]. destruct d2 as [|y d2]; [congruence|]. cbn [compare_from oi is_at].
    rewrite Nat.eqb_refl. cbn [andb]. rewrite A1, A2. cbn [bind].
    destruct (Z.leb_spec INT_MIN (number (x :: d1) - number (y :: d2))); [|unfold INT_MIN, INT_MAX in *; lia].
    destruct (Z.leb_spec (number (x :: d1) - number (y :: d2)) INT_MAX); [reflexivity|unfold INT_MIN, INT_MAX in *; lia].
  - intros j J. destruct (is_at (oi (length st) d1) j) eqn:Q; [|reflexivity]. apply at_oi in Q. lia.
Qed.

Lemma compare_plain sgn a b : unnumbered a \/ unnumbered b -> compare_objs sgn a b = Ok (lex sgn a b).
Proof.
  intros U. unfold compare_objs. apply from_lex. intros j _.
  destruct U as [U|U].
  - pose proof (find_int a [] U ltac:(constructor)) as E. rewrite app_nil_r in E. rewrite E. reflexivity.
  - pose proof (find_int b [] U ltac:(constructor)) as E. rewrite app_nil_r in E. rewrite E. apply andb_false_r.
Qed.

(** Names with the trailing integer at different places. *)
Lemma compare_apart sgn s1 d1 s2 d2 : stem_ok s1 -> stem_ok s2 -> Forall digit d1 -> Forall digit d2 ->
  length s1 <> length s2 -> compare_objs sgn (s1 ++ d1) (s2 ++ d2) = Ok (lex sgn (s1 ++ d1) (s2 ++ d2)).
Proof.
  intros S1 S2 F1 F2 N. unfold compare_objs. rewrite !find_int by auto. apply from_lex. intros j _.
  destruct (is_at (oi (length s1) d1) j) eqn:Q1; [|reflexivity]. destruct (is_at (oi (length s2) d2) j) eqn:Q2; [|reflexivity].
  apply at_oi in Q1, Q2. lia.
Qed.

(** Different stems of the same length. *)
Lemma from_diff sgn i1 i2 s1 : forall s2 i a b, length s1 = length s2 -> s1 <> s2 ->
  (forall j, (i <= j < i + length s1)%nat -> is_at i1 j && is_at i2 j = false) ->
  compare_from sgn i1 i2 i (s1 ++ a) (s2 ++ b) = Ok (lex sgn (s1 ++ a) (s2 ++ b)).
Proof.
  induction s1 as [|c s1 IH]; intros [|c2 s2] i a b L N H; cbn [length] in L; try lia; [congruence|].
  cbn [app compare_from lex]. rewrite H by (cbn [length]; lia). destruct (Z.eqb_spec c c2) as [->|]; [|reflexivity].
  apply IH; [lia|congruence|]. intros j J. apply H. cbn [length]. lia.
Qed.

Lemma compare_stems sgn s1 d1 s2 d2 : stem_ok s1 -> stem_ok s2 -> Forall digit d1 -> Forall digit d2 ->
  s1 <> s2 -> compare_objs sgn (s1 ++ d1) (s2 ++ d2) = Ok (lex sgn (s1 ++ d1) (s2 ++ d2)).
Proof.
  intros S1 S2 F1 F2 N. destruct (Nat.eq_dec (length s1) (length s2)) as [L|L]; [|apply compare_apart; auto].
  unfold compare_objs. rewrite !find_int by auto. apply from_diff; auto. intros j J.
  destruct (is_at (oi (length s1) d1) j) eqn:Q1; [|reflexivity]. apply at_oi in Q1. lia.
Qed.

Lemma lex_anti sgn a : forall b, lex sgn b a = - lex sgn a b.
Proof.
  induction a as [|x a IH]; intros [|y b]; cbn [lex]; try lia. rewrite (Z.eqb_sym y x). destruct (x =? y); [apply IH|lia].
Qed.
Lemma lex_refl sgn a : lex sgn a a = 0.
Proof. induction a as [|x a IH]; cbn [lex]; auto. rewrite Z.eqb_refl. auto. Qed.

(** ** Simple names *)

Definition pc (p q : Z * Z) : Z := let s := Z.sgn (fst p - fst q) in if s =? 0 then Z.sgn (snd p - snd q) else s.
Fixpoint kc (a b : list (Z * Z)) : Z :=
  match a, b with
  | [], [] => 0
  | [], _ => -1
  | _, [] => 1
  | x :: a', y :: b' => if pc x y =? 0 then kc a' b' else pc x y
  end.

Lemma sgn3 z : (Z.sgn z = -1 /\ z < 0) \/ (Z.sgn z = 0 /\ z = 0) \/ (Z.sgn z = 1 /\ 0 < z).
Proof. destruct z; cbn; lia. Qed.

Lemma pc_spec p q :
  (pc p q = -1 /\ (fst p < fst q \/ (fst p = fst q /\ snd p < snd q))) \/
  (pc p q = 0 /\ fst p = fst q /\ snd p = snd q) \/
  (pc p q = 1 /\ (fst q < fst p \/ (fst p = fst q /\ snd q < snd p))).
Proof.
  unfold pc. cbv zeta. destruct (sgn3 (fst p - fst q)) as [[-> A]|[[-> A]|[-> A]]]; cbn [Z.eqb]; [lia| |lia].
  destruct (sgn3 (snd p - snd q)) as [[-> B]|[[-> B]|[-> B]]]; lia.
Qed.
Lemma pc_anti p q : pc q p = - pc p q.
Proof.
  pose proof (pc_spec p q) as A. pose proof (pc_spec q p) as B. destruct p, q. cbn [fst snd] in *.
  set (u := pc _ _) in *. clearbody u. set (v := pc _ _) in *. clearbody v. lia.
Qed.
Lemma pc_trans p q r : pc p q <= 0 -> pc q r <= 0 -> pc p r <= 0 /\ (pc p r = 0 -> pc p q = 0 /\ pc q r = 0).
Proof.
  pose proof (pc_spec p q) as A. pose proof (pc_spec q r) as B. pose proof (pc_spec p r) as C. destruct p, q, r. cbn [fst snd] in *.
  set (u := pc _ _) in *. clearbody u. set (v := pc _ _) in *. clearbody v. set (w := pc _ _) in *. clearbody w. lia.
Qed.

Lemma kc_anti a : forall b, kc b a = - kc a b.
Proof.
  induction a as [|x a IH]; intros [|y b]; cbn [kc]; try lia. rewrite (pc_anti x y).
  destruct (Z.eqb_spec (pc x y) 0), (Z.eqb_spec (- pc x y) 0); first [apply IH|lia].
Qed.
Lemma kc_trans a : forall b c, kc a b <= 0 -> kc b c <= 0 -> kc a c <= 0.
Proof.
  induction a as [|x a IH]; intros [|y b] [|z c] A B; cbn [kc] in *; try lia.
  destruct (Z.eqb_spec (pc x y) 0) as [E1|E1], (Z.eqb_spec (pc y z) 0) as [E2|E2].
  - destruct (pc_trans x y z ltac:(lia) ltac:(lia)) as [T _].
    pose proof (pc_trans z y x ltac:(rewrite (pc_anti y z); lia) ltac:(rewrite (pc_anti x y); lia)) as [T2 _]. rewrite (pc_anti x z) in T2.
    assert (pc x z = 0) as -> by lia. cbn [Z.eqb]. eapply IH; eauto.
  - destruct (pc_trans x y z ltac:(lia) ltac:(lia)) as [T T0]. destruct (Z.eqb_spec (pc x z) 0); [|lia]. destruct (T0 e); lia.
  - destruct (pc_trans x y z ltac:(lia) ltac:(lia)) as [T T0]. destruct (Z.eqb_spec (pc x z) 0); [|lia]. destruct (T0 e); lia.
  - destruct (pc_trans x y z ltac:(lia) ltac:(lia)) as [T T0]. destruct (Z.eqb_spec (pc x z) 0); [|lia]. destruct (T0 e); lia.
Qed.

Definition tail_key (ds : list Z) : list (Z * Z) := match ds with [] => [] | _ => [(48, number ds)] end ++ [(0, 0)].
Definition key_of (sgn : bool) (st ds : list Z) : list (Z * Z) := map (fun c => (cv sgn c, 0)) st ++ tail_key ds.

Definition plain_char (c : Z) : Prop := char_ok c /\ ~ digit c.

Lemma cv_inj sgn c d : char_ok c -> char_ok d -> cv sgn c = cv sgn d -> c = d.
Proof. unfold char_ok, cv, schar. intros. destruct sgn; [|auto]. destruct (Z.ltb_spec c 128), (Z.ltb_spec d 128); lia. Qed.
Lemma cv_digit sgn d : digit d -> cv sgn d = d.
Proof. unfold digit, cv, schar. intros. destruct sgn; [|auto]. destruct (Z.ltb_spec d 128); lia. Qed.
Lemma cv_plain sgn c : plain_char c -> cv sgn c <> 0 /\ (cv sgn c < 48 \/ 57 < cv sgn c).
Proof. unfold plain_char, char_ok, digit, cv, schar. intros. destruct sgn; [|lia]. destruct (Z.ltb_spec c 128); lia. Qed.

Lemma simple_stem st : Forall plain_char st -> stem_ok st.
Proof.
  intros F. destruct st as [|c t] using rev_ind; [left; auto|]. right. exists t, c. split; auto.
  apply Forall_app in F. destruct F as [_ F]. inversion F; subst. unfold plain_char in *. tauto.
Qed.

Lemma sgn_pos z : 0 < z -> Z.sgn z = 1. Proof. destruct z; cbn; lia. Qed.
Lemma sgn_neg z : z < 0 -> Z.sgn z = -1. Proof. destruct z; cbn; lia. Qed.

Lemma kc_head a b u v p q : a <> b -> kc ((a, p) :: u) ((b, q) :: v) = Z.sgn (a - b).
Proof.
  intros N. cbn [kc]. unfold pc. cbn [fst snd]. cbv zeta. destruct (Z.eqb_spec (Z.sgn (a - b)) 0) as [E|E].
  - pose proof (sgn3 (a - b)). lia.
  - destruct (Z.eqb_spec (Z.sgn (a - b)) 0); [congruence|reflexivity].
Qed.
Lemma kc_same a u v : kc (a :: u) (a :: v) = kc u v.
Proof. cbn [kc]. unfold pc. cbv zeta. rewrite !Z.sub_diag. reflexivity. Qed.

Lemma lex_key sgn s1 : forall s2 d1 d2, Forall plain_char s1 -> Forall plain_char s2 -> Forall digit d1 -> Forall digit d2 ->
  s1 <> s2 -> Z.sgn (lex sgn (s1 ++ d1) (s2 ++ d2)) = kc (key_of sgn s1 d1) (key_of sgn s2 d2).
Proof.
  induction s1 as [|c s1 IH]; intros [|c2 s2] d1 d2 P1 P2 F1 F2 N; [congruence| | |].
  - unfold key_of. cbn [map app]. pose proof (Forall_inv P2) as Q. pose proof (cv_plain sgn c2 Q) as (Z0 & D).
    destruct d1 as [|x d1]; cbn [app lex tail_key].
    + rewrite kc_head by lia. reflexivity.
    + pose proof (Forall_inv F1) as X. rewrite kc_head by lia. unfold plain_char in Q.
      destruct (Z.eqb_spec x c2) as [->|]; [tauto|]. rewrite (cv_digit sgn x X). unfold digit in X.
      destruct D; [rewrite !sgn_pos by lia|rewrite !sgn_neg by lia]; reflexivity.
  - unfold key_of. cbn [map app]. pose proof (Forall_inv P1) as Q. pose proof (cv_plain sgn c Q) as (Z0 & D).
    destruct d2 as [|x d2]; cbn [app lex tail_key].
    + rewrite kc_head by lia. f_equal. lia.
    + pose proof (Forall_inv F2) as X. rewrite kc_head by lia. unfold plain_char in Q.
      destruct (Z.eqb_spec c x) as [->|]; [tauto|]. rewrite (cv_digit sgn x X). unfold digit in X.
      destruct D; [rewrite !sgn_neg by lia|rewrite !sgn_pos by lia]; reflexivity.
  - pose proof (Forall_inv P1) as Q1. pose proof (Forall_inv P2) as Q2. cbn [app lex].
    unfold key_of. cbn [map app]. destruct (Z.eqb_spec c c2) as [->|NE].
    + rewrite kc_same. apply IH; eauto using Forall_inv_tail. congruence.
    + rewrite kc_head; [reflexivity|]. intros E. apply NE. eapply cv_inj; [apply Q1|apply Q2|exact E].
Qed.

Lemma simple_compare sgn s1 d1 s2 d2 : Forall plain_char s1 -> Forall plain_char s2 -> Forall digit d1 -> Forall digit d2 ->
  number d1 <= INT_MAX -> number d2 <= INT_MAX ->
  exists z, compare_objs sgn (s1 ++ d1) (s2 ++ d2) = Ok z /\ Z.sgn z = kc (key_of sgn s1 d1) (key_of sgn s2 d2).
Proof.
  intros P1 P2 F1 F2 M1 M2. destruct (list_eq_dec Z.eq_dec s1 s2) as [<-|N].
  - assert (K : kc (key_of sgn s1 d1) (key_of sgn s1 d2) = kc (tail_key d1) (tail_key d2)).
    { unfold key_of. induction s1 as [|c s1 IH]; [reflexivity|]. cbn [map app]. rewrite kc_same.
      apply IH; eauto using Forall_inv_tail. }
    rewrite K. destruct d1 as [|x d1].
    { exists (lex sgn (s1 ++ []) (s1 ++ d2)). split; [apply compare_plain; left; rewrite app_nil_r; apply simple_stem; auto|].
      clear K. induction s1 as [|c s1 IH]; [|cbn [app lex]; rewrite Z.eqb_refl; apply IH; eauto using Forall_inv_tail].
      destruct d2 as [|y d2]; [reflexivity|]. cbn [app lex tail_key]. pose proof (Forall_inv F2) as Y. rewrite (cv_digit sgn y Y). unfold digit in Y.
      rewrite kc_head by lia. rewrite !sgn_neg by lia. reflexivity. }
    destruct d2 as [|y d2].
    { exists (lex sgn (s1 ++ x :: d1) (s1 ++ [])). split; [apply compare_plain; right; rewrite app_nil_r; apply simple_stem; auto|].
      clear K. induction s1 as [|c s1 IH]; [|cbn [app lex]; rewrite Z.eqb_refl; apply IH; eauto using Forall_inv_tail].
      cbn [app lex tail_key]. pose proof (Forall_inv F1) as Y. rewrite (cv_digit sgn x Y). unfold digit in Y.
      rewrite kc_head by lia. rewrite !sgn_pos by lia. reflexivity. }
    exists (number (x :: d1) - number (y :: d2)). split; [apply compare_numeric; auto using simple_stem; discriminate|].
    cbn [tail_key app kc]. unfold pc. cbn [fst snd Z.sub Z.sgn]. cbv zeta.
    change (48 - 48) with 0. cbn [Z.sgn Z.eqb].
    pose proof (sgn3 (number (x :: d1) - number (y :: d2))).
    destruct (Z.eqb_spec (Z.sgn (number (x :: d1) - number (y :: d2))) 0) as [E|E]; [|reflexivity].
    cbn [fst snd] in *. rewrite E. reflexivity.
  - exists (lex sgn (s1 ++ d1) (s2 ++ d2)). split; [apply compare_stems; auto using simple_stem|]. apply lex_key; auto.
Qed.

(** ** Sorting *)

Definition stem_of (name : list Z) : list Z := match find_trailing_int_str name with Some n => firstn n name | None => name end.
Definition digits_of (name : list Z) : list Z := match find_trailing_int_str name with Some n => skipn n name | None => [] end.
Definition kcmp (sgn : bool) (a b : list Z) : Z := kc (key_of sgn (stem_of a) (digits_of a)) (key_of sgn (stem_of b) (digits_of b)).

Lemma simple_split name : simple name -> name = stem_of name ++ digits_of name /\
  Forall plain_char (stem_of name) /\ Forall digit (digits_of name) /\ number (digits_of name) <= INT_MAX.
Proof.
  intros (st & ds & -> & P & F & M). unfold stem_of, digits_of. rewrite find_int by (auto using simple_stem).
  destruct ds as [|d ds]; cbn [oi].
  - rewrite !app_nil_r. auto.
  - rewrite firstn_app, skipn_app, firstn_all, skipn_all, Nat.sub_diag. cbn [firstn skipn app]. rewrite app_nil_r. auto.
Qed.

Lemma simple_cmp sgn a b : simple a -> simple b -> exists z, compare_objs sgn a b = Ok z /\ Z.sgn z = kcmp sgn a b.
Proof.
  intros A B. destruct (simple_split a A) as (EA & PA & FA & MA). destruct (simple_split b B) as (EB & PB & FB & MB).
  unfold kcmp. destruct (simple_compare sgn (stem_of a) (digits_of a) (stem_of b) (digits_of b)) as (z & E & S); auto.
  rewrite <- EA, <- EB in E. eauto.
Qed.

Lemma place_agree {D} (cmp : D -> D -> res Z) (cmp' : D -> D -> Z) (P : D -> Prop) :
  (forall x y, P x -> P y -> exists z, cmp x y = Ok z /\ (z <? 0) = (cmp' x y <? 0)) ->
  forall d l, P d -> Forall P l -> place_r cmp d l = Ok (place cmp' d l).
Proof.
  intros H d l Pd F. induction F as [|x l Px F IH]; cbn [place_r place]; [reflexivity|].
  destruct (H d x Pd Px) as (z & -> & E). cbn [bind]. rewrite E. destruct (cmp' d x <? 0); [reflexivity|]. rewrite IH. reflexivity.
Qed.

Lemma place_forall {D} (cmp : D -> D -> Z) (P : D -> Prop) d l : P d -> Forall P l -> Forall P (place cmp d l).
Proof. intros. eapply Permutation_Forall; [apply place_perm|]. constructor; auto. Qed.

Lemma sort_agree {D} (cmp : D -> D -> res Z) (cmp' : D -> D -> Z) (P : D -> Prop) :
  (forall x y, P x -> P y -> exists z, cmp x y = Ok z /\ (z <? 0) = (cmp' x y <? 0)) ->
  forall todo done, Forall P done -> Forall P todo -> sort_r cmp done todo = Ok (isort cmp' done todo).
Proof.
  intros H. induction todo as [|x t IH]; intros done FD FT; cbn [sort_r isort]; [reflexivity|].
  pose proof (Forall_inv FT) as Px. pose proof (Forall_inv_tail FT) as Ft. unfold last_opt.
  destruct (nth_error done (length done - 1)) as [y|] eqn:Q.
  - assert (Py : P y) by (eapply Forall_forall; [exact FD|eapply nth_error_In; exact Q]).
    destruct (H x y Px Py) as (z & -> & E). cbn [bind]. rewrite E. destruct (cmp' x y <? 0).
    + rewrite (place_agree cmp cmp' P H) by auto. cbn [bind]. apply IH; auto. apply place_forall; auto.
    + apply IH; auto. apply Forall_app; auto.
  - apply IH; auto.
Qed.

(** Whenever the sort ends, nothing is lost. *)
Lemma place_r_perm {D} (cmp : D -> D -> res Z) d l : forall l', place_r cmp d l = Ok l' -> Permutation (d :: l) l'.
Proof.
  induction l as [|x t IH]; intros l' E; cbn [place_r] in E; [injection E; intros <-; auto|].
  destruct (cmp d x) as [z|]; [|discriminate]. cbn [bind] in E. destruct (z <? 0); [injection E; intros <-; auto|].
  destruct (place_r cmp d t) as [t'|] eqn:Q; [|discriminate]. cbn [bind] in E. injection E; intros <-.
  rewrite perm_swap. constructor. auto.
Qed.
Lemma sort_r_perm {D} (cmp : D -> D -> res Z) todo : forall done l, sort_r cmp done todo = Ok l -> Permutation (done ++ todo) l.
Proof.
  induction todo as [|x t IH]; intros done l E; cbn [sort_r] in E; [injection E; intros <-; rewrite app_nil_r; auto|].
  destruct (nth_error done (length done - 1)) as [y|] eqn:Q.
  - destruct (cmp x y) as [z|]; [|discriminate]. cbn [bind] in E. destruct (z <? 0).
    + destruct (place_r cmp x done) as [d|] eqn:P; [|discriminate]. cbn [bind] in E. apply IH in E. rewrite <- E.
      apply place_r_perm in P. rewrite <- P. rewrite <- Permutation_middle. reflexivity.
    + apply IH in E. rewrite <- E. rewrite <- app_assoc. reflexivity.
  - apply IH in E. rewrite <- E. apply nth_error_None in Q. destruct done; [reflexivity|cbn in Q; lia].
Qed.

Lemma kcmp_anti sgn a b : kcmp sgn b a = - kcmp sgn a b.
Proof. apply kc_anti. Qed.
Lemma kcmp_trans sgn a b c : kcmp sgn a b <= 0 -> kcmp sgn b c <= 0 -> kcmp sgn a c <= 0.
Proof. apply kc_trans. Qed.
Lemma kcmp_preorder sgn (nm : nat -> list Z) : preorder (fun a b => kcmp sgn (nm a) (nm b)).
Proof.
  split.
  - intros x y. pose proof (kcmp_anti sgn (nm x) (nm y)). lia.
  - intros x y z. pose proof (kcmp_anti sgn (nm x) (nm y)). pose proof (kcmp_anti sgn (nm y) (nm z)). pose proof (kcmp_anti sgn (nm x) (nm z)).
    pose proof (kcmp_trans sgn (nm x) (nm y) (nm z)). lia.
Qed.

(** ** Selection *)

Section Sel.
Variables (isc : nat -> bool) (nm : nat -> list Z) (fnm : list Z -> list Z -> bool).

Lemma glob_one_in pat objs : forall ms o, In o (glob_one isc nm fnm pat objs ms) <->
  In o ms \/ (In o objs /\ isc o = true /\ fnm pat (nm o) = true).
Proof.
  induction objs as [|x objs IH]; intros ms o; cbn [glob_one In]; [tauto|]. rewrite IH.
  destruct (isc x && (fnm pat (nm x) && negb (existsb (Nat.eqb x) ms))) eqn:Q.
  - rewrite in_app_iff. cbn [In]. apply andb_true_iff in Q. destruct Q as [Q1 Q2]. apply andb_true_iff in Q2. destruct Q2 as [Q2 Q3].
    split; [|intuition (subst; auto)]. intros [[A|[<-|[]]]|B]; tauto.
  - split; [tauto|]. intros [A|([->|B] & I & F)]; [tauto| |tauto]. left. rewrite I, F in Q. cbn [andb] in Q.
    apply negb_false_iff, existsb_exists in Q. destruct Q as (y & Y & E). apply Nat.eqb_eq in E. subst. auto.
Qed.

Lemma glob_one_nodup pat objs : forall ms, NoDup ms -> NoDup (glob_one isc nm fnm pat objs ms).
Proof.
  induction objs as [|x objs IH]; intros ms N; cbn [glob_one]; auto. apply IH.
  destruct (isc x && (fnm pat (nm x) && negb (existsb (Nat.eqb x) ms))) eqn:Q; auto.
  assert (NI : ~ In x ms).
  { intros I. assert (existsb (Nat.eqb x) ms = true) as X by (apply existsb_exists; exists x; rewrite Nat.eqb_refl; auto).
    rewrite X in Q. rewrite !andb_false_r in Q. discriminate. }
  apply NoDup_rev in N. rewrite <- (rev_involutive (ms ++ [x])). apply NoDup_rev. rewrite rev_app_distr. cbn. constructor; auto.
  rewrite <- in_rev. auto.
Qed.

Lemma via_glob_in objs pats : forall ms o, In o (fold_left (fun ms p => glob_one isc nm fnm p objs ms) pats ms) <->
  In o ms \/ selected isc nm (fun p n => fnm p n = true) objs pats o.
Proof.
  unfold selected. induction pats as [|p pats IH]; intros ms o; cbn [fold_left].
  - split; [tauto|]. intros [A|(_ & _ & p & [] & _)]; auto.
  - rewrite IH, glob_one_in. split.
    + intros [[A|(A & B & C)]|(A & B & q & Q & C)]; auto; right; repeat split; auto; [exists p|exists q]; cbn [In]; auto.
    + intros [A|(A & B & q & [->|Q] & C)]; auto. right. repeat split; eauto.
Qed.

Lemma via_glob_nodup objs pats : forall ms, NoDup ms -> NoDup (fold_left (fun ms p => glob_one isc nm fnm p objs ms) pats ms).
Proof. induction pats as [|p pats IH]; intros ms N; cbn [fold_left]; auto. apply IH, glob_one_nodup, N. Qed.
End Sel.

(** ** All names *)

Lemma atoi_inv ds v : Forall digit ds -> atoi ds = Ok v -> v = number ds /\ number ds <= INT_MAX.
Proof.
  intros F H. destruct (Z.leb_spec (number ds) INT_MAX) as [L|L].
  - rewrite atoi_digits in H by auto. injection H; intros <-. auto.
  - exfalso. revert H. unfold atoi.
    assert (E : skip_space ds = ds).
    { destruct ds as [|d ds]; [reflexivity|]. apply skip_space_digit. inversion F; subst. apply isdigit_ok; auto. }
    rewrite E. set (w := match ds with [] => _ | _ => _ end). assert (EV : w = number ds).
    { unfold w. destruct ds as [|d ds]; [reflexivity|]. inversion F as [|? ? D F']; subst. unfold digit, MINUS, PLUS in *.
      destruct (Z.eqb_spec d 45); [lia|]. destruct (Z.eqb_spec d 43); [lia|]. apply num_number; auto. }
    rewrite EV. destruct (Z.leb_spec (number ds) INT_MAX); [lia|]. rewrite andb_false_r. discriminate.
Qed.

Lemma compare_anti sgn a b z : compare_objs sgn a b = Ok z -> compare_objs sgn b a = Ok (- z).
Proof.
  destruct (split_name a) as (s1 & d1 & -> & S1 & F1). destruct (split_name b) as (s2 & d2 & -> & S2 & F2).
  destruct (list_eq_dec Z.eq_dec s1 s2) as [<-|N].
  - destruct d1 as [|x d1]; [|destruct d2 as [|y d2]].
    + rewrite app_nil_r. rewrite !compare_plain by auto. rewrite (lex_anti sgn s1). intros H; injection H; intros <-. reflexivity.
    + rewrite app_nil_r. rewrite !compare_plain by auto. rewrite (lex_anti sgn (s1 ++ _)). intros H; injection H; intros <-. reflexivity.
    + unfold compare_objs at 1. rewrite !find_int by auto. rewrite from_common.
      * cbn [Nat.add compare_from oi is_at]. rewrite Nat.eqb_refl. cbn [andb].
        destruct (atoi (x :: d1)) as [v|] eqn:A1; [|discriminate]. cbn [bind].
        destruct (atoi (y :: d2)) as [w|] eqn:A2; [|discriminate]. cbn [bind].
        destruct (atoi_inv _ _ F1 A1) as [-> M1]. destruct (atoi_inv _ _ F2 A2) as [-> M2]. intros H.
        rewrite compare_numeric by (auto; discriminate).
        destruct (_ && _); [|discriminate]. injection H; intros <-. f_equal. lia.
      * intros j J. destruct (is_at (oi (length s1) (x :: d1)) j) eqn:Q; [|reflexivity]. apply at_oi in Q. lia.
  - rewrite !compare_stems by auto. rewrite (lex_anti sgn (s1 ++ d1)). intros H; injection H; intros <-. reflexivity.
Qed.

Lemma sorted_at {D} (R : D -> D -> Prop) l1 a l2 b l3 : StronglySorted R (l1 ++ a :: l2 ++ b :: l3) -> R a b.
Proof.
  induction l1 as [|x l1 IH]; cbn [app]; intros S; apply StronglySorted_inv in S; destruct S as [S F]; auto.
  rewrite Forall_forall in F. apply F. apply in_or_app. right. left. auto.
Qed.

Lemma sort_simple sgn nm l : Forall (fun o => simple (nm o)) l ->
  exists r, sort_r (fun a b => compare_objs sgn (nm a) (nm b)) [] l = Ok r /\ Permutation l r /\ ordered sgn nm r.
Proof.
  intros F. set (k := fun a b => kcmp sgn (nm a) (nm b)).
  assert (H : forall x y, simple (nm x) -> simple (nm y) -> exists z, compare_objs sgn (nm x) (nm y) = Ok z /\ (z <? 0) = (k x y <? 0)).
  { intros x y X Y. destruct (simple_cmp sgn _ _ X Y) as (z & E & S). exists z. split; auto. unfold k. rewrite <- S.
    pose proof (sgn3 z). destruct (Z.ltb_spec z 0), (Z.ltb_spec (Z.sgn z) 0); auto; lia. }
  exists (isort k [] l). split; [|split].
  - apply (sort_agree (fun a b => compare_objs sgn (nm a) (nm b)) k (fun o => simple (nm o)) H); auto.
  - apply (isort_perm k l []).
  - intros l1 a l2 b l3 E.
    assert (SS : StronglySorted (in_order k) (isort k [] l)) by (apply isort_ok; [apply kcmp_preorder|constructor]).
    rewrite E in SS. apply sorted_at in SS. unfold in_order, k in SS.
    assert (FS : Forall (fun o => simple (nm o)) (isort k [] l)) by (eapply Permutation_Forall; [apply (isort_perm k l [])|exact F]).
    rewrite E, Forall_forall in FS.
    destruct (simple_cmp sgn (nm a) (nm b)) as (z & EZ & S).
    + apply FS. apply in_or_app. right. left. auto.
    + apply FS. apply in_or_app. right. right. apply in_or_app. right. left. auto.
    + exists z. split; auto. rewrite (kcmp_anti sgn (nm a)), <- S in SS. pose proof (sgn3 z). lia.
Qed.

Lemma filter_nodup {A} (f : A -> bool) l : NoDup l -> NoDup (filter f l).
Proof.
  induction 1 as [|x l N D IH]; cbn [filter]; [constructor|]. destruct (f x); auto. constructor; auto.
  intros I. apply filter_In in I. tauto.
Qed.

Lemma regex_in isc nm regex mt objs pats : inside mt -> posix regex mt pats -> pats <> [] ->
  (length (joined pats) < MAX_SOCK_LINE)%nat ->
  exists l, via_regex isc nm regex objs pats = Some l /\ (NoDup objs -> NoDup l) /\
    forall o, In o l <-> selected isc nm (fun p n => mt p n 0%nat (length n)) objs pats o.
Proof.
  intros I (rx & R & P) NE L. unfold via_regex. cbv zeta.
  replace (match pats with [] => [zs ".*"] | _ :: _ => pats end) with pats by (destruct pats; congruence).
  rewrite firstn_all2 by lia. rewrite R. eexists. split; [reflexivity|]. split; [apply filter_nodup|].
  intros o. rewrite filter_In. specialize (P (nm o)). cbv zeta in P. unfold selected. rewrite andb_true_iff.
  destruct (rx (nm o)) as [[so eo]|].
  - destruct P as [(p & Ip & M) P2]. rewrite andb_true_iff, !Nat.eqb_eq. split.
    + intros (A & B & -> & ->). eauto.
    + intros (A & B & q & Q & M2). specialize (I _ _ _ _ M). destruct (P2 0%nat (length (nm o))) as [X|[X Y]]; [eauto|lia|]. repeat split; auto; lia.
  - split; [intros (_ & _ & X); discriminate|]. intros (A & B & q & Q & M2). exfalso. apply (P 0%nat (length (nm o))). eauto.
Qed.
