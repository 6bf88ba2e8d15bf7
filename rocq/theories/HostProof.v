From Verif Require Import Base BaseProof Mem Chars HostModel HostSpec.
From Coq Require Import ZifyNat.
Local Open Scope nat_scope.

Lemma Forall2_weaken {A B} (P Q : A -> B -> Prop) l m : (forall a b, P a b -> Q a b) -> Forall2 P l m -> Forall2 Q l m.
Proof. intros I H. induction H; constructor; auto. Qed.

Section H.
Variable p : nat.
Hypothesis P1 : 1 <= p.

(** ** Writes *)
Lemma blit_same (l : list cell) o src l' : blit l o src = Ok l' -> slice l' o (length src) = Ok src.
Proof.
  unfold blit. destruct (Nat.leb_spec (o + length src) (length l)) as [L|]; [|discriminate]. intros X. injection X as <-.
  apply slice_eq; [rewrite firstn_length; lia|reflexivity].
Qed.
Lemma blit_in (l : list cell) o src : o + length src <= length l -> exists l', blit l o src = Ok l' /\ length l' = length l.
Proof.
  intros L. rewrite blit_ok by auto. eexists. split; [reflexivity|]. rewrite !app_length, firstn_length, skipn_length. lia.
Qed.
Lemma nth_blit (l : list cell) o src l' i : blit l o src = Ok l' -> i < o \/ o + length src <= i -> nth_error l' i = nth_error l i.
Proof.
  unfold blit. destruct (Nat.leb_spec (o + length src) (length l)) as [L|]; [|discriminate]. intros X. injection X as <-. intros [H|H].
  - rewrite nth_error_app1 by (rewrite firstn_length; lia). transitivity (nth_error (firstn o l ++ skipn o l) i); [|rewrite firstn_skipn; reflexivity]. rewrite nth_error_app1; [reflexivity|]. rewrite firstn_length. lia.
  - rewrite nth_error_app2 by (rewrite firstn_length; lia). rewrite firstn_length, nth_error_app2 by lia.
    transitivity (nth_error (firstn (o + length src) l ++ skipn (o + length src) l) i); [|rewrite firstn_skipn; reflexivity].
    rewrite (nth_error_app2 (firstn (o + length src) l)) by (rewrite firstn_length; lia). rewrite firstn_length. f_equal. lia.
Qed.
Lemma slice_nth (l l' : list cell) o n : length l = length l' -> (forall i, o <= i < o + n -> nth_error l i = nth_error l' i) -> slice l o n = slice l' o n.
Proof.
  intros L H. unfold slice. rewrite L. destruct (Nat.leb_spec (o + n) (length l')); [|reflexivity]. f_equal.
  assert (G : forall a (m m' : list cell), (forall i, i < a -> nth_error m i = nth_error m' i) -> a <= length m -> a <= length m' -> firstn a m = firstn a m').
  { clear. induction a as [|a IH]; intros m m' H L L'; [reflexivity|]. destruct m, m'; cbn [length] in *; try lia. cbn [firstn].
    pose proof (H 0 ltac:(lia)) as H0. injection H0 as ->. f_equal. apply IH; try lia. intros i I. apply (H (S i)). lia. }
  apply G; rewrite ?skipn_length; try lia. intros i I. assert (NS : forall m : list cell, nth_error (skipn o m) i = nth_error m (o + i)).
  { clear. induction o as [|o IH]; intros m; [reflexivity|]. destruct m; cbn [skipn]; [destruct i; reflexivity|]. rewrite IH. reflexivity. }
  rewrite !NS. apply H. lia.
Qed.

(** [buf'] is [buf] except for the cells in [w] *)
Definition frame (w : nat -> Prop) (buf buf' : list cell) : Prop :=
  length buf' = length buf /\ forall i, ~ w i -> nth_error buf' i = nth_error buf i.
Lemma frame_refl w buf : frame w buf buf.
Proof. split; auto. Qed.
Lemma frame_trans w a b c : frame w a b -> frame w b c -> frame w a c.
Proof. intros [L1 H1] [L2 H2]. split; [congruence|]. intros i N. rewrite H2, H1; auto. Qed.
Lemma frame_weak (w v : nat -> Prop) a b : (forall i, w i -> v i) -> frame w a b -> frame v a b.
Proof. intros I [L H]. split; [exact L|]. intros i N. apply H. auto. Qed.
Lemma blit_frame (l : list cell) o src l' : blit l o src = Ok l' -> frame (fun i => o <= i < o + length src) l l'.
Proof. intros H. split; [eapply blit_length; eauto|]. intros i N. eapply nth_blit; eauto. lia. Qed.
Lemma at_frame w n buf buf' o l : frame w buf buf' -> (forall i, o <= i < o + length l -> ~ w i) -> at_ n buf o l -> at_ n buf' o l.
Proof.
  intros [L F] D [B S]. split; [exact B|]. rewrite <- S. apply slice_nth; auto.
Qed.

Lemma pieces_length v k : length (pieces v k) = k.
Proof. unfold pieces. rewrite map_length, seq_length. reflexivity. Qed.
Lemma store_in buf o v k : o + k <= length buf -> exists buf', store buf o v k = Ok buf' /\ frame (fun i => o <= i < o + k) buf buf' /\
  forall n, o + k <= n -> at_ n buf' o (pieces v k).
Proof.
  intros L. unfold store. destruct (blit_in buf o (pieces v k)) as (b & H & _); [rewrite pieces_length; auto|]. exists b.
  split; [exact H|]. split; [apply blit_frame in H; rewrite pieces_length in H; exact H|]. intros n LN. split; [rewrite pieces_length; exact LN|]. eapply blit_same; eauto.
Qed.

Lemma array_frame w n buf buf' l : frame w buf buf' -> forall o, (forall i, o <= i < o + (length l + 1) * p -> ~ w i) ->
  array_in p n buf o l -> array_in p n buf' o l.
Proof.
  intros F. induction l as [|a l IH]; intros o D H; cbn [array_in length] in *.
  - eapply at_frame; eauto. intros i I. apply D. rewrite pieces_length in I. lia.
  - destruct H as [H1 H2]. split.
    + eapply at_frame; eauto. intros i I. apply D. rewrite pieces_length in I. lia.
    + apply IH; auto. intros i I. apply D. lia.
Qed.

Lemma at_more n m buf o l : n <= m -> at_ n buf o l -> at_ m buf o l.
Proof. intros L [B S]. split; [lia|exact S]. Qed.
Lemma array_weak n m buf l : n <= m -> forall o, array_in p n buf o l -> array_in p m buf o l.
Proof.
  intros L. induction l as [|a l IH]; intros o H; cbn [array_in] in *; [eapply at_more; eauto|]. destruct H. split; [eapply at_more; eauto|auto].
Qed.
(** An array of [k] pointers that begins at [o] ends before [b]. *)
Lemma array_fits n b buf l : forall o, o + (length l + 1) * p <= b -> array_in p n buf o l -> array_in p b buf o l.
Proof.
  induction l as [|a l IH]; intros o L H; cbn [array_in length] in *.
  - destruct H as [B S]. split; [rewrite pieces_length in *; lia|exact S].
  - destruct H as [[B S] H]. split; [split; [rewrite pieces_length in *; lia|exact S]|]. apply IH; [lia|exact H].
Qed.

(** ** Addresses *)
Lemma addr_ok hl N addrs : Forall (fun a => length a = hl) addrs -> forall buf q b len,
  q + (length addrs + 1) * p <= b -> (0 <= len)%Z -> b + Z.to_nat len <= N -> N <= length buf ->
  exists r, addr_loop p buf q b len hl addrs = Ok r /\
  ((len < Z.of_nat (length addrs * hl))%Z -> r = None) /\
  ((Z.of_nat (length addrs * hl) <= len)%Z -> exists buf' ads,
     r = Some (buf', b + length addrs * hl, (len - Z.of_nat (length addrs * hl))%Z) /\
     frame (fun i => q <= i < q + (length addrs + 1) * p \/ b <= i < b + length addrs * hl) buf buf' /\
     array_in p b buf' q ads /\ Forall2 (bytes_in (b + length addrs * hl) buf') ads addrs /\ Forall (fun o => b <= o) ads).
Proof.
  induction 1 as [|a addrs LA F IH]; intros buf q b len D LP B L; cbn [addr_loop length] in *.
  - destruct (store_in buf q (VPtr None) p) as (b1 & S1 & F1 & A1); [lia|]. rewrite S1. cbn [bind]. eexists. split; [reflexivity|].
    split; [lia|]. intros _. exists b1, []. rewrite Nat.mul_0_l, Nat.add_0_r, Z.sub_0_r. split; [reflexivity|].
    split; [eapply frame_weak; [|exact F1]; cbn; lia|]. split; [apply A1; lia|]. split; constructor.
  - destruct (Z.ltb_spec (len - Z.of_nat hl) 0) as [T|T]; [eexists; split; [reflexivity|]; split; [auto|lia]|].
    rewrite slice_ok by lia. cbn [bind skipn]. rewrite <- LA, firstn_all.
    destruct (blit_in buf b (map CB a)) as (b1 & S1 & L1); [rewrite map_length; lia|]. rewrite S1. cbn [bind].
    destruct (store_in b1 q (VPtr (Some b)) p) as (b2 & S2 & F2 & A2); [lia|]. rewrite S2. cbn [bind].
    pose proof (proj1 F2) as L2. rewrite LA.
    destruct (IH b2 (q + p) (b + hl) (len - Z.of_nat hl)%Z) as (r & R & RN & RS); try lia.
    exists r. split; [exact R|]. split; [intros H; apply RN; lia|]. intros H. destruct RS as (b3 & ads & -> & F3 & A3 & B3 & O3); [lia|].
    exists b3, (b :: ads). split; [f_equal; f_equal; [f_equal; lia|lia]|].
    assert (F1 := blit_frame _ _ _ _ S1). rewrite map_length in F1.
    split.
    + eapply frame_trans; [eapply frame_weak; [|exact F1]; cbn; lia|]. eapply frame_trans; [eapply frame_weak; [|exact F2]; cbn; lia|].
      eapply frame_weak; [|exact F3]. cbn. lia.
    + split.
      * assert (LN : length ads = length addrs) by (clear - B3; induction B3; cbn [length]; congruence).
        cbn [array_in]. split; [|apply (array_fits (b + hl)); [lia|exact A3]]. eapply at_frame; [exact F3| |apply A2; lia]. intros i. rewrite pieces_length. lia.
      * split; [|constructor; [lia|eapply Forall_impl; [|exact O3]; cbn; lia]].
        constructor; [|eapply Forall2_weaken; [|exact B3]; intros ? ?; apply at_more; lia]. eapply at_frame; [exact F3|rewrite map_length; lia|]. eapply at_frame; [exact F2|rewrite map_length; lia|].
        split; [rewrite map_length; lia|]. eapply blit_same; eauto.
Qed.

(** ** Strings *)
Lemma strlcpy_in N buf b s len : (0 <= len)%Z -> b + Z.to_nat len <= N -> N <= length buf ->
  exists buf', strlcpy buf b s len = Ok buf' /\ frame (fun i => b <= i < b + Z.to_nat len) buf buf' /\
  ((Z.of_nat (length s + 1) <= len)%Z -> chars_in N buf' b s /\ frame (fun i => b <= i < b + (length s + 1)) buf buf').
Proof.
  intros LP B L. unfold strlcpy. destruct (Z.leb_spec len 0) as [H|H].
  { exists buf. split; [reflexivity|]. split; [apply frame_refl|lia]. }
  assert (ML : length (map CB (firstn (Z.to_nat len - 1) s ++ [0%Z])) <= Z.to_nat len) by (rewrite map_length, app_length, firstn_length; cbn [length]; lia).
  destruct (blit_in buf b (map CB (firstn (Z.to_nat len - 1) s ++ [0%Z]))) as (b1 & S1 & L1); [lia|]. exists b1. split; [exact S1|].
  pose proof (blit_frame _ _ _ _ S1) as F1. split; [eapply frame_weak; [|exact F1]; cbn; lia|]. intros G.
  rewrite firstn_all2 in * by lia. split.
  - split; [rewrite map_length, app_length; cbn [length]; lia|]. eapply blit_same; eauto.
  - rewrite map_length, app_length in F1. exact F1.
Qed.
Lemma strings_cons s l : strings_size (s :: l) = length s + 1 + strings_size l.
Proof. reflexivity. Qed.
Lemma alias_ok N aliases : forall buf q b len,
  q + (length aliases + 1) * p <= b -> (0 <= len)%Z -> b + Z.to_nat len <= N -> N <= length buf ->
  exists r, alias_loop p buf q b len aliases = Ok r /\
  ((len < Z.of_nat (strings_size aliases))%Z -> r = None) /\
  ((Z.of_nat (strings_size aliases) <= len)%Z -> exists buf' als,
     r = Some (buf', b + strings_size aliases, (len - Z.of_nat (strings_size aliases))%Z) /\
     frame (fun i => q <= i < q + (length aliases + 1) * p \/ b <= i < b + strings_size aliases) buf buf' /\
     array_in p b buf' q als /\ Forall2 (chars_in (b + strings_size aliases) buf') als aliases /\ Forall (fun o => b <= o) als).
Proof.
  induction aliases as [|s aliases IH]; intros buf q b len D LP B L; cbn [alias_loop length] in *.
  - destruct (store_in buf q (VPtr None) p) as (b1 & S1 & F1 & A1); [lia|]. rewrite S1. cbn [bind]. eexists. split; [reflexivity|].
    change (strings_size []) with 0. split; [lia|]. intros _. exists b1, []. rewrite Nat.add_0_r, Z.sub_0_r. split; [reflexivity|].
    split; [eapply frame_weak; [|exact F1]; cbn; lia|]. split; [apply A1; lia|]. split; constructor.
  - rewrite strings_cons. destruct (strlcpy_in N buf b s len) as (b1 & S1 & F1 & C1); auto. rewrite S1. cbn [bind].
    pose proof (proj1 F1) as L1.
    destruct (store_in b1 q (VPtr (Some b)) p) as (b2 & S2 & F2 & A2); [lia|]. rewrite S2. cbn [bind]. pose proof (proj1 F2) as L2.
    destruct (Z.ltb_spec (len - Z.of_nat (length s + 1)) 0) as [T|T]; [eexists; split; [reflexivity|]; split; [auto|lia]|].
    destruct (IH b2 (q + p) (b + (length s + 1)) (len - Z.of_nat (length s + 1))%Z) as (r & R & RN & RS); try lia.
    exists r. split; [exact R|]. split; [intros H; apply RN; lia|]. intros H. destruct RS as (b3 & als & -> & F3 & A3 & B3 & O3); [lia|].
    exists b3, (b :: als). split; [f_equal; f_equal; [f_equal; lia|lia]|]. destruct C1 as [C1 G1]; [lia|].
    split.
    + eapply frame_trans; [eapply frame_weak; [|exact G1]; cbn; lia|]. eapply frame_trans; [eapply frame_weak; [|exact F2]; cbn; lia|].
      eapply frame_weak; [|exact F3]. cbn. lia.
    + assert (ML : length (map CB (s ++ [0%Z])) = length s + 1) by (rewrite map_length, app_length; reflexivity). split.
      * assert (LN : length als = length aliases) by (clear - B3; induction B3; cbn [length]; congruence).
        cbn [array_in]. split; [|apply (array_fits (b + (length s + 1))); [lia|exact A3]]. eapply at_frame; [exact F3| |apply A2; lia]. intros i. rewrite pieces_length. lia.
      * split; [|constructor; [lia|eapply Forall_impl; [|exact O3]; cbn; lia]].
        constructor; [|eapply Forall2_weaken; [|exact B3]; intros ? ?; apply at_more; lia]. eapply at_frame; [exact F3|rewrite ML; lia|]. eapply at_frame; [exact F2|rewrite ML; lia|].
        destruct C1 as [C1 C2]. split; [rewrite ML; lia|exact C2].
Qed.

Lemma data_frame {A} w n b buf buf' (enc : A -> list cell) : frame w buf buf' ->
  (forall i, b <= i < n -> ~ w i) ->
  forall os l, Forall2 (fun o a => at_ n buf o (enc a)) os l -> Forall (fun o => b <= o) os -> Forall2 (fun o a => at_ n buf' o (enc a)) os l.
Proof.
  intros F D os l H. induction H as [|o a os l H1 H2 IH]; intros O; constructor; inversion O; subst; auto.
  eapply at_frame; eauto. intros i I. apply D. destruct H1 as [B _]. lia.
Qed.

(** ** The copy *)
Lemma copy_ok src buf len : Forall (fun a => length a = h_length src) (h_addrs src) -> (len <= Z.of_nat (length buf))%Z ->
  exists r, copy_hostent p src buf len = Ok r /\ ((len < Z.of_nat (host_size p src))%Z -> r = None) /\ ((Z.of_nat (host_size p src) <= len)%Z -> exists buf', r = Some buf' /\ frame (fun i => i < Z.to_nat len) buf buf' /\ host_in p (Z.to_nat len) buf' src).
Proof.
  intros FA LB. unfold copy_hostent.
  assert (SZ : host_size p src = HSIZE p + (length (h_aliases src) + 1) * p + (length (h_addrs src) + 1) * p +
    length (h_addrs src) * h_length src + strings_size (h_aliases src) + (length (h_name src) + 1)) by reflexivity.
  assert (HS : HSIZE p = 3 * p + 8) by reflexivity.
  unfold OFF_NAME, OFF_ALIASES, OFF_TYPE, OFF_LENGTH, OFF_ADDRS.
  set (hs := HSIZE p) in *. set (na := (length (h_aliases src) + 1) * p) in *. set (nd := (length (h_addrs src) + 1) * p) in *.
  set (da := length (h_addrs src) * h_length src) in *. set (sa := strings_size (h_aliases src)) in *.
  assert (NA : na = (length (h_aliases src) + 1) * p) by reflexivity. assert (ND : nd = (length (h_addrs src) + 1) * p) by reflexivity.
  assert (DA : da = length (h_addrs src) * h_length src) by reflexivity. assert (SA : sa = strings_size (h_aliases src)) by reflexivity.
  clearbody hs na nd da sa. set (N := Z.to_nat len). assert (NE : (0 <= len)%Z -> Z.of_nat N = len) by lia. clearbody N.
  destruct (Z.ltb_spec (len - Z.of_nat hs) 0) as [T|T]; [eexists; split; [reflexivity|]; split; [auto|lia]|].
  destruct (store_in buf (2 * p) (VInt (h_addrtype src)) 4) as (b1 & S1 & F1 & A1); [lia|]. rewrite S1. cbn [bind]. pose proof (proj1 F1) as L1.
  destruct (store_in b1 (2 * p + 4) (VInt (Z.of_nat (h_length src))) 4) as (b2 & S2 & F2 & A2); [lia|]. rewrite S2. cbn [bind]. pose proof (proj1 F2) as L2.
  destruct (store_in b2 p (VPtr (Some hs)) p) as (b3 & S3 & F3 & A3); [lia|]. rewrite S3. cbn [bind]. pose proof (proj1 F3) as L3.
  destruct (Z.ltb_spec (len - Z.of_nat hs - Z.of_nat na) 0) as [T1|T1]; [eexists; split; [reflexivity|]; split; [auto|lia]|].
  destruct (store_in b3 (2 * p + 8) (VPtr (Some (hs + na))) p) as (b4 & S4 & F4 & A4); [lia|]. rewrite S4. cbn [bind]. pose proof (proj1 F4) as L4.
  destruct (Z.ltb_spec (len - Z.of_nat hs - Z.of_nat na - Z.of_nat nd) 0) as [T2|T2]; [eexists; split; [reflexivity|]; split; [auto|lia]|].
  destruct (addr_ok (h_length src) N (h_addrs src) FA b4 (hs + na) (hs + na + nd) (len - Z.of_nat hs - Z.of_nat na - Z.of_nat nd)%Z)
    as (r1 & R1 & RN1 & RS1); try lia. rewrite R1. cbn [bind]. rewrite <- ?DA, <- ?ND in *.
  destruct (Z.ltb_spec (len - Z.of_nat hs - Z.of_nat na - Z.of_nat nd) (Z.of_nat da)) as [T3|T3].
  { rewrite RN1 by lia. eexists; split; [reflexivity|]; split; [auto|lia]. }
  destruct RS1 as (b5 & ads & -> & F5 & A5 & B5 & O5); [lia|]. pose proof (proj1 F5) as L5.
  destruct (alias_ok N (h_aliases src) b5 hs (hs + na + nd + da) (len - Z.of_nat hs - Z.of_nat na - Z.of_nat nd - Z.of_nat da)%Z)
    as (r2 & R2 & RN2 & RS2); try lia. rewrite R2. cbn [bind]. rewrite <- ?SA, <- ?NA in *.
  destruct (Z.ltb_spec (len - Z.of_nat hs - Z.of_nat na - Z.of_nat nd - Z.of_nat da) (Z.of_nat sa)) as [T4|T4].
  { rewrite RN2 by lia. eexists; split; [reflexivity|]; split; [auto|lia]. }
  destruct RS2 as (b6 & als & -> & F6 & A6 & B6 & O6); [lia|]. pose proof (proj1 F6) as L6.
  destruct (store_in b6 0 (VPtr (Some (hs + na + nd + da + sa))) p) as (b7 & S7 & F7 & A7); [lia|]. rewrite S7. cbn [bind]. pose proof (proj1 F7) as L7.
  destruct (strlcpy_in N b7 (hs + na + nd + da + sa) (h_name src) (len - Z.of_nat hs - Z.of_nat na - Z.of_nat nd - Z.of_nat da - Z.of_nat sa)%Z)
    as (b8 & S8 & F8 & C8); try lia. rewrite S8. cbn [bind].
  destruct (Z.ltb_spec (len - Z.of_nat hs - Z.of_nat na - Z.of_nat nd - Z.of_nat da - Z.of_nat sa - Z.of_nat (length (h_name src) + 1)) 0) as [T5|T5].
  { eexists; split; [reflexivity|]; split; [auto|lia]. }
  destruct C8 as [C8 G8]; [lia|]. eexists. split; [reflexivity|]. split; [lia|]. intros _. exists b8. split; [reflexivity|].
  assert (LA5 : length ads = length (h_addrs src)) by (clear - B5; induction B5; cbn [length]; congruence).
  assert (LA6 : length als = length (h_aliases src)) by (clear - B6; induction B6; cbn [length]; congruence).
  assert (PL : forall v k, length (pieces v k) = k) by (intros; apply pieces_length).
  split.
  { repeat first [eapply frame_trans; [eapply frame_weak; [|eassumption]; cbn; lia|]]; apply frame_refl. }
  exists (hs + na + nd + da + sa), hs, (hs + na), als, ads. unfold OFF_NAME, OFF_ALIASES, OFF_TYPE, OFF_LENGTH, OFF_ADDRS.
  split; [eapply at_frame; [exact G8|intros i; rewrite PL; lia|apply A7; lia]|].
  split; [exact C8|].
  split. { eapply at_frame; [exact G8|intros i; rewrite PL; lia|]. eapply at_frame; [exact F7|intros i; rewrite PL; lia|].
    eapply at_frame; [exact F6|intros i; rewrite PL; lia|]. eapply at_frame; [exact F5|intros i; rewrite PL; lia|].
    eapply at_frame; [exact F4|intros i; rewrite PL; lia|]. apply A3. lia. }
  split. { apply (array_weak (hs + na + nd + da)); [lia|]. eapply array_frame; [exact G8|intros i; rewrite LA6; lia|]. eapply array_frame; [exact F7|intros i; rewrite LA6; lia|]. exact A6. }
  split. { eapply Forall2_weaken with (P := chars_in (hs + na + nd + da + sa) b8); [intros ? ?; apply at_more; lia|].
    apply (data_frame _ _ (hs + na + nd + da) _ _ (fun s => map CB (s ++ [0%Z])) G8); [lia| |exact O6].
    apply (data_frame _ _ (hs + na + nd + da) _ _ (fun s => map CB (s ++ [0%Z])) F7); [lia| |exact O6]. exact B6. }
  split. { eapply at_frame; [exact G8|intros i; rewrite PL; lia|]. eapply at_frame; [exact F7|intros i; rewrite PL; lia|].
    eapply at_frame; [exact F6|intros i; rewrite PL; lia|]. eapply at_frame; [exact F5|intros i; rewrite PL; lia|].
    eapply at_frame; [exact F4|intros i; rewrite PL; lia|]. eapply at_frame; [exact F3|intros i; rewrite PL; lia|].
    eapply at_frame; [exact F2|intros i; rewrite PL; lia|]. apply A1. lia. }
  split. { eapply at_frame; [exact G8|intros i; rewrite PL; lia|]. eapply at_frame; [exact F7|intros i; rewrite PL; lia|].
    eapply at_frame; [exact F6|intros i; rewrite PL; lia|]. eapply at_frame; [exact F5|intros i; rewrite PL; lia|].
    eapply at_frame; [exact F4|intros i; rewrite PL; lia|]. eapply at_frame; [exact F3|intros i; rewrite PL; lia|]. apply A2. lia. }
  split. { eapply at_frame; [exact G8|intros i; rewrite PL; lia|]. eapply at_frame; [exact F7|intros i; rewrite PL; lia|].
    eapply at_frame; [exact F6|intros i; rewrite PL; lia|]. eapply at_frame; [exact F5|intros i; rewrite PL; lia|]. apply A4. lia. }
  split. { apply (array_weak (hs + na + nd)); [lia|]. eapply array_frame; [exact G8|intros i; rewrite LA5; lia|]. eapply array_frame; [exact F7|intros i; rewrite LA5; lia|].
    eapply array_frame; [exact F6|intros i; rewrite LA5; lia|]. exact A5. }
  eapply Forall2_weaken with (P := bytes_in (hs + na + nd + da) b8); [intros ? ?; apply at_more; lia|].
  apply (data_frame _ _ (hs + na + nd) _ _ (fun s => map CB s) G8); [lia| |exact O5].
  apply (data_frame _ _ (hs + na + nd) _ _ (fun s => map CB s) F7); [lia| |exact O5].
  apply (data_frame _ _ (hs + na + nd) _ _ (fun s => map CB s) F6); [lia| |exact O5]. exact B5.
Qed.


(** ** Reading it back *)
Lemma whole_ok v k : 1 <= k -> whole (pieces v k) = Some v.
Proof.
  intros K. destruct k as [|k]; [lia|]. unfold pieces. cbn [seq map whole].
  match goal with |- (if ?b then _ else _) = _ => assert (H : b = true); [|rewrite H; reflexivity] end.
  rewrite map_length, seq_length. apply forallb_forall. intros [c i] I.
  assert (G : forall s, In (c, i) (combine (map (CV v) (seq s k)) (seq s k)) -> c = CV v i).
  { clear. induction k as [|k IH]; intros s I; [destruct I|]. cbn [seq map combine In] in I. destruct I as [I|I]; [injection I as <- <-; reflexivity|eauto]. }
  apply G in I. subst c. destruct v as [[a|]|z]; rewrite ?Nat.eqb_refl, ?Z.eqb_refl; reflexivity.
Qed.
Lemma load_ok n buf o v k : 1 <= k -> at_ n buf o (pieces v k) -> load buf o k = Ok v.
Proof.
  intros K [_ S]. unfold load. rewrite pieces_length in S. rewrite S. cbn [bind]. rewrite whole_ok by auto. reflexivity.
Qed.
Lemma chars_back s t : chars_ok s -> chars_at (map CB (s ++ [0%Z]) ++ t) = Ok s.
Proof.
  induction s as [|c s IH]; intros C; [reflexivity|]. inversion C as [|? ? H1 H2]; subst. cbn [app map chars_at].
  unfold char_ok in H1. destruct (Z.eqb_spec c 0); [lia|]. rewrite IH by auto. reflexivity.
Qed.
Lemma chars_in_at n buf o s : chars_ok s -> chars_in n buf o s -> chars_at (skipn o buf) = Ok s.
Proof.
  intros C [_ S]. unfold slice in S. destruct (Nat.leb_spec (o + length (map CB (s ++ [0%Z]))) (length buf)) as [L|]; [|discriminate].
  assert (S' : firstn (length (map CB (s ++ [0%Z]))) (skipn o buf) = map CB (s ++ [0%Z])) by congruence.
  rewrite <- (firstn_skipn (length (map CB (s ++ [0%Z]))) (skipn o buf)), S'. apply chars_back. auto.
Qed.
Lemma name_back n buf h : 1 <= p -> chars_ok (h_name h) -> host_in p n buf h -> name_of p buf = Ok (h_name h).
Proof.
  intros K C (name & als & ads & l1 & l2 & N1 & N2 & _). unfold name_of. unfold ptr_in in N1. rewrite (load_ok n buf OFF_NAME (VPtr (Some name)) p) by auto. cbn [bind].
  eapply chars_in_at; eauto.
Qed.
Lemma addr_back n buf h a t : 1 <= p -> Forall (fun a => length a = h_length h) (h_addrs h) -> h_addrs h = a :: t -> host_in p n buf h ->
  ip_length p buf = Ok (Z.of_nat (h_length h)) /\ first_addr p buf = Ok (Z.of_nat (h_length h), map CB a).
Proof.
  intros K FL EQ (name & als & ads & l1 & l2 & _ & _ & _ & _ & _ & _ & I & AP & AR & D).
  unfold ip_length, first_addr. rewrite (load_ok n buf (OFF_LENGTH p) (VInt (Z.of_nat (h_length h))) 4) by (auto; lia). cbn [bind]. split; [reflexivity|].
  rewrite (load_ok n buf (OFF_ADDRS p) (VPtr (Some ads)) p) by auto. cbn [bind]. rewrite EQ in *. inversion D as [|o b os bs B D' E1 E2]; subst. cbn [array_in] in AR.
  destruct AR as [AR _]. rewrite (load_ok n buf ads (VPtr (Some o)) p) by auto. cbn [bind]. destruct B as [_ B]. rewrite map_length in B.
  inversion FL as [|? ? LA _]; subst. rewrite Nat2Z.id, <- LA, B. reflexivity.
Qed.
End H.
