(** Proofs about the environment. *)
From Coq Require Import String.
From Verif Require Import Base BaseProof Mem Chars HostModel HostSpec HostProof EnvModel EnvSpec.
From Coq Require Import ZifyNat.
Local Open Scope nat_scope.
Local Open Scope list_scope.

Lemma skip_entry key v : skip_prefix key (entry key v) = Some v.
Proof. unfold entry. change (zs "=") with [61%Z]. induction key as [|k key IH]; cbn [app skip_prefix]; [reflexivity|]. rewrite Z.eqb_refl. exact IH. Qed.
Lemma skip_some key : forall s v, skip_prefix key s = Some v -> s = entry key v.
Proof.
  unfold entry. change (zs "=") with [61%Z]. induction key as [|k key IH]; intros s v H.
  - destruct s as [|c s]; [discriminate|]. cbn [skip_prefix] in H. destruct c as [|c|c]; try discriminate.
    repeat match type of H with context [match ?c with _ => _ end] => is_var c; destruct c; try discriminate end. injection H as ->. reflexivity.
  - destruct s as [|c s]; [discriminate|]. cbn [skip_prefix] in H. destruct (Z.eqb_spec k c); [subst|discriminate]. apply IH in H. subst. reflexivity.
Qed.
Lemma getenv_value env key v : getenv env key = Some v <-> value env key v.
Proof.
  induction env as [|s env IH]; cbn [getenv].
  - split; [discriminate|]. intros ([|? ?] & a & E & _); discriminate E.
  - destruct (skip_prefix key s) as [w|] eqn:W.
    + apply skip_some in W. subst s. split.
      * intros H. injection H as ->. exists [], env. split; [reflexivity|auto].
      * intros ([|b bs] & a & E & N).
        -- cbn [app] in E. injection E as E _. pose proof (skip_entry key v) as X. rewrite <- E, skip_entry in X. exact X.
        -- injection E as <- _. destruct (N w). left. reflexivity.
    + assert (NE : forall w, s <> entry key w) by (intros w ->; rewrite skip_entry in W; discriminate). rewrite IH. split.
      * intros (b & a & -> & N). exists (s :: b), a. split; [reflexivity|]. intros w [H|H]; [eapply NE; eauto|eapply N; eauto].
      * intros ([|b bs] & a & E & N); [injection E as E _; destruct (NE _ E)|]. injection E as <- ->. exists bs, a. split; [reflexivity|]. intros w H. eapply N. right. eauto.
Qed.
Lemma getenv_none env key : getenv env key = None <-> ~ set_ env key.
Proof.
  split.
  - intros H (v & V). apply getenv_value in V. congruence.
  - intros H. destruct (getenv env key) as [v|] eqn:G; [|reflexivity]. destruct H. exists v. apply getenv_value. exact G.
Qed.

(** the entries that are kept *)
Definition kept_entries (env : list (list Z)) (l : list (list Z)) : list (list Z) :=
  flat_map (fun k => match getenv env k with Some v => [entry k v] | None => [] end) l.

Lemma measure_r l : forall num len, measure_restrict num len l = (num + length l, len + strings_size l).
Proof.
  induction l as [|s l IH]; intros num len; cbn [measure_restrict length]; [change (strings_size []) with 0; f_equal; lia|].
  rewrite IH, strings_cons. f_equal; lia.
Qed.
Lemma entry_length k v : length (entry k v) = length k + length v + 1.
Proof. unfold entry. rewrite !app_length. change (length (zs "=")) with 1. lia. Qed.
Lemma measure_p env l : forall num len, measure_preserve env num len l = (num + length (kept_entries env l), len + strings_size (kept_entries env l)).
Proof.
  induction l as [|k l IH]; intros num len; cbn [measure_preserve kept_entries flat_map length]; [change (strings_size []) with 0; f_equal; lia|].
  destruct (getenv env k) as [v|]; rewrite IH; [|reflexivity]. fold (kept_entries env l). cbn [app length]. rewrite strings_cons, entry_length. f_equal; lia.
Qed.

Section P.
Variable p : nat.
Hypothesis P1 : 1 <= p.
Local Notation store_in := (HostProof.store_in p P1).
Local Notation blit_in := (HostProof.blit_in p P1).
Local Notation at_frame := (HostProof.at_frame p P1).
Local Notation blit_frame := (HostProof.blit_frame p P1).
Local Notation at_more := (HostProof.at_more p P1).
Local Notation blit_same := (HostProof.blit_same p P1).
Local Notation load_ok := (HostProof.load_ok p P1).
Local Notation chars_in_at := (HostProof.chars_in_at p P1).
Lemma bind_assoc {A B C} (x : res A) (f : A -> res B) (g : B -> res C) : bind (bind x f) g = bind x (fun a => bind (f a) g).
Proof. destruct x; reflexivity. Qed.
Lemma blit_two (buf : list cell) o a b : bind (blit buf o a) (fun buf => blit buf (o + length a) b) = blit buf o (a ++ b) \/ length buf < o + length a + length b.
Proof.
  destruct (Nat.lt_ge_cases (length buf) (o + length a + length b)) as [|L]; [auto|]. left.
  destruct (split_block buf o (length a + length b)) as (pre & mid & post & -> & L1 & L2); [lia|].
  destruct (split_block mid 0 (length a)) as (z & ma & mb & -> & Z1 & Z2); [lia|]. destruct z; [|discriminate Z1]. cbn [app] in *. rewrite app_length in L2.
  rewrite <- L1. rewrite <- (app_assoc ma mb post). rewrite (blit_eq pre ma (mb ++ post) a) by auto. cbn [bind].
  rewrite (app_assoc pre a). rewrite <- (app_length pre a). rewrite (blit_eq (pre ++ a) mb post b) by lia.
  rewrite (app_assoc ma mb post). rewrite (blit_eq pre (ma ++ mb) post (a ++ b)) by (rewrite ?app_length; lia). rewrite <- !app_assoc. reflexivity.
Qed.
(** keeping variables is the same as writing their entries *)
Lemma fill_p env l : forall buf num ptr, (ptr + strings_size (kept_entries env l) <= length buf) ->
  num * p + length (kept_entries env l) * p <= length buf ->
  fill_preserve p env buf num ptr l = fill_restrict p buf num ptr (kept_entries env l).
Proof.
  induction l as [|k l IH]; intros buf num ptr L1 L2; [reflexivity|]. cbn [fill_preserve kept_entries flat_map] in *.
  destruct (getenv env k) as [v|]; [|apply IH; auto]. fold (kept_entries env l) in *. cbn [app length fill_restrict] in *. rewrite strings_cons, entry_length in L1.
  destruct (store_in buf (num * p) (VPtr (Some ptr)) p) as (b1 & S1 & [F1 _] & _); [lia|]. rewrite S1. cbn [bind].
  assert (E : map CB (entry k v ++ [0%Z]) = map CB k ++ [CB 61] ++ map CB (v ++ [0%Z])) by (unfold entry; rewrite <- !app_assoc, !map_app; reflexivity).
  assert (LV : length (map CB (v ++ [0%Z])) = length v + 1) by (rewrite map_length, app_length; reflexivity).
  assert (LK : length (map CB k) = length k) by apply map_length.
  destruct (blit_in b1 ptr (map CB k)) as (b2 & B2 & LB2); [lia|]. rewrite B2. cbn [bind].
  destruct (blit_in b2 (ptr + length k) [CB 61]) as (b3 & B3 & LB3); [cbn [length]; lia|]. unfold put. rewrite B3. cbn [bind].
  destruct (blit_in b3 (ptr + length k + 1) (map CB (v ++ [0%Z]))) as (b4 & B4 & LB4); [lia|].
  assert (W : blit b1 ptr (map CB (entry k v ++ [0%Z])) = Ok b4).
  { rewrite E. destruct (blit_two b1 ptr (map CB k) ([CB 61] ++ map CB (v ++ [0%Z]))) as [T|T]; [|rewrite app_length in T; cbn [length] in T; lia].
    rewrite <- T, B2. cbn [bind]. destruct (blit_two b2 (ptr + length (map CB k)) [CB 61] (map CB (v ++ [0%Z]))) as [U|U]; [|cbn [length] in U; lia].
    rewrite <- U, LK, B3. cbn [bind length]. exact B4. }
  rewrite W, B4. cbn [bind]. rewrite IH by (rewrite ?LB4, ?LB3, ?LB2, ?F1; lia). f_equal. rewrite entry_length. lia.
Qed.

(** writing entries *)
Lemma fill_r N l : forall buf num ptr, (num + length l) * p <= ptr -> ptr + strings_size l <= N -> N <= length buf ->
  exists buf' ptrs, fill_restrict p buf num ptr l = Ok (buf', num + length l, ptr + strings_size l) /\
  frame (fun i => num * p <= i < (num + length l) * p \/ ptr <= i < ptr + strings_size l) buf buf' /\
  length ptrs = length l /\ Forall (fun o => ptr <= o) ptrs /\
  (forall k o, nth_error ptrs k = Some o -> ptr_in p ((num + length l) * p) buf' ((num + k) * p) (Some o)) /\
  Forall2 (chars_in N buf') ptrs l.
Proof.
  induction l as [|s l IH]; intros buf num ptr D B L; cbn [fill_restrict length] in *.
  - change (strings_size []) with 0. exists buf, []. rewrite !Nat.add_0_r. split; [reflexivity|]. split; [apply frame_refl|]. split; [reflexivity|].
    split; [constructor|]. split; [intros [|k] o H; discriminate H|constructor].
  - rewrite strings_cons in *. destruct (store_in buf (num * p) (VPtr (Some ptr)) p) as (b1 & S1 & F1 & A1); [lia|]. rewrite S1. cbn [bind].
    assert (LS : length (map CB (s ++ [0%Z])) = length s + 1) by (rewrite map_length, app_length; reflexivity).
    pose proof (proj1 F1) as LB1. destruct (blit_in b1 ptr (map CB (s ++ [0%Z]))) as (b2 & B2 & LB2); [lia|]. rewrite B2. cbn [bind].
    pose proof (blit_frame _ _ _ _ B2) as F2. rewrite LS in F2.
    destruct (IH b2 (num + 1) (ptr + (length s + 1))) as (b3 & ptrs & R & F3 & LP & O & PI & CI); try lia. exists b3, (ptr :: ptrs).
    split; [rewrite R; f_equal; f_equal; [f_equal; lia|lia]|].
    split; [eapply frame_trans; [eapply frame_weak; [|exact F1]; cbn; lia|]; eapply frame_trans; [eapply frame_weak; [|exact F2]; cbn; lia|]; eapply frame_weak; [|exact F3]; cbn; lia|].
    split; [cbn [length]; lia|]. split; [constructor; [lia|eapply Forall_impl; [|exact O]; cbn; lia]|]. split.
    + intros [|k] o H; cbn [nth_error] in H.
      * injection H as <-. rewrite Nat.add_0_r. eapply at_frame; [exact F3|intros i; rewrite pieces_length; lia|]. eapply at_frame; [exact F2|intros i; rewrite pieces_length; lia|].
        apply A1. lia.
      * specialize (PI k o H). replace (num + S (length l)) with (num + 1 + length l) by lia. replace (num + S k) with (num + 1 + k) by lia. exact PI.
    + constructor; [|exact CI]. eapply at_frame; [exact F3|intros i; rewrite LS; lia|]. split; [rewrite LS; lia|]. eapply blit_same; eauto.
Qed.
Lemma array_nth n buf : forall l o, (forall k a, nth_error l k = Some a -> ptr_in p n buf (o + k * p) (Some a)) -> ptr_in p n buf (o + length l * p) None -> array_in p n buf o l.
Proof.
  induction l as [|a l IH]; intros o H E; cbn [array_in length] in *; [replace o with (o + 0 * p) by lia; exact E|].
  split; [replace o with (o + 0 * p) by lia; apply H; reflexivity|]. apply IH.
  - intros k b K. replace (o + p + k * p) with (o + S k * p) by lia. apply H. exact K.
  - replace (o + p + length l * p) with (o + S (length l) * p) by lia. exact E.
Qed.
(** reading entries *)
Lemma read_ok n buf l : Forall chars_ok l -> forall ptrs o fuel, array_in p n buf o ptrs -> Forall2 (chars_in n buf) ptrs l -> length ptrs < fuel ->
  environ_at p fuel buf o = Ok l.
Proof.
  intros C ptrs o fuel A F. revert o fuel A. induction F as [|a s ptrs l H F IH]; intros o fuel A LF; (destruct fuel as [|fuel]; [cbn [length] in LF; lia|]); cbn [environ_at array_in length] in *.
  - rewrite (load_ok n buf o (VPtr None) p) by auto. reflexivity.
  - inversion C as [|? ? C1 C2]; subst. destruct A as [A1 A2]. rewrite (load_ok n buf o (VPtr (Some a)) p) by auto. cbn [bind].
    rewrite (chars_in_at n buf a s) by auto. cbn [bind]. rewrite (IH C2 (o + p) fuel A2) by lia. reflexivity.
Qed.
Definition sane (stdpath : list Z) (env : list (list Z)) : list (list Z) := env_restrict stdpath ++ kept_entries env env_preserve.
Lemma strings_app a b : strings_size (a ++ b) = strings_size a + strings_size b.
Proof. unfold strings_size. rewrite map_app, list_sum_app. reflexivity. Qed.
Lemma fill_app a b : forall buf num ptr, fill_restrict p buf num ptr (a ++ b) =
  bind (fill_restrict p buf num ptr a) (fun r => let '(buf, num, ptr) := r in fill_restrict p buf num ptr b).
Proof.
  induction a as [|s a IH]; intros buf num ptr; [reflexivity|]. cbn [app fill_restrict].
  destruct (store buf (num * p) (VPtr (Some ptr)) p) as [b1|]; [cbn [bind]|reflexivity]. destruct (blit b1 ptr _) as [b2|]; [cbn [bind]|reflexivity]. apply IH.
Qed.
Lemma sane_ok stdpath env junk : exists buf ptrs, get_sane_env p stdpath env (Some junk) = Ok (Some buf) /\
  length ptrs < length buf /\ array_in p (length buf) buf 0 ptrs /\ Forall2 (chars_in (length buf) buf) ptrs (sane stdpath env).
Proof.
  unfold get_sane_env. rewrite measure_r. cbv beta iota. rewrite measure_p. cbv beta iota.
  set (K := kept_entries env env_preserve). set (R := env_restrict stdpath).
  replace (1 + length R + length K) with (length (R ++ K) + 1) by (rewrite app_length; lia).
  replace (0 + strings_size R + strings_size K) with (strings_size (R ++ K)) by (rewrite strings_app; lia).
  set (num := length (R ++ K)). set (size := strings_size (R ++ K)). set (len := size + (num + 1) * p).
  assert (LB : length (map junk (seq 0 len)) = len) by (rewrite map_length, seq_length; reflexivity).
  destruct (fill_r len (R ++ K) (map junk (seq 0 len)) 0 ((num + 1) * p)) as (buf & ptrs & F & FR & LP & O & PI & CI); try (rewrite ?LB; unfold len, num, size; lia).
  rewrite fill_app in F.
  destruct (fill_r len R (map junk (seq 0 len)) 0 ((num + 1) * p)) as (b1 & ptrs1 & F1 & FR1 & _); try (rewrite ?LB; unfold len, num, size; rewrite ?app_length, ?strings_app; lia).
  rewrite F1 in F |- *. cbn [bind] in F |- *.
  pose proof (proj1 FR1) as LB1. rewrite LB in LB1.
  rewrite fill_p by (fold K; rewrite LB1; unfold len, num, size; rewrite ?app_length, ?strings_app; lia). fold K. rewrite F. cbn [bind].
  pose proof (proj1 FR) as LBF. rewrite LB in LBF. fold num size in FR, PI |- *.
  destruct (store_in buf ((0 + num) * p) (VPtr None) p) as (b2 & S2 & F2 & A2); [unfold len in LBF; lia|]. rewrite S2. cbn [bind].
  unfold assert_. assert (E1 : (0 + num + 1 =? num + 1) = true) by (apply Nat.eqb_eq; lia). assert (E2 : ((num + 1) * p + size =? len) = true) by (apply Nat.eqb_eq; unfold len; lia).
  rewrite E1. cbn [bind]. rewrite E2. cbn [bind]. exists b2, ptrs. split; [reflexivity|]. pose proof (proj1 F2) as LB2. rewrite LB2, LBF.
  assert (NL : num < len) by (unfold len; nia). fold num in LP. split; [lia|]. split.
  - apply array_nth.
    + intros k a KA. cbn [Nat.add]. assert (KN : k < num) by (rewrite <- LP; apply nth_error_Some; congruence).
      eapply at_frame; [exact F2|intros i; rewrite pieces_length; nia|]. specialize (PI k a KA). cbn [Nat.add] in PI. eapply at_more; [|exact PI]. unfold len. nia.
    + rewrite LP. cbn [Nat.add] in A2 |- *. apply A2. unfold len. lia.
  - clear - CI F2 O P1. unfold sane. fold R K. revert CI O. generalize (R ++ K). intros l CI. induction CI as [|a s ptrs l H CI IH]; intros O; constructor.
    + inversion O as [|? ? O1 O2]; subst. eapply at_frame; [exact F2|intros i I W; cbn beta in W, O1; lia|exact H].
    + inversion O; subst. auto.
Qed.
Lemma kept_ok env l : Forall chars_ok env -> Forall chars_ok (kept_entries env l).
Proof.
  intros C. induction l as [|k l IH]; [constructor|]. cbn [kept_entries flat_map]. apply Forall_app. split; [|exact IH].
  destruct (getenv env k) as [v|] eqn:G; constructor; [|constructor]. apply getenv_value in G. destruct G as (b & a & -> & _).
  apply Forall_app in C. destruct C as [_ C]. inversion C; auto.
Qed.
Lemma child_ok stdpath env junk : chars_ok stdpath -> Forall chars_ok env -> child_env p stdpath env (Some junk) = Ok (sane stdpath env).
Proof.
  intros CS CE. unfold child_env. destruct (sane_ok stdpath env junk) as (buf & ptrs & G & L & A & F). rewrite G. cbn [bind].
  eapply read_ok; [|exact A|exact F|lia]. unfold sane. apply Forall_app. split; [|apply kept_ok; auto].
  repeat constructor; try discriminate. exact CS.
Qed.
End P.
