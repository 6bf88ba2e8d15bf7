(** Proofs for ListProps: the linked structure represents a sequence. *)
From Verif Require Import Base BaseProof ListModel ListSpec.
From Coq Require Import Permutation Sorted.

Section P.
Context {D : Type}.
Notation L := (list (nat * D)).
Notation lst := (@lst D).
Notation heap := (@heap D).

Definition hd_or (l : L) (n : option nat) : option nat :=
  match l with [] => n | (a, _) :: _ => Some a end.

(** The nodes of a segment whose last next pointer is [n]. *)
Fixpoint seg (l : L) (n : option nat) (b : nat) : option (D * option nat) :=
  match l with
  | [] => None
  | (a, d) :: t => if b =? a then Some (d, hd_or t n) else seg t n b
  end.

Definition addrs (l : L) : list nat := map fst l.

(** Address of the k-th next pointer. *)
Definition cell (l : L) (k : nat) : loc :=
  match k with
  | O => LHead
  | S k' => match nth_error l k' with Some (a, _) => LNext a | None => LHead end
  end.

Lemma hd_or_app l1 l2 n : hd_or (l1 ++ l2) n = hd_or l1 (hd_or l2 n).
Proof. destruct l1 as [|[a d] t]; reflexivity. Qed.

Lemma seg_notin l n b : ~ In b (addrs l) -> seg l n b = None.
Proof.
  induction l as [|[a d] t IH]; cbn; intros H; [reflexivity|].
  destruct (Nat.eqb_spec b a); [exfalso; apply H; auto|]. apply IH; auto.
Qed.

Lemma seg_in l n b x : seg l n b = Some x -> In b (addrs l).
Proof.
  induction l as [|[a d] t IH]; cbn; intros H; [discriminate|].
  destruct (Nat.eqb_spec b a); [auto|]. right. eauto.
Qed.

Definition oplus (x y : option (D * option nat)) := match x with Some n => Some n | None => y end.

Lemma seg_app l1 l2 n b :
  seg (l1 ++ l2) n b = oplus (seg l1 (hd_or l2 n) b) (seg l2 n b).
Proof.
  induction l1 as [|[a d] t IH]; cbn; [reflexivity|].
  destruct (b =? a); [|exact IH]. rewrite hd_or_app. reflexivity.
Qed.

Lemma seg_last l a d n b : ~ In a (addrs l) ->
  seg (l ++ [(a, d)]) n b = if b =? a then Some (d, n) else seg l (Some a) b.
Proof.
  intros H. rewrite seg_app. cbn. destruct (Nat.eqb_spec b a) as [->|N].
  - rewrite seg_notin by auto. reflexivity.
  - destruct (seg l (Some a) b); reflexivity.
Qed.

(** Changing the next pointer of the last node of a segment. *)
Lemma upd_last (h : heap) l a d n n' b :
  ~ In a (addrs l) -> h b = seg (l ++ [(a, d)]) n b -> forall d', d' = d ->
  upd h a (Some (d', n')) b = seg (l ++ [(a, d)]) n' b.
Proof.
  intros H E d' ->. unfold upd. rewrite E, !seg_last by auto. destruct (b =? a); reflexivity.
Qed.

Lemma list_last_split {A} (l : list A) : l = [] \/ exists l' x, l = l' ++ [x].
Proof. destruct l using rev_ind; eauto. Qed.

Lemma cell_app_len l1 l2 : cell (l1 ++ l2) (length l1) = cell l1 (length l1).
Proof.
  destruct (list_last_split l1) as [->|(l' & [a d] & ->)]; [reflexivity|].
  rewrite app_length. cbn [length]. rewrite Nat.add_1_r. cbn [cell].
  rewrite <- app_assoc. rewrite (nth_error_app2 l' [(a, d)]), (nth_error_app2 l' ([(a, d)] ++ l2)) by lia.
  rewrite !Nat.sub_diag. reflexivity.
Qed.

Lemma cell_snoc l a d : cell (l ++ [(a, d)]) (S (length l)) = LNext a.
Proof. cbn [cell]. rewrite nth_error_app2, Nat.sub_diag by lia. reflexivity. Qed.

Lemma cell_app l1 l2 k : k <= length l1 -> cell (l1 ++ l2) k = cell l1 k.
Proof.
  destruct k; cbn [cell]; [reflexivity|]. intros H. rewrite nth_error_app1 by lia. reflexivity.
Qed.

(** [h] consists of the nodes of [l1], whose last next pointer is [n], and others. *)
Definition parts (h : heap) (l1 : L) (n : option nat) (rest : nat -> option (D * option nat)) : Prop :=
  forall b, h b = oplus (seg l1 n b) (rest b).

Lemma loc_eqb_eq x y : loc_eqb x y = true <-> x = y.
Proof.
  destruct x, y; cbn; try rewrite Nat.eqb_eq; split; intros H; try congruence; try discriminate.
Qed.
Lemma ptr_eqb_eq x y : ptr_eqb x y = true <-> x = y.
Proof.
  destruct x, y; cbn; try rewrite Nat.eqb_eq; split; intros H; try congruence; try discriminate.
Qed.

(** The list [l] is represented by the structure [s] (ignoring tail, count). *)
Record shape (s : lst) (l : L) : Prop := {
  sh_nodup : NoDup (addrs l);
  sh_head : l_head s = hd_or l None;
  sh_heap : forall b, l_heap s b = seg l None b }.

Record rep (s : lst) (l : L) : Prop := {
  rp_shape : shape s l;
  rp_tail : l_tail s = cell l (length l);
  rp_count : l_count s = length l }.

Lemma nodup_app_notin (l1 l2 : L) a : NoDup (addrs (l1 ++ l2)) -> In a (addrs l1) -> ~ In a (addrs l2).
Proof.
  unfold addrs. rewrite map_app. induction l1 as [|x t IH]; cbn; intros N H; [contradiction|].
  inversion N; subst. destruct H as [<-|H]; [|auto]. intro. apply H2. apply in_or_app. auto.
Qed.

Lemma nodup_app_l (l1 l2 : L) : NoDup (addrs (l1 ++ l2)) -> NoDup (addrs l1).
Proof.
  unfold addrs. rewrite map_app. induction l1 as [|x t IH]; cbn; intros N; [constructor|].
  inversion N; subst. constructor; [|auto]. intro X. apply H1. apply in_or_app. auto.
Qed.
Lemma nodup_app_r (l1 l2 : L) : NoDup (addrs (l1 ++ l2)) -> NoDup (addrs l2).
Proof.
  unfold addrs. rewrite map_app. induction l1 as [|x t IH]; cbn; intros N; [assumption|].
  inversion N; subst. auto.
Qed.

Lemma nodup_snoc (l : L) a d : NoDup (addrs (l ++ [(a, d)])) -> ~ In a (addrs l).
Proof.
  unfold addrs. rewrite map_app. intros N H.
  apply (nodup_app_notin l [(a, d)] a); [unfold addrs; rewrite map_app; exact N|exact H|]. cbn. auto.
Qed.

(** Reading a node of the list. *)
Lemma seg_mid l1 a d l2 n : NoDup (addrs (l1 ++ (a, d) :: l2)) ->
  seg (l1 ++ (a, d) :: l2) n a = Some (d, hd_or l2 n).
Proof.
  intros N. rewrite seg_app. rewrite seg_notin.
  - cbn. rewrite Nat.eqb_refl. reflexivity.
  - intro H. apply (nodup_app_notin _ _ _ N H). cbn. auto.
Qed.

Lemma node_mid s l1 a d l2 : shape s (l1 ++ (a, d) :: l2) ->
  node (l_heap s) a = Ok (d, hd_or l2 None).
Proof.
  intros S. unfold node. rewrite (sh_heap _ _ S), seg_mid by apply S. reflexivity.
Qed.

Lemma rd_cell s l1 l2 : shape s (l1 ++ l2) -> rd s (cell (l1 ++ l2) (length l1)) = Ok (hd_or l2 None).
Proof.
  intros S. rewrite cell_app_len.
  destruct (list_last_split l1) as [->|(l' & [a d] & ->)].
  - cbn. rewrite (sh_head _ _ S). reflexivity.
  - rewrite app_length. cbn [length]. rewrite Nat.add_1_r, cell_snoc. cbn [rd].
    rewrite <- app_assoc in S. cbn [app] in S. rewrite (node_mid _ _ _ _ _ S). reflexivity.
Qed.

Lemma rd_cell' s l k : shape s l -> k <= length l -> rd s (cell l k) = Ok (hd_or (skipn k l) None).
Proof.
  intros S H. rewrite <- (firstn_skipn k l) in S.
  pose proof (rd_cell s _ _ S) as E. rewrite (firstn_skipn k l) in E.
  rewrite firstn_length_le in E by lia. exact E.
Qed.

(** Writing: the structure is cut into the part before the cell and the rest. *)
Lemma wr_cell s l1 rest n0 v :
  NoDup (addrs l1) ->
  (forall b, In b (addrs l1) -> rest b = None) ->
  l_head s = hd_or l1 n0 -> parts (l_heap s) l1 n0 rest ->
  exists s', wr s (cell l1 (length l1)) v = Ok s' /\
    l_head s' = hd_or l1 v /\ parts (l_heap s') l1 v rest /\
    l_tail s' = l_tail s /\ l_count s' = l_count s /\ l_iters s' = l_iters s.
Proof.
  intros N DJ H P. destruct (list_last_split l1) as [->|(l' & [a d] & ->)].
  - cbn. eexists; split; [reflexivity|]. cbn. repeat split; auto.
  - rewrite app_length. cbn [length]. rewrite Nat.add_1_r, cell_snoc. cbn [wr].
    pose proof (nodup_snoc _ _ _ N) as NI.
    assert (E : l_heap s a = Some (d, n0)).
    { rewrite P, seg_last by auto. rewrite Nat.eqb_refl. reflexivity. }
    unfold node. rewrite E. cbn [bind fst]. eexists; split; [reflexivity|]. cbn.
    repeat split; auto.
    + rewrite H. destruct l' as [|[? ?] ?]; reflexivity.
    + intros b. unfold upd. rewrite P, !seg_last by auto.
      destruct (Nat.eqb_spec b a); [|reflexivity]. subst. reflexivity.
Qed.

(** Writing into a segment that does not start at the head. *)
Lemma wr_seg s l1 rest n0 v a d :
  NoDup (addrs (l1 ++ [(a, d)])) ->
  (forall b, In b (addrs (l1 ++ [(a, d)])) -> rest b = None) ->
  parts (l_heap s) (l1 ++ [(a, d)]) n0 rest ->
  exists s', wr s (LNext a) v = Ok s' /\
    l_head s' = l_head s /\ parts (l_heap s') (l1 ++ [(a, d)]) v rest /\
    l_tail s' = l_tail s /\ l_count s' = l_count s /\ l_iters s' = l_iters s.
Proof.
  intros N DJ P. cbn [wr].
  pose proof (nodup_snoc _ _ _ N) as NI.
  assert (E : l_heap s a = Some (d, n0)).
  { rewrite P, seg_last by auto. rewrite Nat.eqb_refl. reflexivity. }
  unfold node. rewrite E. cbn [bind fst]. eexists; split; [reflexivity|]. cbn.
  repeat split; auto.
  intros b. unfold upd. rewrite P, !seg_last by auto.
  destruct (Nat.eqb_spec b a); [|reflexivity]. subst. reflexivity.
Qed.

(** ** Positions *)
Lemma hd_or_inj l i j : NoDup (addrs l) -> i <= length l -> j <= length l ->
  hd_or (skipn i l) None = hd_or (skipn j l) None -> i = j.
Proof.
  revert i j. induction l as [|[a d] t IH]; intros i j N Hi Hj E.
  - cbn in *. lia.
  - inversion N; subst. cbn in Hi, Hj.
    assert (G : forall k, k <= length t -> hd_or (skipn k t) None <> Some a).
    { intros k Hk X. destruct (skipn k t) as [|[b e] u] eqn:Q; [discriminate|]. cbn in X.
      injection X as ->. apply H1. unfold addrs. rewrite <- (firstn_skipn k t), Q, map_app.
      apply in_or_app. right. cbn. auto. }
    destruct i as [|i], j as [|j]; cbn in E; auto.
    + exfalso. eapply (G j); [lia|congruence].
    + exfalso. eapply (G i); [lia|congruence].
    + f_equal. apply IH; auto; lia.
Qed.

Lemma cell_inj l i j : NoDup (addrs l) -> i <= length l -> j <= length l ->
  cell l i = cell l j -> i = j.
Proof.
  intros N Hi Hj E. destruct i as [|i], j as [|j]; cbn in E; auto.
  - destruct (nth_error l j) as [[b e]|] eqn:Q; [discriminate|]. apply nth_error_None in Q. lia.
  - destruct (nth_error l i) as [[b e]|] eqn:Q; [discriminate|]. apply nth_error_None in Q. lia.
  - destruct (nth_error l i) as [[a d]|] eqn:Q1; [|apply nth_error_None in Q1; lia].
    destruct (nth_error l j) as [[b e]|] eqn:Q2; [|apply nth_error_None in Q2; lia].
    injection E as ->. f_equal.
    pose proof (proj1 (NoDup_nth_error (addrs l)) N) as U. apply U.
    + unfold addrs. rewrite map_length. lia.
    + unfold addrs. rewrite !nth_error_map, Q1, Q2. reflexivity.
Qed.

(** ** Iterators *)
Definition kof (c : cursor) : nat := c_pos c - (if c_cur c then 1 else 0).

Definition irep (l : L) (i : iter) (p : nat * cursor) : Prop :=
  i_id i = fst p /\ i_prev i = cell l (kof (snd p)) /\
  i_pos i = hd_or (skipn (c_pos (snd p)) l) None /\
  c_pos (snd p) <= length l /\ (c_cur (snd p) = true -> 1 <= c_pos (snd p)).

Definition srep (s : lst) (l : L) (a : alist (D:=D)) : Prop :=
  rep s l /\ map snd l = a_list a /\ Forall2 (irep l) (l_iters s) (a_its a).

Lemma kof_le c l : (c_pos c <= length l)%nat -> kof c <= length (l : L).
Proof. unfold kof. destruct (c_cur c); lia. Qed.

Lemma iter_assert_ok s l i p : shape s l -> irep l i p -> iter_assert s i = Ok tt.
Proof.
  intros S (A & B & C & E & F). unfold iter_assert. rewrite B.
  rewrite (rd_cell' s l) by (auto using kof_le). cbn [bind].
  destruct (ptr_eqb (i_pos i) (hd_or (skipn (kof (snd p)) l) None)) eqn:Q; [reflexivity|].
  assert (X : c_cur (snd p) = true).
  { destruct (c_cur (snd p)) eqn:Y; auto. exfalso. unfold kof in Q. rewrite Y, Nat.sub_0_r, <- C in Q.
    rewrite (proj2 (ptr_eqb_eq _ _) eq_refl) in Q. discriminate. }
  specialize (F X). unfold kof in *. rewrite X in *.
  destruct (skipn (c_pos (snd p) - 1) l) as [|[a d] t] eqn:K.
  { assert (length (skipn (c_pos (snd p) - 1) l) = 0) by (rewrite K; reflexivity).
    rewrite skipn_length in H. lia. }
  cbn [hd_or deref].
  assert (SP : l = firstn (c_pos (snd p) - 1) l ++ (a, d) :: t) by (rewrite <- K, firstn_skipn; reflexivity).
  pose proof S as S'. rewrite SP in S'. rewrite (node_mid _ _ _ _ _ S'). cbn [bind snd].
  unfold assert_. rewrite C.
  assert (T : skipn (c_pos (snd p)) l = t).
  { replace (c_pos (snd p)) with (1 + (c_pos (snd p) - 1)) by lia. rewrite <- skipn_skipn_add, K. reflexivity. }
  rewrite T. rewrite (proj2 (ptr_eqb_eq _ _) eq_refl). reflexivity.
Qed.

Lemma iters_assert_ok s l is ps : shape s l -> Forall2 (irep l) is ps -> iters_assert s is = Ok tt.
Proof.
  intros S. induction 1 as [|i p is ps H F IH]; [reflexivity|]. cbn [iters_assert].
  erewrite iter_assert_ok by eauto. exact IH.
Qed.

(** ** list_node_create *)
Lemma shape_iters s l is : shape s l -> shape (set_iters s is) l.
Proof. intros [A B C]. split; assumption. Qed.
Lemma shape_count s l n : shape s l -> shape (set_count s n) l.
Proof. intros [A B C]. split; assumption. Qed.
Lemma shape_tail s l n : shape s l -> shape (set_tail s n) l.
Proof. intros [A B C]. split; assumption. Qed.

Lemma nodup_insert (l1 l2 : L) p x : NoDup (addrs (l1 ++ l2)) -> ~ In p (addrs (l1 ++ l2)) ->
  NoDup (addrs (l1 ++ (p, x) :: l2)).
Proof.
  unfold addrs. rewrite !map_app. cbn. intros N H. apply NoDup_Add with (a := p) (l := map fst l1 ++ map fst l2).
  - apply Add_app.
  - auto.
Qed.

Lemma skipn_app_len {A} (l1 l2 : list A) k : skipn (length l1 + k) (l1 ++ l2) = skipn k l2.
Proof. rewrite skipn_app. rewrite skipn_all2 by lia. replace (length l1 + k - length l1) with k by lia. reflexivity. Qed.

Lemma irep_insert l1 l2 q x i p :
  NoDup (addrs (l1 ++ l2)) -> ~ In q (addrs (l1 ++ l2)) -> irep (l1 ++ l2) i p ->
  irep (l1 ++ (q, x) :: l2)
    (if loc_eqb (i_prev i) (cell (l1 ++ l2) (length l1)) then mkIter (i_id i) (i_pos i) (LNext q)
     else if ptr_eqb (i_pos i) (hd_or l2 None) then mkIter (i_id i) (Some q) (i_prev i) else i)
    (fst p, cur_insert (length l1) (snd p)).
Proof.
  intros N NI (A & B & C & E & F). set (l := l1 ++ l2) in *. set (l' := l1 ++ (q, x) :: l2).
  assert (LL : length l = length l1 + length l2) by (unfold l; rewrite app_length; reflexivity).
  assert (LL' : length l' = S (length l)) by (unfold l', l; rewrite !app_length; cbn; lia).
  set (c := snd p) in *. set (j := length l1) in *.
  assert (KL : kof c <= length l) by (apply kof_le; auto).
  (* cells and positions in the new list *)
  assert (C1 : forall k, k <= j -> cell l' k = cell l k).
  { intros k Hk. unfold l', l. rewrite !cell_app by lia. reflexivity. }
  assert (C2 : cell l' (S j) = LNext q).
  { unfold l'. change ((q, x) :: l2) with ([(q, x)] ++ l2). rewrite app_assoc, cell_app.
    - apply cell_snoc.
    - rewrite app_length. cbn. lia. }
  assert (C3 : forall k, j < k -> cell l' (S k) = cell l k).
  { intros k Hk. unfold l', l. destruct k; [lia|]. cbn [cell].
    rewrite !nth_error_app2 by lia. replace (S k - length l1) with (S (k - length l1)) by lia.
    reflexivity. }
  assert (P1 : forall k, j < k -> skipn k l' = skipn (k - 1) l).
  { intros k Hk. unfold l', l. replace k with (length l1 + (k - length l1)) at 1 by lia.
    replace (k - 1) with (length l1 + (k - length l1 - 1)) by lia. rewrite !skipn_app_len.
    replace (k - length l1) with (S (k - length l1 - 1)) at 1 by lia. reflexivity. }
  assert (P2 : hd_or (skipn j l') None = Some q).
  { unfold l'. replace j with (length l1 + 0) by lia. rewrite skipn_app_len. reflexivity. }
  assert (P3 : forall k, k < j -> hd_or (skipn k l') None = hd_or (skipn k l) None).
  { intros k Hk. unfold l', l. rewrite !skipn_app. 
    replace (k - length l1) with 0 by lia. cbn [skipn].
    destruct (skipn k l1) as [|[? ?] ?] eqn:Q; [|reflexivity].
    assert (length (skipn k l1) = 0) by (rewrite Q; reflexivity). rewrite skipn_length in H. lia. }
  assert (P4 : hd_or (skipn j l) None = hd_or l2 None).
  { unfold l. replace j with (length l1 + 0) by lia. rewrite skipn_app_len. reflexivity. }
  destruct (loc_eqb (i_prev i) (cell l j)) eqn:Q1.
  - apply loc_eqb_eq in Q1. rewrite B in Q1.
    apply cell_inj in Q1; auto; [|lia].
    assert (Z : cur_insert j c = mkCur (S (c_pos c)) (c_cur c)).
    { unfold cur_insert. unfold kof in Q1. destruct (c_cur c).
      - destruct (Nat.ltb_spec j (c_pos c)); [reflexivity|]. specialize (F eq_refl). lia.
      - destruct (Nat.leb_spec j (c_pos c)); [reflexivity|lia]. }
    rewrite Z. unfold irep, kof. cbn [fst snd i_id i_prev i_pos c_pos c_cur].
    assert (KK : S (c_pos c) - (if c_cur c then 1 else 0) = S j).
    { unfold kof in Q1. destruct (c_cur c); [specialize (F eq_refl)|]; lia. }
    rewrite KK, C2. repeat split; auto; try lia.
    rewrite C. rewrite P1; [|unfold kof in Q1; destruct (c_cur c); lia].
    replace (S (c_pos c) - 1) with (c_pos c) by lia. reflexivity.
  - assert (KN : kof c <> j).
    { intros X. rewrite B, X in Q1. rewrite (proj2 (loc_eqb_eq _ _) eq_refl) in Q1. discriminate. }
    destruct (ptr_eqb (i_pos i) (hd_or l2 None)) eqn:Q2.
    + apply ptr_eqb_eq in Q2. rewrite C, <- P4 in Q2.
      apply hd_or_inj in Q2; auto; [|lia].
      assert (CC : c_cur c = true).
      { destruct (c_cur c) eqn:X; auto. unfold kof in KN. rewrite X in KN. lia. }
      assert (Z : cur_insert j c = c).
      { unfold cur_insert. rewrite CC. destruct (Nat.ltb_spec j (c_pos c)); [lia|reflexivity]. }
      rewrite Z. unfold irep. cbn [fst snd i_id i_prev i_pos]. 
      repeat split; auto; try lia.
      * rewrite C1; auto. unfold kof. rewrite CC. lia.
      * rewrite Q2, P2. reflexivity.
    + assert (PN : c_pos c <> j).
      { intros X. rewrite C, X, P4 in Q2. rewrite (proj2 (ptr_eqb_eq _ _) eq_refl) in Q2. discriminate. }
      destruct (Nat.lt_ge_cases (c_pos c) j) as [LT|GE].
      * assert (Z : cur_insert j c = c).
        { unfold cur_insert. destruct (c_cur c).
          - destruct (Nat.ltb_spec j (c_pos c)); [lia|reflexivity].
          - destruct (Nat.leb_spec j (c_pos c)); [lia|reflexivity]. }
        rewrite Z. unfold irep. cbn [fst snd]. repeat split; auto; try lia.
        -- rewrite C1; auto. unfold kof; destruct (c_cur c); lia.
        -- rewrite P3 by lia. exact C.
      * assert (Z : cur_insert j c = mkCur (S (c_pos c)) (c_cur c)).
        { unfold cur_insert. destruct (c_cur c).
          - destruct (Nat.ltb_spec j (c_pos c)); [reflexivity|lia].
          - destruct (Nat.leb_spec j (c_pos c)); [reflexivity|lia]. }
        rewrite Z. unfold irep. cbn [fst snd c_pos c_cur].
        assert (KK : kof (mkCur (S (c_pos c)) (c_cur c)) = S (kof c)).
        { unfold kof. cbn. destruct (c_cur c); [specialize (F eq_refl)|]; lia. }
        rewrite KK. repeat split; auto; try lia.
        -- rewrite C3; auto. unfold kof in *. destruct (c_cur c); [|lia]. specialize (F eq_refl). lia.
        -- rewrite P1 by lia. replace (S (c_pos c) - 1) with (c_pos c) by lia. exact C.
Qed.

Lemma create_ok s l1 l2 st x q :
  srep s (l1 ++ l2) st -> ~ In q (addrs (l1 ++ l2)) ->
  exists s', list_node_create s (cell (l1 ++ l2) (length l1)) x (Some q) = Ok (s', Some x) /\
    srep s' (l1 ++ (q, x) :: l2) (a_insert (length l1) x st).
Proof.
  intros ([S T CN] & AL & IT) NI. unfold list_node_create.
  rewrite (rd_cell s l1 l2 S). cbn [bind].
  set (s1 := set_heap s (upd (l_heap s) q (Some (x, hd_or l2 None)))).
  set (s2 := match hd_or l2 None with None => set_tail s1 (LNext q) | Some _ => s1 end).
  pose proof (sh_nodup _ _ S) as N.
  assert (N1 : NoDup (addrs l1)).
  { eapply nodup_app_l. exact N. }
  assert (NQ : ~ In q (addrs l1) /\ ~ In q (addrs l2)).
  { unfold addrs in *. rewrite map_app in NI. split; intro; apply NI; apply in_or_app; auto. }
  rewrite cell_app_len.
  destruct (wr_cell s2 l1 (fun b => seg ((q, x) :: l2) None b) (hd_or l2 None) (Some q))
    as (s3 & W & H3 & P3 & T3 & C3 & I3).
  - exact N1.
  - intros b Hb. apply seg_notin. cbn. intros [<-|X]; [tauto|].
    apply (nodup_app_notin _ _ b N Hb X).
  - assert (l_head s2 = l_head s) by (unfold s2; destruct (hd_or l2 None); reflexivity).
    rewrite H, (sh_head _ _ S), hd_or_app. reflexivity.
  - intros b. assert (l_heap s2 = l_heap s1) as -> by (unfold s2; destruct (hd_or l2 None); reflexivity).
    unfold s1. cbn [l_heap set_heap]. unfold upd. cbn [seg].
    destruct (Nat.eqb_spec b q) as [->|NE].
    + rewrite seg_notin by tauto. reflexivity.
    + rewrite (sh_heap _ _ S), seg_app. reflexivity.
  - rewrite W. cbn [bind].
    set (s4 := set_count s3 (Datatypes.S (l_count s3))).
    assert (SH : shape s4 (l1 ++ (q, x) :: l2)).
    { split.
      - apply nodup_insert; auto.
      - unfold s4. cbn. rewrite H3, hd_or_app. reflexivity.
      - intros b. unfold s4. cbn [l_heap set_count]. rewrite P3, seg_app. reflexivity. }
    assert (I4 : l_iters s4 = l_iters s).
    { unfold s4. cbn. rewrite I3. unfold s2, s1. destruct (hd_or l2 None); reflexivity. }
    rewrite I4.
    match goal with |- context [iters_assert (set_iters s4 ?is) ?is] => set (is' := is) end.
    assert (IT' : Forall2 (irep (l1 ++ (q, x) :: l2)) is' (its_map (cur_insert (length l1)) (a_its st))).
    { unfold is', its_map. clear - IT N NI. rewrite <- (cell_app_len l1 l2). 
      induction IT as [|i p is ps H F IH]; [constructor|]. cbn [map]. constructor; [|exact IH].
      apply irep_insert; auto. }
    rewrite (iters_assert_ok (set_iters s4 is') _ _ _ (shape_iters _ _ _ SH) IT'). cbn [bind].
    eexists. split; [reflexivity|].
    split; [split|split].
    + apply shape_iters. exact SH.
    + cbn [l_tail set_iters]. unfold s4. cbn [l_tail set_count]. rewrite T3.
      rewrite app_length. cbn [length].
      destruct l2 as [|[b e] l2'].
      * unfold s2. cbn [hd_or l_tail set_tail length].
        rewrite Nat.add_1_r, cell_snoc. reflexivity.
      * unfold s2, s1. cbn [hd_or l_tail set_heap]. rewrite T, app_length.
        cbn [length]. rewrite !Nat.add_succ_r. cbn [cell].
        rewrite !nth_error_app2 by lia.
        replace (Datatypes.S (length l1 + length l2') - length l1) with (Datatypes.S (length l2')) by lia.
        replace (length l1 + length l2' - length l1) with (length l2') by lia. reflexivity.
    + cbn [l_count set_iters]. unfold s4. cbn [l_count set_count]. rewrite C3.
      assert (l_count s2 = l_count s) as -> by (unfold s2; destruct (hd_or l2 None); reflexivity).
      rewrite CN, !app_length. cbn. lia.
    + unfold a_insert, insert_at. cbn [a_list]. rewrite <- AL, !map_app, firstn_app, skipn_app.
      rewrite !map_length, Nat.sub_diag. cbn [firstn skipn map snd].
      rewrite app_nil_r, firstn_all2 by (rewrite map_length; lia).
      rewrite skipn_all2 by (rewrite map_length; lia). reflexivity.
    + cbn [l_iters set_iters a_insert a_its]. exact IT'.
Qed.

(** ** list_node_destroy *)
Lemma irep_remove l1 q d l2 i p :
  NoDup (addrs (l1 ++ (q, d) :: l2)) -> irep (l1 ++ (q, d) :: l2) i p ->
  irep (l1 ++ l2)
    (if ptr_eqb (i_pos i) (Some q) then mkIter (i_id i) (hd_or l2 None) (cell l1 (length l1))
     else if loc_eqb (i_prev i) (LNext q) then mkIter (i_id i) (i_pos i) (cell l1 (length l1)) else i)
    (fst p, cur_remove (length l1) (snd p)).
Proof.
  intros N (A & B & C & E & F). set (l := l1 ++ (q, d) :: l2) in *. set (l' := l1 ++ l2).
  assert (LL : length l = S (length l')) by (unfold l', l; rewrite !app_length; cbn; lia).
  assert (LJ : length l1 <= length l') by (unfold l'; rewrite app_length; lia).
  set (c := snd p) in *. set (j := length l1) in *.
  assert (KL : kof c <= length l) by (apply kof_le; auto).
  assert (C1 : forall k, k <= j -> cell l' k = cell l k).
  { intros k Hk. unfold l', l. rewrite !cell_app by lia. reflexivity. }
  assert (C1' : cell l1 j = cell l' j) by (unfold l', j; rewrite cell_app_len; reflexivity).
  assert (C2 : cell l (S j) = LNext q).
  { unfold l. change ((q, d) :: l2) with ([(q, d)] ++ l2). rewrite app_assoc, cell_app.
    - apply cell_snoc.
    - rewrite app_length. cbn. lia. }
  assert (C3 : forall k, j < k -> cell l (S k) = cell l' k).
  { intros k Hk. unfold l', l. destruct k; [lia|]. cbn [cell].
    rewrite !nth_error_app2 by lia. replace (S k - length l1) with (S (k - length l1)) by lia.
    reflexivity. }
  assert (P1 : forall k, j < k -> skipn k l = skipn (k - 1) l').
  { intros k Hk. unfold l', l. replace k with (length l1 + (k - length l1)) at 1 by lia.
    replace (k - 1) with (length l1 + (k - length l1 - 1)) by lia. rewrite !skipn_app_len.
    replace (k - length l1) with (S (k - length l1 - 1)) at 1 by lia. reflexivity. }
  assert (P2 : hd_or (skipn j l) None = Some q).
  { unfold l. replace j with (length l1 + 0) by lia. rewrite skipn_app_len. reflexivity. }
  assert (P3 : forall k, k < j -> hd_or (skipn k l) None = hd_or (skipn k l') None).
  { intros k Hk. unfold l', l. rewrite !skipn_app. 
    replace (k - length l1) with 0 by lia. cbn [skipn].
    destruct (skipn k l1) as [|[? ?] ?] eqn:Q; [|reflexivity].
    assert (length (skipn k l1) = 0) by (rewrite Q; reflexivity). rewrite skipn_length in H. lia. }
  assert (P4 : hd_or (skipn j l') None = hd_or l2 None).
  { unfold l'. replace j with (length l1 + 0) by lia. rewrite skipn_app_len. reflexivity. }
  destruct (ptr_eqb (i_pos i) (Some q)) eqn:Q1.
  - apply ptr_eqb_eq in Q1. rewrite C, <- P2 in Q1. apply hd_or_inj in Q1; auto; [|lia].
    assert (Z : cur_remove j c = mkCur j false).
    { unfold cur_remove. destruct (Nat.eqb_spec (S j) (c_pos c)); [lia|].
      destruct (Nat.ltb_spec j (c_pos c)); [lia|]. destruct (Nat.eqb_spec j (c_pos c)); [reflexivity|lia]. }
    rewrite Z. unfold irep, kof. cbn [fst snd i_id i_prev i_pos c_pos c_cur]. rewrite Nat.sub_0_r.
    repeat split; auto. discriminate.
  - assert (PN : c_pos c <> j).
    { intros X. rewrite C, X, P2 in Q1. rewrite (proj2 (ptr_eqb_eq _ _) eq_refl) in Q1. discriminate. }
    destruct (loc_eqb (i_prev i) (LNext q)) eqn:Q2.
    + apply loc_eqb_eq in Q2. rewrite B, <- C2 in Q2. apply cell_inj in Q2; auto; [|lia].
      assert (Z : cur_remove j c = mkCur (c_pos c - 1) (c_cur c)).
      { unfold cur_remove, kof in *. destruct (Nat.eqb_spec (S j) (c_pos c)) as [X|X].
        - destruct (c_cur c); [lia|]. f_equal. lia.
        - destruct (Nat.ltb_spec j (c_pos c)); [reflexivity|destruct (c_cur c); lia]. }
      rewrite Z. unfold irep. cbn [fst snd i_id i_prev i_pos c_pos c_cur].
      assert (KK : kof (mkCur (c_pos c - 1) (c_cur c)) = j).
      { unfold kof in *. cbn. destruct (c_cur c); lia. }
      rewrite KK. repeat split; auto; try lia.
      * rewrite C, P1; [reflexivity|]. unfold kof in Q2. destruct (c_cur c); lia.
      * intros X. unfold kof in Q2. rewrite X in Q2. lia.
    + assert (KN : kof c <> S j).
      { intros X. rewrite B, X, C2 in Q2. rewrite (proj2 (loc_eqb_eq _ _) eq_refl) in Q2. discriminate. }
      destruct (Nat.lt_ge_cases (c_pos c) j) as [LT|GE].
      * assert (Z : cur_remove j c = c).
        { unfold cur_remove. destruct (Nat.eqb_spec (S j) (c_pos c)); [lia|].
          destruct (Nat.ltb_spec j (c_pos c)); [lia|]. destruct (Nat.eqb_spec j (c_pos c)); [lia|reflexivity]. }
        rewrite Z. unfold irep. cbn [fst snd]. repeat split; auto; try lia.
        -- rewrite C1; auto. unfold kof; destruct (c_cur c); lia.
        -- rewrite <- P3 by lia. exact C.
      * destruct (Nat.eq_dec (c_pos c) (S j)) as [X|X].
        -- (* the current element is the one removed *)
           assert (CC : c_cur c = true).
           { destruct (c_cur c) eqn:Y; auto. unfold kof in KN. rewrite Y in KN. lia. }
           assert (Z : cur_remove j c = mkCur j false).
           { unfold cur_remove. rewrite CC. destruct (Nat.eqb_spec (S j) (c_pos c)); [reflexivity|lia]. }
           rewrite Z. unfold irep, kof. cbn [fst snd c_pos c_cur]. rewrite Nat.sub_0_r.
           repeat split; auto; try discriminate.
           ++ rewrite C1 by lia. rewrite B. unfold kof. rewrite CC, X. f_equal. lia.
           ++ rewrite C, X. rewrite P1 by lia. replace (S j - 1) with j by lia. reflexivity.
        -- assert (Z : cur_remove j c = mkCur (c_pos c - 1) (c_cur c)).
           { unfold cur_remove. destruct (Nat.eqb_spec (S j) (c_pos c)); [lia|].
             destruct (Nat.ltb_spec j (c_pos c)); [reflexivity|lia]. }
           rewrite Z. unfold irep. cbn [fst snd c_pos c_cur].
           assert (KK : kof c = S (kof (mkCur (c_pos c - 1) (c_cur c)))).
           { unfold kof. cbn. destruct (c_cur c); lia. }
           repeat split; auto; try lia.
           ++ rewrite B, KK, C3; [reflexivity|]. unfold kof in *. cbn in *. destruct (c_cur c); lia.
           ++ rewrite C, P1 by lia. reflexivity.
Qed.

Lemma destroy_ok s l1 q d l2 st :
  srep s (l1 ++ (q, d) :: l2) st ->
  exists s', list_node_destroy s (cell (l1 ++ (q, d) :: l2) (length l1)) = Ok (s', Some d) /\
    srep s' (l1 ++ l2) (a_remove (length l1) st).
Proof.
  intros ([S T CN] & AL & IT). unfold list_node_destroy.
  rewrite (rd_cell s l1 _ S). cbn [bind hd_or].
  rewrite (node_mid _ _ _ _ _ S). cbn [bind].
  pose proof (sh_nodup _ _ S) as N.
  assert (N1 : NoDup (addrs l1)).
  { eapply nodup_app_l. exact N. }
  assert (N2 : NoDup (addrs (l1 ++ l2)) /\ ~ In q (addrs (l1 ++ l2))).
  { unfold addrs in *. rewrite map_app in N. cbn in N. apply NoDup_remove in N.
    rewrite map_app. exact N. }
  destruct N2 as [N2 NI].
  assert (NQ : ~ In q (addrs l1) /\ ~ In q (addrs l2)).
  { unfold addrs in *. rewrite map_app in NI. split; intro; apply NI; apply in_or_app; auto. }
  rewrite cell_app_len.
  destruct (wr_cell s l1 (fun b => seg ((q, d) :: l2) None b) (Some q) (hd_or l2 None))
    as (s1 & W & H1 & P1 & T1 & C1 & I1).
  - exact N1.
  - intros b Hb. apply seg_notin. apply (nodup_app_notin _ _ b N Hb).
  - rewrite (sh_head _ _ S), hd_or_app. reflexivity.
  - intros b. rewrite (sh_heap _ _ S), seg_app. reflexivity.
  - rewrite W. cbn [bind].
    set (s2 := match hd_or l2 None with None => set_tail s1 (cell l1 (length l1)) | Some _ => s1 end).
    set (s3 := set_count s2 (l_count s2 - 1)).
    assert (I3 : l_iters s3 = l_iters s).
    { unfold s3, s2. destruct (hd_or l2 None); cbn; exact I1. }
    rewrite I3.
    match goal with |- context [iters_assert (set_iters s3 ?is) ?is] => set (is' := is) end.
    assert (IT' : Forall2 (irep (l1 ++ l2)) is' (its_map (cur_remove (length l1)) (a_its st))).
    { unfold is', its_map. clear - IT N.
      induction IT as [|i p is ps H F IH]; [constructor|]. cbn [map]. constructor; [|exact IH].
      apply irep_remove with (d := d); auto. }
    set (s5 := set_heap (set_iters s3 is') (upd (l_heap (set_iters s3 is')) q None)).
    assert (HP : l_heap s3 = l_heap s1) by (unfold s3, s2; destruct (hd_or l2 None); reflexivity).
    assert (HH : l_head s3 = l_head s1) by (unfold s3, s2; destruct (hd_or l2 None); reflexivity).
    assert (SH : shape s5 (l1 ++ l2)).
    { split.
      - exact N2.
      - unfold s5. cbn [l_head set_heap set_iters]. rewrite HH, H1, hd_or_app. reflexivity.
      - intros b. unfold s5. cbn [l_heap set_heap set_iters]. unfold upd. rewrite HP, P1, seg_app.
        cbn [seg]. destruct (Nat.eqb_spec b q) as [->|NE].
        + rewrite !seg_notin by tauto. reflexivity.
        + reflexivity. }
    (* the asserts are evaluated before the node is freed: its neighbours are intact *)
    assert (AS : iters_assert (set_iters s3 is') is' = Ok tt).
    { clear - IT' SH HP HH NI N2 P1 H1 NQ.
      assert (RD : forall x, (forall a, x = LNext a -> a <> q) -> rd (set_iters s3 is') x = rd s5 x).
      { intros [|a] X; [reflexivity|]. cbn [rd]. unfold node, s5. cbn [l_heap set_heap set_iters].
        unfold upd. destruct (Nat.eqb_spec a q); [exfalso; eapply X; eauto|reflexivity]. }
      assert (NR : forall a, a <> q -> node (l_heap (set_iters s3 is')) a = node (l_heap s5) a).
      { intros a X. unfold node, s5. cbn [l_heap set_heap set_iters].
        unfold upd. destruct (Nat.eqb_spec a q); [congruence|reflexivity]. }
      assert (CI : forall k a, cell (l1 ++ l2) k = LNext a -> In a (addrs (l1 ++ l2))).
      { intros [|k] a; cbn [cell]; [discriminate|]. destruct (nth_error (l1 ++ l2) k) as [[b e]|] eqn:Q; [|discriminate].
        intros X. injection X as <-. unfold addrs. apply in_map_iff. exists (b, e). split; [reflexivity|].
        eapply nth_error_In; eauto. }
      revert IT'. generalize (its_map (cur_remove (length l1)) (a_its st)).
      assert (G : forall is ps, Forall2 (irep (l1 ++ l2)) is ps ->
        iters_assert (set_iters s3 is') is = iters_assert s5 is).
      { induction 1 as [|i p is ps H F IH]; [reflexivity|]. cbn [iters_assert]. rewrite IH. f_equal.
        unfold iter_assert. destruct H as (A & B & C & E & F').
        rewrite RD.
        - rewrite B. rewrite (rd_cell' s5 (l1 ++ l2)) by (auto using kof_le). cbn [bind].
          destruct (ptr_eqb _ _); [reflexivity|].
          destruct (skipn (kof (snd p)) (l1 ++ l2)) as [|[a e] t] eqn:Q; [reflexivity|].
          cbn [hd_or deref]. rewrite NR; [reflexivity|].
          intros ->. apply NI. unfold addrs. rewrite <- (firstn_skipn (kof (snd p)) (l1 ++ l2)), Q, map_app.
          apply in_or_app. right. cbn. auto.
        - intros a X. rewrite B in X. intros ->. apply NI. eapply CI; eauto. }
      intros ps IT'. rewrite (G _ _ IT'). eapply iters_assert_ok; eauto. }
    rewrite AS. cbn [bind]. eexists. split; [reflexivity|].
    split; [split|split].
    + exact SH.
    + cbn [l_tail set_heap set_iters]. unfold s3. cbn [l_tail set_count].
      destruct l2 as [|[b e] l2'].
      * unfold s2. cbn [hd_or l_tail set_tail]. rewrite app_nil_r. reflexivity.
      * unfold s2. cbn [hd_or l_tail]. change (l_tail s1 = cell (l1 ++ (b, e) :: l2') (length (l1 ++ (b, e) :: l2'))). rewrite T1, T, !app_length. cbn [length].
        rewrite !Nat.add_succ_r. cbn [cell]. rewrite !nth_error_app2 by lia.
        replace (Datatypes.S (length l1 + length l2') - length l1) with (Datatypes.S (length l2')) by lia.
        replace (length l1 + length l2' - length l1) with (length l2') by lia. reflexivity.
    + change (l_count s5 = length (l1 ++ l2)).
      assert (CC : l_count s5 = l_count s1 - 1) by (unfold s5, s3, s2; destruct (hd_or l2 None); reflexivity).
      rewrite CC, C1, CN, !app_length. cbn. lia.
    + unfold a_remove, remove_at. cbn [a_list]. rewrite <- AL, !map_app. cbn [map snd].
      rewrite firstn_app, skipn_app, !map_length, Nat.sub_diag. cbn [firstn].
      rewrite app_nil_r, firstn_all2 by (rewrite map_length; lia).
      rewrite skipn_all2 by (rewrite map_length; lia).
      replace (Datatypes.S (length l1) - length l1) with 1 by lia. reflexivity.
    + cbn [l_iters set_heap set_iters a_remove a_its]. exact IT'.
Qed.

(** ** The operations *)
Lemma rep_empty : srep list_create [] empty.
Proof. repeat split; cbn; auto; try constructor. Qed.

Lemma srep_len s l st : srep s l st -> length l = length (a_list st).
Proof. intros (_ & A & _). rewrite <- A, map_length. reflexivity. Qed.

Lemma find_iter_rep l is ps id :
  Forall2 (irep l) is ps -> In id (map i_id is) ->
  exists i c, find_iter id is = Ok i /\ a_find id ps = Some c /\ irep l i (id, c).
Proof.
  induction 1 as [|i [j c] is ps H F IH]; cbn; [tauto|]. intros X.
  destruct H as (A & B). cbn in A. rewrite A.
  destruct (Nat.eqb_spec j id) as [->|NE].
  - exists i, c. repeat split; auto; apply B.
  - destruct X as [X|X]; [congruence|]. apply IH. exact X.
Qed.

Lemma put_rep s l st i c :
  srep s l st -> irep l i (i_id i, c) -> srep (put_iter s i) l (a_put (i_id i) c st).
Proof.
  intros ([S T C] & AL & IT) H. split; [split|split]; auto.
  - apply shape_iters; auto.
  - cbn [put_iter l_iters set_iters a_put a_its].
    induction IT as [|j [k e] is ps G F IH]; [constructor|]. cbn [map fst].
    constructor; [|exact IH].
    destruct G as (A & G). cbn [fst] in A. rewrite A. destruct (k =? i_id i) eqn:Q; [exact H|].
    split; [exact A|exact G].
Qed.

Lemma skipn_nth_hd {A} k (l : list A) : nth_error (skipn k l) 0 = nth_error l k.
Proof. revert l. induction k; intros [|x l]; auto. cbn [skipn nth_error]. apply IHk. Qed.

Lemma split_at {A} k (l : list A) x : nth_error l k = Some x ->
  l = firstn k l ++ x :: skipn (S k) l /\ length (firstn k l) = k.
Proof.
  revert l. induction k; intros [|y l] H; cbn in *; try discriminate.
  - injection H as ->. auto.
  - destruct (IHk _ H) as [E1 E2]. split; [f_equal; exact E1|f_equal; exact E2].
Qed.

Lemma next_ok s l st id :
  srep s l st -> In id (map i_id (l_iters s)) ->
  exists c s', a_find id (a_its st) = Some c /\
    list_next s id = Ok (s', snd (advance (a_list st) c)) /\
    srep s' l (a_put id (fst (advance (a_list st) c)) st) /\
    l_count s' = l_count s /\ map i_id (l_iters s') = map i_id (l_iters s) /\
    a_find id (a_its (a_put id (fst (advance (a_list st) c)) st)) = Some (fst (advance (a_list st) c)) /\
    c_pos c <= length (a_list st).
Proof.
  intros R X. pose proof R as ([S T C] & AL & IT).
  destruct (find_iter_rep _ _ _ _ IT X) as (i & c & E1 & E2 & (A & B & P & Q & F)).
  cbn [fst snd] in *. exists c.
  unfold list_next. rewrite E1. cbn [bind]. rewrite P, B.
  rewrite (rd_cell' s l) by (auto using kof_le).
  unfold advance. rewrite skipn_nth_hd, <- AL, nth_error_map.
  assert (FP : forall c', a_find id (a_its (a_put id c' st)) = Some c').
  { intros c'. cbn. clear - E2. induction (a_its st) as [|[j e] t IH]; cbn in *; [discriminate|].
    destruct (j =? id) eqn:Q; cbn.
    - rewrite Nat.eqb_refl. reflexivity.
    - rewrite Q. apply IH. exact E2. }
  assert (PID : forall i', i_id i' = id -> map i_id (l_iters (put_iter s i')) = map i_id (l_iters s)).
  { intros i' Hi. cbn. rewrite map_map. apply map_ext. intros j. destruct (Nat.eqb_spec (i_id j) (i_id i')); congruence. }
  destruct (nth_error l (c_pos c)) as [[a d]|] eqn:K.
  - destruct (split_at _ _ _ K) as [SP LF].
    assert (H1 : skipn (c_pos c) l = (a, d) :: skipn (Datatypes.S (c_pos c)) l).
    { rewrite SP at 1. replace (c_pos c) with (length (firstn (c_pos c) l) + 0) at 1 by lia.
      rewrite skipn_app_len. reflexivity. }
    assert (LT : c_pos c < length l) by (apply nth_error_Some; congruence).
    rewrite H1. cbn [hd_or].
    pose proof S as S'. rewrite SP in S'. rewrite (node_mid _ _ _ _ _ S'). cbn [bind snd fst option_map].
    assert (PV : (if ptr_eqb (hd_or (skipn (kof c) l) None) (Some a) then Ok (cell l (kof c))
                  else addr_next (hd_or (skipn (kof c) l) None)) = Ok (cell l (c_pos c))).
    { destruct (ptr_eqb _ _) eqn:Y.
      - apply ptr_eqb_eq in Y.
        replace (Some a) with (hd_or (skipn (c_pos c) l) None) in Y by (rewrite H1; reflexivity).
        apply hd_or_inj in Y; [|apply S|apply kof_le; lia|lia]. rewrite Y. reflexivity.
      - assert (CC : c_cur c = true).
        { destruct (c_cur c) eqn:Z; auto. unfold kof in Y. rewrite Z, Nat.sub_0_r, H1 in Y. cbn [hd_or] in Y.
          rewrite (proj2 (ptr_eqb_eq _ _) eq_refl) in Y. discriminate. }
        specialize (F CC). unfold kof. rewrite CC.
        destruct (nth_error l (c_pos c - 1)) as [[a' d']|] eqn:K'; [|apply nth_error_None in K'; lia].
        destruct (split_at _ _ _ K') as [SP' LF'].
        replace (hd_or (skipn (c_pos c - 1) l) None) with (Some a').
        + cbn [addr_next]. f_equal. destruct (c_pos c) as [|k]; [lia|]. cbn [cell].
          replace (Datatypes.S k - 1) with k in K' by lia. rewrite K'. reflexivity.
        + rewrite SP' at 1. replace (c_pos c - 1) with (length (firstn (c_pos c - 1) l) + 0) at 1 by lia.
          rewrite skipn_app_len. reflexivity. }
    rewrite PV. cbn [bind]. eexists. split; [exact E2|]. split; [reflexivity|].
    split; [|repeat split].
    + change id with (i_id (mkIter id (hd_or (skipn (Datatypes.S (c_pos c)) l) None) (cell l (c_pos c)))) at 2.
      apply put_rep; auto. unfold irep, kof. cbn [fst snd i_id i_prev i_pos c_pos c_cur].
      repeat split; auto; try lia. f_equal. lia.
    + apply PID. reflexivity.
    + apply FP.
    + rewrite map_length. lia.
  - assert (LE : length l <= c_pos c) by (apply nth_error_None; auto).
    rewrite skipn_all2 by lia. cbn [hd_or bind option_map fst snd].
    assert (PV : (if ptr_eqb (hd_or (skipn (kof c) l) None) None then Ok (cell l (kof c))
                  else addr_next (hd_or (skipn (kof c) l) None)) = Ok (cell l (c_pos c))).
    { destruct (ptr_eqb _ _) eqn:Y.
      - apply ptr_eqb_eq in Y.
        replace None with (hd_or (skipn (c_pos c) l) None) in Y at 2 by (rewrite skipn_all2 by lia; reflexivity).
        apply hd_or_inj in Y; [|apply S|apply kof_le; lia|lia]. rewrite Y. reflexivity.
      - assert (CC : c_cur c = true).
        { destruct (c_cur c) eqn:Z; auto. unfold kof in Y. rewrite Z, Nat.sub_0_r, skipn_all2 in Y by lia. discriminate. }
        specialize (F CC). unfold kof. rewrite CC.
        destruct (nth_error l (c_pos c - 1)) as [[a' d']|] eqn:K'; [|apply nth_error_None in K'; lia].
        destruct (split_at _ _ _ K') as [SP' LF'].
        replace (hd_or (skipn (c_pos c - 1) l) None) with (Some a').
        + cbn [addr_next]. f_equal. destruct (c_pos c) as [|k]; [lia|]. cbn [cell].
          replace (Datatypes.S k - 1) with k in K' by lia. rewrite K'. reflexivity.
        + rewrite SP' at 1. replace (c_pos c - 1) with (length (firstn (c_pos c - 1) l) + 0) at 1 by lia.
          rewrite skipn_app_len. reflexivity. }
    rewrite PV. cbn [bind]. eexists. split; [exact E2|]. split; [reflexivity|].
    split; [|repeat split].
    + change id with (i_id (mkIter id None (cell l (c_pos c)))) at 2.
      apply put_rep; auto. unfold irep, kof. cbn [fst snd i_id i_prev i_pos c_pos c_cur].
      repeat split; auto; try lia; try discriminate.
      * f_equal. lia.
      * rewrite skipn_all2 by lia. reflexivity.
    + apply PID. reflexivity.
    + apply FP.
    + rewrite map_length. lia.
Qed.

Lemma a_put_put id c1 c2 (st : alist (D:=D)) : a_put id c2 (a_put id c1 st) = a_put id c2 st.
Proof.
  unfold a_put. cbn. f_equal. rewrite map_map. apply map_ext. intros [j c]. cbn.
  destruct (j =? id) eqn:Q; cbn; [rewrite Nat.eqb_refl|rewrite Q]; reflexivity.
Qed.

Lemma find_ok n s l st id f c :
  srep s l st -> In id (map i_id (l_iters s)) -> a_find id (a_its st) = Some c ->
  length l <= n + c_pos c ->
  exists s', find_loop (S n) s id f = Ok (s', snd (seek n f (a_list st) c)) /\
    srep s' l (a_put id (fst (seek n f (a_list st) c)) st).
Proof.
  revert s st c. induction n; intros s st c R X E HN; cbn [find_loop];
    destruct (next_ok _ _ _ _ R X) as (c0 & s1 & E' & NX & R1 & C1 & I1 & E1 & LE);
    rewrite E in E'; injection E' as <-; rewrite NX; cbn [bind].
  - (* no element left *)
    assert (G : advance (a_list st) c = (mkCur (c_pos c) false, None)).
    { unfold advance. rewrite skipn_nth_hd.
      destruct (nth_error (a_list st) (c_pos c)) eqn:K; [|reflexivity].
      assert (c_pos c < length (a_list st)) by (apply nth_error_Some; congruence).
      rewrite <- (srep_len _ _ _ R) in H. lia. }
    cbn [seek]. rewrite G in *. cbn [fst snd] in *. eexists; split; [reflexivity|exact R1].
  - cbn [seek]. destruct (advance (a_list st) c) as [c1 v] eqn:G. cbn [fst snd] in *.
    destruct v as [d|]; [|eexists; split; [reflexivity|exact R1]].
    destruct (f d); [eexists; split; [reflexivity|exact R1]|].
    destruct (IHn s1 (a_put id c1 st) c1) as (s' & F' & R').
    + exact R1.
    + rewrite I1. exact X.
    + exact E1.
    + unfold advance in G. destruct (nth_error (skipn (c_pos c) (a_list st)) 0); [|discriminate].
      injection G as <- _. cbn. lia.
    + cbn [a_list a_put] in *. rewrite a_put_put in R'. eauto.
Qed.

Lemma nodes_of_rep s l : rep s l -> nodes_of s = addrs l.
Proof.
  intros [S T C]. unfold nodes_of. rewrite C, (sh_head _ _ S).
  assert (G : forall l1 l2, l = l1 ++ l2 -> nodes_from (length l2) (l_heap s) (hd_or l2 None) = addrs l2).
  { intros l1 l2. revert l1. induction l2 as [|[a d] t IH]; intros l1 ->; [reflexivity|].
    cbn [length hd_or nodes_from]. rewrite (sh_heap _ _ S), seg_mid by apply S. cbn [addrs map fst]. f_equal.
    apply (IH (l1 ++ [(a, d)])). rewrite <- app_assoc. reflexivity. }
  apply (G [] l eq_refl).
Qed.

Lemma its_ids l is ps : Forall2 (irep l) is ps -> map i_id is = map fst ps.
Proof. induction 1 as [|i p is ps H F IH]; [reflexivity|]. cbn. rewrite IH. f_equal. apply H. Qed.

Lemma pop_ok s l st : srep s l st ->
  exists s' l', list_pop s = Ok (s', nth_error (a_list st) 0) /\
    srep s' l' (match a_list st with [] => st | _ => a_remove 0 st end).
Proof.
  intros R. pose proof R as (_ & AL & _). unfold list_pop.
  destruct l as [|[q d] t].
  - destruct R as ([S T C] & _ & IT). unfold list_node_destroy. cbn [rd]. rewrite (sh_head _ _ S). cbn.
    rewrite <- AL. cbn. exists s, []. split; [reflexivity|]. split; [split|split]; auto.
  - destruct (destroy_ok s [] q d t st R) as (s' & E & R').
    cbn [length app cell] in E. rewrite E. rewrite <- AL. cbn. exists s', t. split; [reflexivity|exact R'].
Qed.

Lemma find_first_ok s f l1 l2 n : shape s (l1 ++ l2) -> length l2 < n ->
  find_first n s f (hd_or l2 None) = Ok (find f (map snd l2)).
Proof.
  revert l1 n. induction l2 as [|[a d] t IH]; intros l1 n S H; (destruct n; [cbn in H; lia|]); cbn [find_first hd_or map find snd].
  - reflexivity.
  - rewrite (node_mid _ _ _ _ _ S). cbn [bind fst snd]. destruct (f d); [reflexivity|].
    apply (IH (l1 ++ [(a, d)])); [rewrite <- app_assoc; exact S|cbn in H; lia].
Qed.

Lemma nth_error_app_len {A} (l1 : list A) x l2 : nth_error (l1 ++ x :: l2) (length l1) = Some x.
Proof. rewrite nth_error_app2, Nat.sub_diag by lia. reflexivity. Qed.

Lemma delete_all_ok f l2 : forall n s l1 st, srep s (l1 ++ l2) st -> length l2 < n ->
  exists s' l', delete_all n s f (cell (l1 ++ l2) (length l1)) = Ok (s', filter f (map snd l2)) /\
    srep s' l' (a_delete_all (length l2) (length l1) f st).
Proof.
  induction l2 as [|[a d] t IH]; intros n s l1 st R H; (destruct n; [cbn in H; lia|]); cbn [delete_all].
  - pose proof R as ([S T C] & AL & IT). rewrite (rd_cell _ _ _ S). cbn. eauto.
  - pose proof R as ([S T C] & AL & IT). rewrite (rd_cell _ _ _ S). cbn [bind hd_or].
    rewrite (node_mid _ _ _ _ _ S). cbn [bind fst].
    assert (NE : nth_error (a_list st) (length l1) = Some d).
    { rewrite <- AL, map_app. cbn [map snd]. rewrite <- (map_length snd l1). apply nth_error_app_len. }
    cbn [length a_delete_all map snd filter]. rewrite NE. destruct (f d).
    + destruct (destroy_ok _ _ _ _ _ _ R) as (s1 & E1 & R1). rewrite E1. cbn [bind].
      assert (CE : cell (l1 ++ (a, d) :: t) (length l1) = cell (l1 ++ t) (length l1)) by (rewrite !cell_app_len; reflexivity).
      rewrite CE. destruct (IH n s1 l1 _ R1) as (s' & l' & E2 & R2); [cbn in H; lia|].
      rewrite E2. cbn. exists s', l'. split; [reflexivity|exact R2].
    + assert (EQ : l1 ++ (a, d) :: t = (l1 ++ [(a, d)]) ++ t) by (rewrite <- app_assoc; reflexivity).
      destruct (IH n s (l1 ++ [(a, d)]) st) as (s' & l' & E2 & R2); [rewrite <- EQ; exact R|cbn in H; lia|].
      rewrite app_length in E2, R2. cbn [length] in E2, R2. rewrite Nat.add_1_r in E2, R2.
      replace (cell ((l1 ++ [(a, d)]) ++ t) (Datatypes.S (length l1))) with (LNext a) in E2.
      * exists s', l'. split; [exact E2|exact R2].
      * rewrite cell_app by (rewrite app_length; cbn; lia). rewrite cell_snoc. reflexivity.
Qed.

(** ** Sorting *)
Fixpoint placed (cmp : D -> D -> Z) (p : nat * D) (l : L) : L :=
  match l with
  | [] => [p]
  | x :: t => if (cmp (snd p) (snd x) <? 0)%Z then p :: l else x :: placed cmp p t
  end.

Lemma placed_snd cmp p l : map snd (placed cmp p l) = place cmp (snd p) (map snd l).
Proof. induction l as [|x t IH]; cbn; [reflexivity|]. destruct (_ <? _)%Z; cbn; congruence. Qed.

Lemma sort_pos_ok cmp d s rest : forall l1 A B n y,
  shape s (l1 ++ A ++ B ++ rest) -> length A < n ->
  (forall x, In x A -> (0 <= cmp d (snd x))%Z) -> hd_error B = Some y -> (cmp d (snd y) < 0)%Z ->
  sort_pos n s cmp d (cell (l1 ++ A ++ B ++ rest) (length l1)) =
  Ok (cell (l1 ++ A ++ B ++ rest) (length l1 + length A)).
Proof.
  intros l1 A. revert l1. induction A as [|[a e] A IH]; intros l1 B n y S H HA HB HY; (destruct n; [cbn in H; lia|]); cbn [sort_pos].
  - destruct B as [|[b e] B]; [discriminate|]. cbn [hd_error] in HB. injection HB as <-. cbn [app] in *. cbn [snd] in HY.
    rewrite (rd_cell _ _ _ S). cbn [bind hd_or deref]. rewrite (node_mid _ _ _ _ _ S). cbn [bind fst].
    destruct (Z.leb_spec 0 (cmp d e)); [lia|]. cbn [length]. rewrite Nat.add_0_r. reflexivity.
  - cbn [app] in *. rewrite (rd_cell _ _ _ S). cbn [bind hd_or deref]. rewrite (node_mid _ _ _ _ _ S). cbn [bind fst addr_next].
    specialize (HA (a, e) (or_introl eq_refl)) as HE. cbn [snd] in HE.
    destruct (Z.leb_spec 0 (cmp d e)); [|lia].
    assert (EQ : l1 ++ (a, e) :: A ++ B ++ rest = (l1 ++ [(a, e)]) ++ A ++ B ++ rest) by (rewrite <- app_assoc; reflexivity).
    rewrite EQ in *. specialize (IH (l1 ++ [(a, e)]) B n y S).
    rewrite app_length in IH. cbn [length] in IH. rewrite Nat.add_1_r in IH.
    replace (LNext a) with (cell ((l1 ++ [(a, e)]) ++ A ++ B ++ rest) (Datatypes.S (length l1))).
    + rewrite IH; auto.
      * f_equal. f_equal. cbn. lia.
      * cbn in H. lia.
      * intros x Hx. apply HA. right. exact Hx.
    + rewrite cell_app by (rewrite app_length; cbn; lia). rewrite cell_snoc. reflexivity.
Qed.

Lemma placed_split cmp p l : exists A B, l = A ++ B /\ placed cmp p l = A ++ p :: B /\
  (forall x, In x A -> (0 <= cmp (snd p) (snd x))%Z) /\
  (forall y, hd_error B = Some y -> (cmp (snd p) (snd y) < 0)%Z).
Proof.
  induction l as [|x t (A & B & E1 & E2 & H1 & H2)].
  - exists [], []. repeat split; auto; cbn; [tauto|discriminate].
  - cbn [placed]. destruct (Z.ltb_spec (cmp (snd p) (snd x)) 0).
    + exists [], (x :: t). repeat split; auto; cbn; [tauto|]. intros y Y. injection Y as <-. exact H.
    + exists (x :: A), B. rewrite E2. cbn. repeat split; auto.
      * congruence.
      * intros y [<-|Y]; auto.
Qed.

(** Moving the element [x] of A ++ B ++ x :: rest in front of [B]. *)
Lemma move_ok s A b0 B' xa xd rest :
  let B := B' ++ [b0] in
  shape s (A ++ B ++ (xa, xd) :: rest) ->
  exists s1 s2 s3,
    wr s (LNext xa) (hd_or B None) = Ok s1 /\
    wr s1 (cell A (length A)) (Some xa) = Ok s2 /\
    wr s2 (LNext (fst b0)) (hd_or rest None) = Ok s3 /\
    shape s3 (A ++ (xa, xd) :: B ++ rest) /\
    l_count s3 = l_count s /\ l_iters s3 = l_iters s.
Proof.
  intros B S. pose proof (sh_nodup _ _ S) as N. pose proof (sh_heap _ _ S) as HP. pose proof (sh_head _ _ S) as HH.
  assert (NB : NoDup (addrs (B ++ (xa, xd) :: rest))) by (eapply nodup_app_r; eauto).
  assert (NX : NoDup (addrs ((xa, xd) :: rest))) by (eapply nodup_app_r; eauto).
  assert (dA : forall b, In b (addrs A) -> ~ In b (addrs B) /\ b <> xa /\ ~ In b (addrs rest)).
  { intros b Hb. pose proof (nodup_app_notin _ _ b N Hb) as Y. unfold addrs in Y. rewrite map_app in Y. cbn in Y.
    repeat split; intro; apply Y; apply in_or_app; cbn; auto. }
  assert (dB : forall b, In b (addrs B) -> b <> xa /\ ~ In b (addrs rest)).
  { intros b Hb. pose proof (nodup_app_notin _ _ b NB Hb) as Y. cbn in Y. split; intro; apply Y; cbn; auto. }
  assert (dX : ~ In xa (addrs rest)) by (cbn in NX; inversion NX; auto).
  assert (xA : ~ In xa (addrs A)) by (intro Y; destruct (dA _ Y) as (_ & Q & _); congruence).
  assert (xB : ~ In xa (addrs B)) by (intro Y; destruct (dB _ Y) as (Q & _); congruence).
  set (X := [(xa, xd)]).
  assert (BNE : forall n, hd_or B n = hd_or B None).
  { intros n. unfold B. destruct B' as [|[? ?] ?]; [destruct b0|]; reflexivity. }
  (* first write *)
  destruct (wr_seg s [] (fun b => oplus (seg A (hd_or B None) b) (oplus (seg B (Some xa) b) (seg rest None b)))
              (hd_or rest None) (hd_or B None) xa xd) as (s1 & W1 & H1 & P1 & T1 & C1 & I1).
  { cbn. constructor; [tauto|constructor]. }
  { cbn. intros b [<-|[]]. rewrite !seg_notin by auto. reflexivity. }
  { intros b. rewrite HP, !seg_app. cbn [app hd_or seg]. rewrite hd_or_app, BNE.
    destruct (Nat.eqb_spec b xa) as [->|NE]; [|reflexivity].
    rewrite !seg_notin by auto. reflexivity. }
  (* second write *)
  destruct (wr_cell s1 A (fun b => oplus (seg X (hd_or B None) b) (oplus (seg B (Some xa) b) (seg rest None b)))
              (hd_or B None) (Some xa)) as (s2 & W2 & H2 & P2 & T2 & C2 & I2).
  { eapply nodup_app_l; eauto. }
  { intros b Hb. destruct (dA _ Hb) as (Q1 & Q2 & Q3). unfold X. cbn [seg].
    destruct (Nat.eqb_spec b xa); [congruence|]. rewrite !seg_notin by auto. reflexivity. }
  { rewrite H1, HH, hd_or_app, hd_or_app, BNE. reflexivity. }
  { intros b. rewrite P1. unfold X. cbn [app seg hd_or]. destruct (Nat.eqb_spec b xa) as [->|NE]; [|reflexivity].
    rewrite seg_notin by auto. reflexivity. }
  (* third write *)
  destruct b0 as [ba bd].
  destruct (wr_seg s2 B' (fun b => oplus (seg A (Some xa) b) (oplus (seg X (hd_or B None) b) (seg rest None b)))
              (Some xa) (hd_or rest None) ba bd) as (s3 & W3 & H3 & P3 & T3 & C3 & I3).
  { eapply nodup_app_l; eauto. }
  { fold B. intros b Hb. destruct (dB _ Hb) as (Q1 & Q2). unfold X. cbn [seg].
    destruct (Nat.eqb_spec b xa); [congruence|]. rewrite !seg_notin; auto.
    intro Y. destruct (dA _ Y) as (Q & _). auto. }
  { fold B. intros b. rewrite P2. unfold X. cbn [seg].
    destruct (seg A (Some xa) b) eqn:Q1.
    - apply seg_in in Q1. destruct (dA _ Q1) as (Q & _ & _). rewrite (seg_notin B) by auto. reflexivity.
    - cbn [oplus]. destruct (Nat.eqb_spec b xa) as [->|NE].
      + rewrite (seg_notin B) by auto. reflexivity.
      + reflexivity. }
  exists s1, s2, s3. cbn [fst]. repeat split; auto; try congruence.
  - unfold addrs in *. rewrite map_app in *. cbn in *. rewrite map_app in *. cbn in *.
    eapply Permutation_NoDup; [|exact N]. apply Permutation_app_head.
    apply Permutation_sym, Permutation_middle.
  - rewrite H3, H2, hd_or_app. reflexivity.
  - intros b. rewrite (P3 b). fold B. rewrite (seg_app A). unfold X. cbn [hd_or seg].
    rewrite (seg_app B), (hd_or_app B), (BNE (hd_or rest None)).
    destruct (seg B (hd_or rest None) b) eqn:Q1.
    + apply seg_in in Q1. rewrite (seg_notin A).
      * cbn [oplus]. destruct (Nat.eqb_spec b xa) as [->|NE]; [exfalso; auto|]. reflexivity.
      * intro Y. destruct (dA _ Y) as (Q & _). auto.
    + cbn [oplus]. destruct (seg A (Some xa) b); [reflexivity|]. cbn [oplus].
      destruct (b =? xa); reflexivity.
Qed.

(** The loop's own view: [done] is sorted out, [todo] is not. *)
Fixpoint psort (cmp : D -> D -> Z) (done todo : L) : L :=
  match todo with
  | [] => done
  | x :: t =>
      match nth_error done (length done - 1) with
      | Some y => if (cmp (snd x) (snd y) <? 0)%Z then psort cmp (placed cmp x done) t
                  else psort cmp (done ++ [x]) t
      | None => psort cmp [x] t
      end
  end.

Lemma psort_snd cmp todo : forall done, map snd (psort cmp done todo) = isort cmp (map snd done) (map snd todo).
Proof.
  induction todo as [|x t IH]; intros done; [reflexivity|]. cbn [psort isort map].
  unfold last_opt. rewrite map_length, nth_error_map.
  destruct (nth_error done (length done - 1)) as [y|]; cbn [option_map].
  - destruct (_ <? _)%Z; rewrite IH; [rewrite placed_snd|rewrite map_app]; reflexivity.
  - rewrite IH. reflexivity.
Qed.

Lemma placed_len cmp p l : length (placed cmp p l) = S (length l).
Proof. induction l as [|x t IH]; cbn; [reflexivity|]. destruct (_ <? _)%Z; cbn; lia. Qed.

Lemma psort_len cmp todo : forall done, length (psort cmp done todo) = length done + length todo.
Proof.
  induction todo as [|x t IH]; intros done; cbn [psort length]; [lia|].
  destruct (nth_error done (length done - 1)) eqn:Q.
  - destruct (_ <? _)%Z; rewrite IH; [rewrite placed_len|rewrite app_length; cbn]; lia.
  - rewrite IH. cbn. apply nth_error_None in Q. lia.
Qed.

Lemma sort_loop_ok cmp todo : forall done s n,
  shape s (done ++ todo) -> done <> [] -> length todo < n -> l_count s = length (done ++ todo) ->
  exists s', sort_loop n s cmp (cell done (length done - 1)) (cell done (length done))
               = Ok (s', cell (psort cmp done todo) (length done + length todo)) /\
    shape s' (psort cmp done todo) /\ l_count s' = l_count s /\ l_iters s' = l_iters s.
Proof.
  induction todo as [|[xa xd] t IH]; intros done s n S NE H CN; (destruct n; [cbn in H; lia|]); cbn [sort_loop].
  - rewrite app_nil_r in S. rewrite (rd_cell' s done) by (auto; lia). rewrite skipn_all2 by lia. cbn [hd_or bind psort length].
    rewrite Nat.add_0_r. eauto.
  - destruct (list_last_split done) as [->|(d' & [ba bd] & ED)]; [congruence|].
    assert (LD : length done = Datatypes.S (length d')) by (rewrite ED, app_length; cbn; lia).
    rewrite <- (cell_app_len done ((xa, xd) :: t)). rewrite (rd_cell _ _ _ S). cbn [bind hd_or].
    rewrite (node_mid _ _ _ _ _ S). cbn [bind fst].
    assert (CP : cell done (length done - 1) = cell (d' ++ (ba, bd) :: (xa, xd) :: t) (length d')).
    { rewrite cell_app_len, LD. replace (Datatypes.S (length d') - 1) with (length d') by lia.
      rewrite ED. apply cell_app_len. }
    assert (S2 : shape s (d' ++ (ba, bd) :: (xa, xd) :: t)).
    { rewrite ED, <- app_assoc in S. exact S. }
    rewrite CP. rewrite (rd_cell _ _ _ S2). cbn [bind hd_or deref]. rewrite (node_mid _ _ _ _ _ S2). cbn [bind fst].
    assert (LE : nth_error done (length done - 1) = Some (ba, bd)).
    { rewrite LD, ED. replace (Datatypes.S (length d') - 1) with (length d') by lia. apply nth_error_app_len. }
    cbn [psort]. rewrite LE. cbn [snd].
    destruct (Z.ltb_spec (cmp xd bd) 0) as [LT|GE].
    + (* moved *)
      destruct (placed_split cmp (xa, xd) done) as (A & B & EAB & EP & HA & HB).
      cbn [snd] in HA, HB.
      assert (BNE : exists y, hd_error B = Some y).
      { destruct B as [|y B]; [|eexists; reflexivity]. exfalso. rewrite app_nil_r in EAB. subst A.
        assert (In (ba, bd) done) by (rewrite ED; apply in_or_app; right; cbn; auto).
        specialize (HA _ H0). cbn [snd] in HA. lia. }
      destruct BNE as (y & HY). specialize (HB y HY).
      destruct (list_last_split B) as [->|(B' & b0 & EB)]; [discriminate|].
      assert (b0 = (ba, bd) /\ A ++ B' = d') as [-> ED'].
      { rewrite EAB, EB, app_assoc in ED. apply app_inj_tail in ED. destruct ED; split; congruence. }
      assert (S3 : shape s (A ++ B ++ (xa, xd) :: t)) by (rewrite EAB, <- app_assoc in S; exact S).
      assert (SP : sort_pos (Datatypes.S (l_count s)) s cmp xd LHead = Ok (cell (A ++ B ++ (xa, xd) :: t) (length A))).
      { change LHead with (cell ([] ++ A ++ B ++ (xa, xd) :: t) (length (@nil (nat * D)))).
        rewrite (sort_pos_ok cmp xd s ((xa, xd) :: t) [] A B _ y); auto.
        rewrite CN, EAB, !app_length. lia. }
      rewrite SP. cbn [bind]. rewrite (rd_cell _ _ _ S3). cbn [bind snd].
      replace (hd_or (B ++ (xa, xd) :: t) None) with (hd_or B None).
      2:{ rewrite EB. destruct B' as [|[? ?] ?]; reflexivity. }
      destruct (move_ok s A (ba, bd) B' xa xd t) as (s1 & s2 & s3 & W1 & W2 & W3 & S4 & C4 & I4).
      { rewrite <- EB. exact S3. }
      rewrite <- EB in W1, S4. rewrite cell_app_len. rewrite W1. cbn [bind]. rewrite W2. cbn [bind].
      rewrite cell_app_len.
      assert (CD : cell done (length done) = LNext ba) by (rewrite LD, ED; apply cell_snoc).
      rewrite CD. cbn [fst] in W3. rewrite W3. cbn [bind].
      set (nl := A ++ (xa, xd) :: B ++ t) in *.
      assert (ENL : nl = placed cmp (xa, xd) done ++ t) by (unfold nl; rewrite EP, <- app_assoc; reflexivity).
      assert (PL : length (placed cmp (xa, xd) done) = Datatypes.S (length done)) by apply placed_len.
      (* the new prev *)
      assert (PV : (if loc_eqb (cell (d' ++ (ba, bd) :: (xa, xd) :: t) (length d')) (cell A (length A))
                    then do q1 <- rd s3 (cell (d' ++ (ba, bd) :: (xa, xd) :: t) (length d')); addr_next q1
                    else Ok (cell (d' ++ (ba, bd) :: (xa, xd) :: t) (length d')))
                   = Ok (cell (placed cmp (xa, xd) done) (length done))).
      { destruct (loc_eqb _ _) eqn:Q.
        - apply loc_eqb_eq in Q. rewrite Q.
          rewrite <- (cell_app_len A ((xa, xd) :: B ++ t)). fold nl. unfold nl. rewrite rd_cell by exact S4.
          cbn [hd_or bind addr_next].
          assert (LA : length d' = length A).
          { rewrite <- (cell_app_len A (B' ++ (ba, bd) :: (xa, xd) :: t)) in Q.
            rewrite app_assoc, ED' in Q. eapply cell_inj in Q; eauto.
            - apply S2.
            - rewrite app_length. lia.
            - rewrite <- ED', !app_length. lia. }
          f_equal. rewrite EP, LD, LA.
          change ((xa, xd) :: B) with ([(xa, xd)] ++ B). rewrite app_assoc, cell_app by (rewrite app_length; cbn; lia).
          rewrite cell_snoc. reflexivity.
        - f_equal.
          assert (LA : length A < length d').
          { rewrite <- ED', app_length. destruct B' as [|z B'']; [|cbn; lia]. exfalso.
            rewrite app_nil_r in ED'. subst A. rewrite cell_app_len in Q.
            rewrite (proj2 (loc_eqb_eq _ _) eq_refl) in Q. discriminate. }
          rewrite EP, LD, cell_app_len. rewrite <- ED' at 1. rewrite EB.
          destruct (list_last_split B') as [->|(B'' & [za zd] & EB')].
          { rewrite app_nil_r in ED'. subst. lia. }
          rewrite EB' in *. clear - ED'.
          assert (LD' : length d' = Datatypes.S (length (A ++ B''))).
          { rewrite <- ED', app_assoc, app_length. cbn. lia. }
          rewrite LD', app_assoc, cell_snoc.
          replace (A ++ (xa, xd) :: (B'' ++ [(za, zd)]) ++ [(ba, bd)])
            with (((A ++ (xa, xd) :: B'') ++ [(za, zd)]) ++ [(ba, bd)]) by (rewrite <- !app_assoc; reflexivity).
          rewrite cell_app by (rewrite !app_length; cbn; lia).
          replace (Datatypes.S (Datatypes.S (length (A ++ B'')))) with (Datatypes.S (length (A ++ (xa, xd) :: B''))) by (rewrite !app_length; cbn; lia).
          rewrite cell_snoc. reflexivity. }
      rewrite PV. cbn [bind].
      rewrite ENL in S4.
      destruct (IH (placed cmp (xa, xd) done) s3 n) as (s' & E' & SS' & C' & I').
      * exact S4.
      * intros Y. rewrite Y in PL. discriminate.
      * cbn in H. lia.
      * rewrite C4, CN, !app_length, PL. cbn. lia.
      * rewrite PL in E'. cbn [Nat.sub] in E'. rewrite Nat.sub_0_r in E'.
        replace (cell (placed cmp (xa, xd) done) (Datatypes.S (length done))) with (LNext ba) in E'.
        2:{ rewrite EP, EB. replace (A ++ (xa, xd) :: B' ++ [(ba, bd)]) with ((A ++ (xa, xd) :: B') ++ [(ba, bd)]) by (rewrite <- app_assoc; reflexivity).
            replace (Datatypes.S (length done)) with (Datatypes.S (length (A ++ (xa, xd) :: B'))).
            - rewrite cell_snoc. reflexivity.
            - rewrite LD, <- ED', !app_length. cbn. lia. }
        exists s'. rewrite E'. repeat split; try congruence; try apply SS'.
        f_equal. f_equal. f_equal. cbn [length]. lia.
    + (* in place *)
      destruct (IH (done ++ [(xa, xd)]) s n) as (s' & E' & SS' & C' & I').
      * rewrite <- app_assoc. exact S.
      * destruct done; discriminate.
      * cbn in H. lia.
      * rewrite <- app_assoc. exact CN.
      * rewrite app_length in E'. cbn [length] in E'.
        replace (length done + 1 - 1) with (length done) in E' by lia.
        rewrite Nat.add_1_r, cell_snoc in E'.
        rewrite cell_app in E' by lia.
        rewrite cell_app_len, E'. exists s'. repeat split; auto; try apply SS'.
        f_equal. f_equal. f_equal. cbn [length]. lia.
Qed.

Lemma sort_ok cmp s l st : srep s l st ->
  exists s' l', list_sort s cmp = Ok s' /\ srep s' l' (fst (astep st (OSort cmp))).
Proof.
  intros R. pose proof R as ([S T CN] & AL & IT). unfold list_sort.
  cbn [astep fst]. rewrite CN, (srep_len _ _ _ R).
  destruct (Nat.ltb_spec 1 (length (a_list st))) as [GT|LE]; [|eauto].
  rewrite <- (srep_len _ _ _ R) in GT.
  destruct l as [|[a d] t]; [cbn in GT; lia|].
  cbn [rd]. rewrite (sh_head _ _ S). cbn [hd_or bind addr_next].
  destruct (sort_loop_ok cmp t [(a, d)] s (length ((a, d) :: t))) as (s1 & E1 & S1 & C1 & I1).
  - exact S.
  - discriminate.
  - cbn. lia.
  - exact CN.
  - cbn [length cell nth_error Nat.sub] in E1. rewrite <- (srep_len _ _ _ R). cbn [length]. rewrite E1. cbn [bind].
    exists (set_iters (set_tail s1 (cell (psort cmp [(a, d)] t) (1 + length t)))
        (map (fun i => mkIter (i_id i) (l_head s1) LHead) (l_iters s1))), (psort cmp [(a, d)] t).
    split; [reflexivity|]. split; [split|split].
    + apply shape_iters, shape_tail. exact S1.
    + cbn [l_tail set_iters set_tail]. rewrite psort_len. reflexivity.
    + cbn [l_count set_iters set_tail]. rewrite C1, CN, psort_len. reflexivity.
    + cbn [a_list]. rewrite psort_snd, <- AL. reflexivity.
    + cbn [l_iters set_iters a_its]. rewrite I1. unfold its_map. clear - IT S1.
      induction IT as [|i p is ps H F IH]; [constructor|]. cbn [map]. constructor; [|exact IH].
      unfold irep, kof. cbn. rewrite (sh_head _ _ S1). repeat split; auto; try lia; try discriminate. apply H.
Qed.

(** ** Refinement *)
Lemma skip_all_cell s l : rep s l -> l_tail s = cell (l ++ []) (length l).
Proof. intros R. rewrite app_nil_r. apply R. Qed.

Lemma step_ok s l st o :
  srep s l st -> op_valid (addrs l) (map fst (a_its st)) o ->
  exists s' l', lstep s o = Ok (s', snd (astep st o)) /\ srep s' l' (fst (astep st o)).
Proof.
  intros R V. pose proof R as ([S T CN] & AL & IT). pose proof (srep_len _ _ _ R) as LEN.
  assert (IDS : map i_id (l_iters s) = map fst (a_its st)) by (eapply its_ids; eauto).
  destruct o; cbn [lstep].
  - (* append *) unfold list_append. destruct a as [q|]; [|cbn; eauto].
    rewrite T.
    destruct (create_ok s l [] st x q) as (s' & E & R'); [rewrite app_nil_r; auto|rewrite app_nil_r; apply V; reflexivity|].
    rewrite app_nil_r in E. rewrite E. cbn [bind fst snd astep]. rewrite <- LEN. eauto.
  - unfold list_prepend. destruct a as [q|]; [|cbn; eauto].
    destruct (create_ok s [] l st x q) as (s' & E & R'); [auto|apply V; reflexivity|].
    cbn [length app cell] in E. rewrite E. cbn [bind fst snd astep]. eauto.
  - destruct (pop_ok _ _ _ R) as (s' & l' & E & R'). rewrite E. cbn [bind fst snd astep].
    destruct (a_list st) eqn:Q; cbn; eauto.
  - unfold list_peek. rewrite (sh_head _ _ S). cbn [astep fst snd]. rewrite <- AL.
    destruct l as [|[a d] t]; cbn [hd_or]; [cbn; eauto|].
    rewrite (node_mid s [] a d t S). cbn. eauto.
  - cbn. unfold list_count. rewrite CN, LEN. eauto.
  - cbn. unfold list_is_empty. rewrite CN, LEN. eauto.
  - unfold list_find_first. rewrite (sh_head _ _ S), CN.
    rewrite (find_first_ok s f [] l) by (auto; lia). cbn [bind astep fst snd]. rewrite AL. eauto.
  - unfold list_delete_all. rewrite CN.
    destruct (delete_all_ok f l (Datatypes.S (length l)) s [] st) as (s' & l' & E & R'); [auto|lia|].
    cbn [length app cell] in E. rewrite E. cbn [bind astep fst snd]. rewrite AL, <- LEN. cbn in R'. eauto.
  - destruct (sort_ok cmp _ _ _ R) as (s' & l' & E & R'). rewrite E. cbn [bind]. exists s', l'.
    split; [reflexivity|exact R'].
  - cbn. eexists _, l. split; [reflexivity|]. split; [split|split]; auto.
    + apply shape_iters; auto.
    + cbn. constructor; [|exact IT]. unfold irep, kof. cbn. rewrite (sh_head _ _ S).
      repeat split; auto; try lia; discriminate.
  - unfold list_iterator_reset. cbn [op_valid] in V. rewrite <- IDS in V.
    destruct (find_iter_rep _ _ _ _ IT V) as (i & c & E1 & E2 & _). rewrite E1. cbn [bind astep fst snd].
    eexists _, l. split; [reflexivity|].
    change id with (i_id (mkIter id (l_head s) LHead)) at 2. apply put_rep; auto.
    unfold irep, kof. cbn. rewrite (sh_head _ _ S). repeat split; auto; try lia; discriminate.
  - unfold list_iterator_destroy. cbn [op_valid] in V. rewrite <- IDS in V.
    destruct (find_iter_rep _ _ _ _ IT V) as (i & c & E1 & E2 & _). rewrite E1. cbn [bind astep fst snd].
    eexists _, l. split; [reflexivity|]. split; [split|split]; auto.
    + apply shape_iters; auto.
    + cbn. clear - IT. induction IT as [|i [k c] is ps H F IH]; [constructor|]. cbn [filter fst].
      pose proof (proj1 H) as A. cbn in A. rewrite A. destruct (negb (k =? id)); [constructor; auto|exact IH].
  - cbn [op_valid] in V. rewrite <- IDS in V.
    destruct (next_ok _ _ _ _ R V) as (c & s' & E2 & E & R' & _). rewrite E. cbn [bind astep fst snd].
    unfold with_iter. rewrite E2. destruct (advance (a_list st) c) as [c1 v]. cbn. eauto.
  - cbn [op_valid] in V. destruct V as [V1 V2]. rewrite <- IDS in V1.
    destruct (find_iter_rep _ _ _ _ IT V1) as (i & c & E1 & E2 & (A & B & P & Q & F)). cbn [fst snd] in *.
    unfold list_insert. rewrite E1. cbn [bind].
    destruct a as [q|]; [|cbn; eauto].
    cbn [astep]. unfold with_iter. rewrite E2.
    pose proof (kof_le c l Q) as K.
    rewrite <- (firstn_skipn (kof c) l) in R.
    destruct (create_ok _ _ _ _ x q R) as (s' & E & R').
    { rewrite firstn_skipn. apply V2. reflexivity. }
    rewrite firstn_skipn, firstn_length_le in E by lia.
    rewrite firstn_length_le in R' by lia.
    rewrite B, E. cbn [bind fst snd]. unfold kof in R'. eauto.
  - cbn [op_valid] in V. rewrite <- IDS in V.
    destruct (find_iter_rep _ _ _ _ IT V) as (i & c & E1 & E2 & _).
    unfold list_find. rewrite CN, LEN.
    destruct (find_ok (length (a_list st)) s l st id f c R V E2) as (s' & E & R'); [lia|].
    rewrite E. cbn [bind fst snd astep]. unfold with_iter. rewrite E2.
    destruct (seek (length (a_list st)) f (a_list st) c) as [c1 v]. cbn. eauto.
  - cbn [op_valid] in V. rewrite <- IDS in V.
    destruct (find_iter_rep _ _ _ _ IT V) as (i & c & E1 & E2 & (A & B & P & Q & F)). cbn [fst snd] in *.
    unfold list_remove. rewrite E1. cbn [bind astep]. unfold with_iter. rewrite E2.
    pose proof (kof_le c l Q) as K.
    rewrite B, (rd_cell' s l) by auto. cbn [bind]. rewrite P.
    destruct (c_cur c) eqn:CC.
    + specialize (F eq_refl).
      destruct (ptr_eqb _ _) eqn:Y.
      { apply ptr_eqb_eq in Y. apply hd_or_inj in Y; [|apply S|auto|auto]. unfold kof in Y. rewrite CC in Y. lia. }
      assert (KK : kof c = c_pos c - 1) by (unfold kof; rewrite CC; reflexivity).
      destruct (nth_error l (c_pos c - 1)) as [[a d]|] eqn:K'; [|apply nth_error_None in K'; lia].
      destruct (split_at _ _ _ K') as [SP LF].
      rewrite SP in R. destruct (destroy_ok _ _ _ _ _ _ R) as (s' & E & R').
      rewrite <- SP, LF in E. rewrite LF in R'. rewrite KK, E. cbn [bind fst snd].
      assert (NV : nth_error (a_list st) (c_pos c - 1) = Some d) by (rewrite <- AL, nth_error_map, K'; reflexivity).
      rewrite NV. eauto.
    + replace (kof c) with (c_pos c) by (unfold kof; rewrite CC; lia).
      rewrite (proj2 (ptr_eqb_eq _ _) eq_refl). cbn. eauto.
Qed.

Lemma run_ok os : forall s l st, srep s l st -> run_valid s os ->
  exists s' l', lrun s os = Ok (s', snd (arun st os)) /\ srep s' l' (fst (arun st os)).
Proof.
  induction os as [|o os IH]; intros s l st R V; [cbn; eauto|].
  cbn [run_valid] in V. destruct V as [V1 V2].
  pose proof R as (RP & AL & IT). rewrite (nodes_of_rep _ _ RP), (its_ids _ _ _ IT) in V1.
  destruct (step_ok _ _ _ _ R V1) as (s1 & l1 & E1 & R1).
  cbn [lrun arun]. rewrite E1 in *. cbn [bind fst snd].
  destruct (astep st o) as [st1 r1]. cbn [fst snd] in *.
  destruct (IH _ _ _ R1 V2) as (s2 & l2 & E2 & R2). rewrite E2. cbn [bind fst snd].
  destruct (arun st1 os) as [st2 r2]. cbn in *. eauto.
Qed.

(** ** Destroying the list *)
Lemma destroy_loop_ok l : forall n h, NoDup (addrs l) -> (forall b, h b = seg l None b) -> length l < n ->
  exists h', destroy_loop n h (hd_or l None) = Ok (h', map snd l) /\ (forall b, h' b = None).
Proof.
  induction l as [|[a d] t IH]; intros n h N HP H; (destruct n; [cbn in H; lia|]); cbn [destroy_loop hd_or].
  - exists h. split; [reflexivity|]. exact HP.
  - unfold node. rewrite HP. cbn [seg]. rewrite Nat.eqb_refl. cbn [bind fst snd].
    cbn in N. inversion N; subst.
    destruct (IH n (upd h a None)) as (h' & E & Z); auto.
    + intros b. unfold upd. rewrite HP. cbn [seg]. destruct (Nat.eqb_spec b a) as [->|]; [|reflexivity].
      rewrite seg_notin; auto.
    + cbn in H. lia.
    + rewrite E. cbn. eauto.
Qed.
End P.

Section Q.
Context {D : Type}.
Notation L := (list (nat * D)).

Lemma elems_rep (s : lst (D:=D)) l : rep s l -> elems s = map snd l.
Proof.
  intros [S T C]. unfold elems. rewrite C, (sh_head _ _ S).
  assert (G : forall l1 l2, l = l1 ++ l2 -> elems_from (length l2) (l_heap s) (hd_or l2 None) = map snd l2).
  { intros l1 l2. revert l1. induction l2 as [|[a d] t IH]; intros l1 ->; [reflexivity|].
    cbn [length hd_or elems_from]. rewrite (sh_heap _ _ S), seg_mid by apply S. cbn [map snd]. f_equal.
    apply (IH (l1 ++ [(a, d)])). rewrite <- app_assoc. reflexivity. }
  apply (G [] l eq_refl).
Qed.

(** ** Traversals *)
Lemma a_find_map f id is : a_find id (its_map f is) = option_map f (a_find id is).
Proof. induction is as [|[j c] t IH]; cbn; [reflexivity|]. destruct (j =? id); [reflexivity|exact IH]. Qed.

Lemma a_find_put id id' c is :
  a_find id (map (fun p => if fst p =? id' then (id', c) else p) is) =
  if id =? id' then (match a_find id is with Some _ => Some c | None => None end) else a_find id is.
Proof.
  induction is as [|[j e] t IH]; cbn [map a_find fst].
  - destruct (id =? id'); reflexivity.
  - destruct (Nat.eqb_spec j id') as [->|N1]; cbn [fst].
    + destruct (Nat.eqb_spec id' id) as [->|N2].
      * rewrite Nat.eqb_refl. reflexivity.
      * rewrite IH. destruct (Nat.eqb_spec id id'); [congruence|reflexivity].
    + destruct (Nat.eqb_spec j id) as [->|N2].
      * destruct (Nat.eqb_spec id id'); [congruence|reflexivity].
      * exact IH.
Qed.

Lemma skipn_insert k j (x : D) l : j <= k -> j <= length l -> skipn (S k) (insert_at j x l) = skipn k l.
Proof.
  intros A B. unfold insert_at. rewrite skipn_app, firstn_length_le by lia.
  rewrite skipn_all2 by (rewrite firstn_length_le; lia). cbn [app].
  replace (S k - j) with (S (k - j)) by lia. cbn [skipn]. rewrite skipn_skipn_add. f_equal. lia.
Qed.

Lemma filter_insert (P : D -> bool) k j (x : D) l : k <= j -> j <= length l -> P x = false ->
  filter P (skipn k (insert_at j x l)) = filter P (skipn k l).
Proof.
  intros A B HP. unfold insert_at. rewrite skipn_app, firstn_length_le by lia.
  replace (k - j) with 0 by lia. cbn [skipn].
  replace (skipn k l) with (skipn k (firstn j l) ++ skipn j l).
  - rewrite !filter_app. cbn [filter]. rewrite HP. reflexivity.
  - rewrite <- (firstn_skipn j l) at 3. rewrite skipn_app, firstn_length_le by lia.
    replace (k - j) with 0 by lia. reflexivity.
Qed.

Lemma left_insert (P : D -> bool) j x l c : j <= length l -> P x = false ->
  filter P (skipn (c_pos (cur_insert j c)) (insert_at j x l)) = filter P (skipn (c_pos c) l).
Proof.
  intros A HP. unfold cur_insert. destruct (c_cur c).
  - destruct (Nat.ltb_spec j (c_pos c)); cbn [c_pos].
    + rewrite skipn_insert by lia. reflexivity.
    + apply filter_insert; auto; lia.
  - destruct (Nat.leb_spec j (c_pos c)); cbn [c_pos].
    + rewrite skipn_insert by lia. reflexivity.
    + apply filter_insert; auto; lia.
Qed.

Lemma skipn_remove k j (l : list D) : j <= k -> j < length l -> skipn k (remove_at j l) = skipn (S k) l.
Proof.
  intros A B. unfold remove_at. rewrite skipn_app, firstn_length_le by lia.
  rewrite skipn_all2 by (rewrite firstn_length_le; lia). cbn [app].
  rewrite skipn_skipn_add. f_equal. lia.
Qed.

Lemma left_remove (P : D -> bool) j d l c : nth_error l j = Some d -> P d = false ->
  filter P (skipn (c_pos (cur_remove j c)) (remove_at j l)) = filter P (skipn (c_pos c) l).
Proof.
  intros A HP. assert (B : j < length l) by (apply nth_error_Some; congruence).
  assert (H1 : skipn j l = d :: skipn (S j) l).
  { destruct (split_at _ _ _ A) as [SP LF]. rewrite SP at 1.
    replace j with (length (firstn j l) + 0) at 1 by lia. rewrite skipn_app_len. reflexivity. }
  unfold cur_remove. destruct (Nat.eqb_spec (S j) (c_pos c)) as [X|X]; cbn [c_pos].
  - rewrite skipn_remove by lia. rewrite X. reflexivity.
  - destruct (Nat.ltb_spec j (c_pos c)); cbn [c_pos].
    + rewrite skipn_remove by lia. replace (S (c_pos c - 1)) with (c_pos c) by lia. reflexivity.
    + destruct (Nat.eqb_spec j (c_pos c)) as [Y|Y]; cbn [c_pos].
      * rewrite skipn_remove by lia. rewrite <- Y, H1. cbn [filter]. rewrite HP. reflexivity.
      * unfold remove_at. rewrite skipn_app, firstn_length_le by lia.
        replace (c_pos c - j) with 0 by lia. cbn [skipn].
        replace (skipn (c_pos c) l) with (skipn (c_pos c) (firstn j l) ++ skipn j l).
        -- rewrite !filter_app, H1. cbn [filter]. rewrite HP. reflexivity.
        -- rewrite <- (firstn_skipn j l) at 3. rewrite skipn_app, firstn_length_le by lia.
           replace (c_pos c - j) with 0 by lia. reflexivity.
Qed.

Definition left (P : D -> bool) (id : nat) (st : alist (D:=D)) : option (list D) :=
  option_map (fun c => filter P (skipn (c_pos c) (a_list st))) (a_find id (a_its st)).

Lemma left_a_insert P id st j x r : left P id st = Some r -> j <= length (a_list st) -> P x = false ->
  left P id (a_insert j x st) = Some r.
Proof.
  unfold left. cbn [a_insert a_its a_list]. rewrite a_find_map.
  destruct (a_find id (a_its st)) as [c|]; cbn; [|discriminate]. intros E A HP. rewrite left_insert; auto.
Qed.

Lemma left_a_remove P id st j d r : left P id st = Some r -> nth_error (a_list st) j = Some d -> P d = false ->
  left P id (a_remove j st) = Some r.
Proof.
  unfold left. cbn [a_remove a_its a_list]. rewrite a_find_map.
  destruct (a_find id (a_its st)) as [c|]; cbn; [|discriminate]. intros E A HP. rewrite (left_remove P j d); auto.
Qed.

Lemma left_delete_all P id f n : forall j st r,
  left P id st = Some r -> (forall d, In d (a_list st) -> f d = true -> P d = false) ->
  left P id (a_delete_all n j f st) = Some r.
Proof.
  induction n as [|n IH]; intros j st r E H; cbn [a_delete_all]; [exact E|].
  destruct (nth_error (a_list st) j) as [d|] eqn:Q; [|exact E].
  destruct (f d) eqn:F; [|auto]. apply IH.
  - eapply left_a_remove; eauto. eapply H; eauto. eapply nth_error_In; eauto.
  - intros e He. apply H. cbn [a_remove a_list] in He. unfold remove_at in He.
    apply in_app_or in He. destruct He as [He|He].
    + rewrite <- (firstn_skipn j). apply in_or_app. auto.
    + rewrite <- (firstn_skipn (S j)). apply in_or_app. auto.
Qed.

Lemma srep_cur (s : lst (D:=D)) l st id c : srep s l st -> a_find id (a_its st) = Some c ->
  c_pos c <= length (a_list st) /\ (c_cur c = true -> 1 <= c_pos c).
Proof.
  intros R E. rewrite <- (srep_len _ _ _ R). destruct R as (_ & _ & IT).
  induction IT as [|i [j e] is ps H F IH]; cbn in E; [discriminate|].
  destruct (j =? id).
  - injection E as ->. split; apply H.
  - auto.
Qed.

Definition got (id : nat) (o : lop (D:=D)) (r : lret) : list D := delivered id [o] [r].

Lemma left_step P id (s : lst (D:=D)) l st o r0 :
  srep s l st -> left P id st = Some r0 -> undisturbed P id o (snd (astep st o)) ->
  exists r1, left P id (fst (astep st o)) = Some r1 /\ r0 = filter P (got id o (snd (astep st o))) ++ r1 /\
    (o = ONext id -> snd (astep st o) = RVal None -> r0 = []).
Proof.
  intros R E U.
  assert (TRIV : forall st', left P id st' = Some r0 -> got id o (snd (astep st o)) = [] -> o <> ONext id ->
     exists r1, left P id st' = Some r1 /\ r0 = filter P (got id o (snd (astep st o))) ++ r1 /\
       (o = ONext id -> snd (astep st o) = RVal None -> r0 = [])).
  { intros st' E' G N. exists r0. rewrite G. repeat split; auto. congruence. }
  destruct o; cbn [undisturbed] in U.
  - apply TRIV; [|reflexivity|discriminate]. cbn [astep]. destruct a; [|exact E]. cbn [fst].
    apply left_a_insert; auto.
  - apply TRIV; [|reflexivity|discriminate]. cbn [astep]. destruct a; [|exact E]. cbn [fst].
    apply left_a_insert; auto. lia.
  - apply TRIV; [|reflexivity|discriminate]. cbn [astep] in *. destruct (a_list st) as [|d t] eqn:Q; [exact E|].
    cbn [fst snd] in *. eapply left_a_remove; eauto; rewrite Q; reflexivity.
  - apply TRIV; [exact E|reflexivity|discriminate].
  - apply TRIV; [exact E|reflexivity|discriminate].
  - apply TRIV; [exact E|reflexivity|discriminate].
  - apply TRIV; [exact E|reflexivity|discriminate].
  - apply TRIV; [|reflexivity|discriminate]. cbn [astep fst snd] in *. apply left_delete_all; auto.
    specialize (U _ eq_refl). rewrite Forall_forall in U. intros d Hd F. apply U. apply filter_In. auto.
  - contradiction.
  - apply TRIV; [|reflexivity|discriminate]. cbn. unfold left in *. cbn [a_its a_list a_find] in *.
    destruct (Nat.eqb_spec id0 id); [congruence|exact E].
  - apply TRIV; [|reflexivity|discriminate]. cbn. unfold left in *. cbn [a_its a_list a_put] in *.
    rewrite a_find_put. destruct (Nat.eqb_spec id id0); [congruence|exact E].
  - apply TRIV; [|reflexivity|discriminate]. cbn. unfold left in *. cbn [a_its a_list a_put] in *.
    revert E. assert (G : a_find id (filter (fun p => negb (fst p =? id0)) (a_its st)) = a_find id (a_its st)).
    { clear - U. induction (a_its st) as [|[j c] t IH]; cbn; [reflexivity|].
      destruct (Nat.eqb_spec j id0); cbn.
      - destruct (Nat.eqb_spec j id); [congruence|exact IH].
      - destruct (j =? id); [reflexivity|exact IH]. }
    rewrite G. auto.
  - (* next *) cbn [astep]. unfold with_iter.
    destruct (Nat.eq_dec id0 id) as [->|N].
    + unfold left in *. destruct (a_find id (a_its st)) as [c|] eqn:F; [|discriminate]. cbn [option_map] in E.
      injection E as <-. unfold advance. 
      destruct (srep_cur _ _ _ _ _ R F) as [LE _].
      destruct (nth_error (skipn (c_pos c) (a_list st)) 0) as [d|] eqn:Q; cbn [fst snd a_put a_its a_list].
      * rewrite a_find_put, Nat.eqb_refl, F. cbn [option_map c_pos]. eexists. split; [reflexivity|].
        split; [|discriminate]. unfold got. cbn [delivered]. rewrite Nat.eqb_refl.
        rewrite skipn_nth_hd in Q. destruct (split_at _ _ _ Q) as [SP LF]. rewrite SP at 1.
        replace (c_pos c) with (length (firstn (c_pos c) (a_list st)) + 0) at 1 by lia.
        rewrite skipn_app_len. cbn [skipn]. rewrite <- filter_app. reflexivity.
      * rewrite a_find_put, Nat.eqb_refl, F. cbn [option_map c_pos].
        destruct (skipn (c_pos c) (a_list st)); [|discriminate]. exists []. cbn. auto.
    + assert (G : forall (st' : alist (D:=D)) r, left P id st' = Some r0 -> 
        exists r1, left P id st' = Some r1 /\ r0 = filter P (got id (ONext id0) r) ++ r1 /\
          (ONext (D:=D) id0 = ONext id -> r = RVal None -> r0 = [])).
      { intros st' r E'. exists r0. split; [exact E'|]. split.
        - unfold got. cbn. destruct r; try reflexivity. destruct v; [|reflexivity].
          destruct (Nat.eqb_spec id0 id); [congruence|reflexivity].
        - intros X. injection X as X. congruence. }
      destruct (a_find id0 (a_its st)) as [c|]; cbn [fst snd]; [|apply G; exact E].
      destruct (advance (a_list st) c) as [c1 v]. cbn [fst snd]. apply G.
      unfold left in *. cbn [a_put a_its a_list]. rewrite a_find_put.
      destruct (Nat.eqb_spec id id0); [congruence|exact E].
  - apply TRIV; [|destruct a; cbn; unfold with_iter; [destruct (a_find id0 (a_its st))|]; reflexivity|discriminate].
    cbn [astep]. destruct a; [|exact E]. unfold with_iter.
    destruct (a_find id0 (a_its st)) as [c|] eqn:F; [|exact E]. cbn [fst].
    destruct (srep_cur _ _ _ _ _ R F) as [LE _]. apply left_a_insert; auto. lia.
  - apply TRIV; [|reflexivity|discriminate]. cbn [astep]. unfold with_iter.
    destruct (a_find id0 (a_its st)) as [c|] eqn:F; [|exact E].
    destruct (seek _ _ _ c) as [c1 v]. cbn [fst]. unfold left in *. cbn [a_put a_its a_list]. rewrite a_find_put.
    destruct (Nat.eqb_spec id id0); [congruence|exact E].
  - apply TRIV; [|reflexivity|discriminate]. cbn [astep] in *. unfold with_iter in *.
    destruct (a_find id0 (a_its st)) as [c|] eqn:F; [|exact E].
    destruct (c_cur c) eqn:C; [|exact E]. cbn [fst snd] in *.
    destruct (srep_cur _ _ _ _ _ R F) as [LE G]. specialize (G C).
    destruct (nth_error (a_list st) (c_pos c - 1)) as [d|] eqn:Q; [|apply nth_error_None in Q; lia].
    eapply left_a_remove; eauto.
Qed.

Lemma delivered_cons id o os r rs : delivered (D:=D) id (o :: os) (r :: rs) = got id o r ++ delivered id os rs.
Proof.
  unfold got. destruct o; try reflexivity. cbn. destruct r; try reflexivity. destruct v; [|reflexivity].
  destruct (id0 =? id); reflexivity.
Qed.

Lemma left_run P id os : forall (s : lst (D:=D)) l st r0,
  srep s l st -> run_valid s os -> left P id st = Some r0 ->
  Forall2 (undisturbed P id) os (snd (arun st os)) ->
  exists s' l' r1, srep s' l' (fst (arun st os)) /\ left P id (fst (arun st os)) = Some r1 /\
    r0 = filter P (delivered id os (snd (arun st os))) ++ r1.
Proof.
  induction os as [|o os IH]; intros s l st r0 R V E U.
  - cbn. exists s, l, r0. auto.
  - cbn [run_valid] in V. destruct V as [V1 V2].
    pose proof R as (RP & AL & IT). rewrite (nodes_of_rep _ _ RP), (its_ids _ _ _ IT) in V1.
    destruct (step_ok _ _ _ _ R V1) as (s1 & l1 & E1 & R1). rewrite E1 in V2.
    cbn [arun] in *.
    destruct (astep st o) as [st1 x1] eqn:AS. destruct (arun st1 os) as [st2 x2] eqn:AR.
    cbn [fst snd] in *. inversion U as [|? ? ? ? U1 U2]; subst.
    pose proof (left_step P id s l st o r0 R E) as LS. rewrite AS in LS. cbn [fst snd] in LS.
    destruct (LS U1) as (r1 & E2 & Q & _).
    specialize (IH s1 l1 st1 r1 R1 V2 E2). rewrite AR in IH. cbn [fst snd] in IH.
    destruct (IH U2) as (s' & l' & r2 & R2 & E3 & Q2).
    exists s', l', r2. repeat split; auto; try apply R2.
    rewrite delivered_cons, filter_app, <- app_assoc, <- Q2. exact Q.
Qed.

(** ** Sorting *)
Lemma place_perm (cmp : D -> D -> Z) d l : Permutation (d :: l) (place cmp d l).
Proof.
  induction l as [|x t IH]; cbn; [auto|]. destruct (_ <? _)%Z; [auto|].
  rewrite perm_swap. constructor. exact IH.
Qed.

Lemma isort_perm (cmp : D -> D -> Z) todo : forall done, Permutation (done ++ todo) (isort cmp done todo).
Proof.
  induction todo as [|x t IH]; intros done; cbn [isort]; [rewrite app_nil_r; auto|].
  unfold last_opt. destruct (nth_error done (length done - 1)) eqn:Q.
  - destruct (_ <? _)%Z; rewrite <- IH.
    + rewrite <- (place_perm cmp x done). rewrite <- Permutation_middle. reflexivity.
    + rewrite <- app_assoc. reflexivity.
  - rewrite <- IH. apply nth_error_None in Q. destruct done; [reflexivity|cbn in Q; lia].
Qed.

Lemma place_sorted (cmp : D -> D -> Z) d l : preorder cmp ->
  StronglySorted (in_order cmp) l -> StronglySorted (in_order cmp) (place cmp d l).
Proof.
  intros [PA PT]. induction l as [|x t IH]; intros S; cbn; [repeat constructor|].
  inversion S as [|? ? S1 S2]; subst. destruct (Z.ltb_spec (cmp d x) 0).
  - constructor; [exact S|]. rewrite Forall_forall in *. intros y [<-|Hy].
    + apply PA. exact H.
    + unfold in_order in *. eapply (PT d x y); [apply PA; exact H|apply S2; exact Hy].
  - constructor; [auto|]. rewrite Forall_forall in *. intros y Hy.
    apply (Permutation_in y (Permutation_sym (place_perm cmp d t))) in Hy. destruct Hy as [<-|Hy]; auto.
    unfold in_order. lia.
Qed.

Lemma snoc_sorted (R : D -> D -> Prop) l x : StronglySorted R l -> (forall y, In y l -> R y x) -> StronglySorted R (l ++ [x]).
Proof.
  induction l as [|y t IH]; intros S H; cbn; [repeat constructor|].
  inversion S; subst. constructor; [apply IH; auto; intros; apply H; right; auto|].
  rewrite Forall_forall in *. intros z Hz. apply in_app_or in Hz. destruct Hz as [Hz|[<-|[]]]; auto.
  apply H. left. reflexivity.
Qed.

Lemma sorted_last (cmp : D -> D -> Z) l y x : preorder cmp -> StronglySorted (in_order cmp) l ->
  last_opt l = Some y -> in_order cmp y x -> forall z, In z l -> in_order cmp z x.
Proof.
  intros [PA PT] S LO H z Hz. unfold last_opt in LO.
  destruct (list_last_split l) as [->|(l' & w & ->)]; [contradiction|].
  rewrite app_length in LO. cbn [length] in LO. replace (length l' + 1 - 1) with (length l') in LO by lia.
  rewrite nth_error_app_len in LO. injection LO as ->.
  apply in_app_or in Hz. destruct Hz as [Hz|[<-|[]]]; auto.
  assert (in_order cmp z y).
  { clear - S Hz. induction l' as [|a t IH]; [contradiction|]. cbn in S. inversion S; subst.
    destruct Hz as [<-|Hz]; auto. rewrite Forall_forall in H2. apply H2. apply in_or_app. right. cbn. auto. }
  unfold in_order in *. eapply (PT z y x); auto.
Qed.

Lemma place_stable (cmp : D -> D -> Z) k d l : preorder cmp -> StronglySorted (in_order cmp) l ->
  filter (same_as cmp k) (place cmp d l) = filter (same_as cmp k) (l ++ [d]).
Proof.
  intros [PA PT]. induction l as [|x t IH]; intros S; cbn [place app]; [reflexivity|].
  inversion S as [|? ? S1 S2]; subst. destruct (Z.ltb_spec (cmp d x) 0).
  2:{ cbn [filter]. rewrite IH by auto. reflexivity. }
  destruct (same_as cmp k d) eqn:Q.
  - assert (G : filter (same_as cmp k) (x :: t) = []).
    { assert (N : forall z, In z (x :: t) -> same_as cmp k z = false).
      { intros z Hz. destruct (same_as cmp k z) eqn:Q2; auto. exfalso.
        unfold same_as in Q, Q2. apply andb_prop in Q, Q2. destruct Q as [Qa Qb], Q2 as [Qc Qd].
        apply Z.leb_le in Qa, Qb, Qc, Qd.
        assert (X : ~ (cmp z x < 0)%Z).
        { destruct Hz as [<-|Hz]; [intro; eapply (PA x x); eauto|].
          rewrite Forall_forall in S2. apply (S2 z Hz). }
        assert (Y : ~ (cmp k x < 0)%Z) by (eapply (PT x z k); auto; lia).
        apply (PT x k d Y); lia. }
      clear - N. induction (x :: t) as [|a u IH]; [reflexivity|]. cbn. rewrite N by (cbn; auto). apply IH.
      intros; apply N; cbn; auto. }
    change (d :: x :: t) with ([d] ++ (x :: t)). change (x :: t ++ [d]) with ((x :: t) ++ [d]).
    rewrite !filter_app, G, app_nil_r. reflexivity.
  - change (x :: t ++ [d]) with ((x :: t) ++ [d]). rewrite filter_app. cbn [filter]. rewrite Q, app_nil_r. reflexivity.
Qed.

Lemma isort_ok (cmp : D -> D -> Z) todo : preorder cmp -> forall done, StronglySorted (in_order cmp) done ->
  StronglySorted (in_order cmp) (isort cmp done todo) /\
  forall k, filter (same_as cmp k) (isort cmp done todo) = filter (same_as cmp k) (done ++ todo).
Proof.
  intros PO. induction todo as [|x t IH]; intros done S; cbn [isort].
  - rewrite app_nil_r. auto.
  - destruct (last_opt done) as [y|] eqn:Q.
    + destruct (Z.ltb_spec (cmp x y) 0).
      * destruct (IH _ (place_sorted cmp x done PO S)) as [A B]. split; [exact A|]. intros k.
        rewrite B, filter_app, place_stable, <- filter_app, <- app_assoc by auto. reflexivity.
      * assert (S' : StronglySorted (in_order cmp) (done ++ [x])).
        { apply snoc_sorted; auto. eapply sorted_last; eauto. unfold in_order. lia. }
        destruct (IH _ S') as [A B]. split; [exact A|]. intros k. rewrite B, <- app_assoc. reflexivity.
    + assert (done = []) as ->.
      { unfold last_opt in Q. apply nth_error_None in Q. destruct done; [reflexivity|cbn in Q; lia]. }
      destruct (IH [x]) as [A B]; [repeat constructor|]. auto.
Qed.
End Q.

(** ** The allocator *)
Record al_inv (s : allocator) (used : list nat) : Prop := {
  ai_nd : NoDup (al_free s);
  ai_dj : forall p, In p (al_free s) -> ~ In p used;
  ai_lt : forall p, In p (al_free s) \/ In p used -> p < al_brk s }.

Lemma al_ok os : forall s used, al_inv s used -> al_run s used os.
Proof.
  induction os as [|[ok|p] os IH]; intros s used [N DJ LT]; cbn [al_run]; auto.
  - unfold node_alloc. destruct (al_free s) as [|q qs] eqn:Q.
    + destruct ok.
      * change (seq (al_brk s) LIST_ALLOC) with (al_brk s :: seq (S (al_brk s)) 9). cbn [al_free al_brk].
        assert (NU : ~ In (al_brk s) used) by (intros X; specialize (LT _ (or_intror X)); lia).
        split; [exact NU|]. apply IH. split; cbn [al_free al_brk].
        -- apply seq_NoDup.
        -- intros p Hp. apply in_seq in Hp. intros [<-|X]; [lia|]. specialize (LT _ (or_intror X)). lia.
        -- intros p [Hp|[<-|Hp]]; [apply in_seq in Hp|..]; unfold LIST_ALLOC; try lia. specialize (LT _ (or_intror Hp)). lia.
      * rewrite Q. split; [reflexivity|]. apply IH. split; rewrite ?Q; auto.
    + rewrite Q. split; [apply DJ; left; reflexivity|]. inversion N; subst. apply IH. split; cbn [al_free al_brk].
      * assumption.
      * intros p Hp [<-|X]; [auto|]. apply (DJ p); [right; exact Hp|exact X].
      * intros p [Hp|[<-|Hp]]; apply LT; cbn; auto.
  - intros Hp. apply IH. unfold node_free. split; cbn [al_free al_brk].
    + constructor; [|exact N]. intros X. exact (DJ _ X Hp).
    + intros q [<-|Hq]; [apply remove_In|]. intros X. apply in_remove in X. apply (DJ q Hq), X.
    + intros q [[<-|Hq]|Hq]; apply LT; auto. right. apply in_remove in Hq. apply Hq.
Qed.
