(** Proofs for PoolProps. *)
From Verif Require Import Base BaseProof ListModel ListSpec ListProof PoolModel PoolSpec.
From Coq Require Import Permutation.

(** ** A list does the same in a larger memory *)
Section Frame.
Context {D : Type}.
Notation lst := (@lst D).
Notation heap := (@heap D).
Variables (F : heap) (dom : nat -> Prop).

(** [lb] is [l] in a memory that also contains [F]; the nodes of [l] are in [dom] *)
Record fr (l lb : lst) : Prop := {
  fr_head : l_head lb = l_head l;
  fr_tail : l_tail lb = l_tail l;
  fr_count : l_count lb = l_count l;
  fr_iters : l_iters lb = l_iters l;
  fr_heap : forall b, l_heap lb b = match l_heap l b with Some n => Some n | None => F b end;
  fr_dj : forall b n, F b = Some n -> l_heap l b = None;
  fr_dom : forall b n, l_heap l b = Some n -> dom b }.

Lemma bind_ok {A B} (r : res A) (f : A -> res B) y : (do x <- r; f x) = Ok y -> exists x, r = Ok x /\ f x = Ok y.
Proof. destruct r; cbn; [eauto|discriminate]. Qed.

Lemma node_fr l lb a n : fr l lb -> node (l_heap l) a = Ok n -> node (l_heap lb) a = Ok n.
Proof. intros R. unfold node. rewrite (fr_heap _ _ R). destruct (l_heap l a); [auto|discriminate]. Qed.
Lemma deref_fr l lb p n : fr l lb -> deref (l_heap l) p = Ok n -> deref (l_heap lb) p = Ok n.
Proof. intros R. destruct p; cbn; [apply node_fr; exact R|auto]. Qed.
Lemma rd_fr l lb x q : fr l lb -> rd l x = Ok q -> rd lb x = Ok q.
Proof.
  intros R. destruct x; cbn [rd]; [rewrite (fr_head _ _ R); auto|].
  intros H. apply bind_ok in H. destruct H as (n & N & H). rewrite (node_fr _ _ _ _ R N). exact H.
Qed.
Lemma upd_fr l lb a v : fr l lb -> F a = None -> (v <> None -> dom a) ->
  fr (set_heap l (upd (l_heap l) a v)) (set_heap lb (upd (l_heap lb) a v)).
Proof.
  intros [A B C E G H K] N I. split; cbn [set_heap l_head l_tail l_count l_iters l_heap]; auto.
  - intros b. unfold upd. destruct (Nat.eqb_spec b a) as [->|]; [|auto]. destruct v; auto.
  - intros b n Q. unfold upd. destruct (Nat.eqb_spec b a) as [->|]; [congruence|eauto].
  - intros b n. unfold upd. destruct (Nat.eqb_spec b a) as [->|]; [|apply K]. intros ->. apply I. discriminate.
Qed.
Lemma in_l l lb a n : fr l lb -> node (l_heap l) a = Ok n -> F a = None /\ dom a.
Proof.
  intros R. unfold node. destruct (l_heap l a) as [m|] eqn:E; [|discriminate]. intros _. split; [|eapply fr_dom; eauto].
  destruct (F a) eqn:Q; [|reflexivity]. rewrite (fr_dj _ _ R _ _ Q) in E. discriminate.
Qed.
Lemma wr_fr l lb x v l' : fr l lb -> wr l x v = Ok l' -> exists lb', wr lb x v = Ok lb' /\ fr l' lb'.
Proof.
  intros R. destruct x; cbn [wr].
  - intros H. injection H as <-. eexists. split; [reflexivity|]. destruct R. split; cbn; auto.
  - intros H. apply bind_ok in H. destruct H as (n & N & H). injection H as <-.
    rewrite (node_fr _ _ _ _ R N). cbn [bind]. destruct (in_l _ _ _ _ R N) as [I J]. eexists. split; [reflexivity|].
    exact (upd_fr _ _ a (Some (fst n, v)) R I (fun _ => J)).
Qed.
Lemma tail_fr l lb t : fr l lb -> fr (set_tail l t) (set_tail lb t).
Proof. intros []. split; cbn; auto. Qed.
Lemma count_fr l lb n : fr l lb -> fr (set_count l n) (set_count lb n).
Proof. intros []. split; cbn; auto. Qed.
Lemma iters_fr l lb i : fr l lb -> fr (set_iters l i) (set_iters lb i).
Proof. intros []. split; cbn; auto. Qed.

Lemma iter_assert_fr l lb i u : fr l lb -> iter_assert l i = Ok u -> iter_assert lb i = Ok u.
Proof.
  intros R. unfold iter_assert. intros H. apply bind_ok in H. destruct H as (q & Q & H). rewrite (rd_fr _ _ _ _ R Q). cbn [bind].
  destruct (ptr_eqb (i_pos i) q); [exact H|]. apply bind_ok in H. destruct H as (n & N & H). rewrite (deref_fr _ _ _ _ R N). exact H.
Qed.
Lemma iters_assert_fr l lb is u : fr l lb -> iters_assert l is = Ok u -> iters_assert lb is = Ok u.
Proof.
  intros R. revert u. induction is as [|i is IH]; intros u; cbn [iters_assert]; [auto|].
  intros H. apply bind_ok in H. destruct H as (v & V & H). rewrite (iter_assert_fr _ _ _ _ R V). cbn [bind]. apply IH. exact H.
Qed.

Lemma create_fr l lb pp x a l' r : fr l lb -> (forall p, a = Some p -> F p = None /\ dom p) ->
  list_node_create l pp x a = Ok (l', r) -> exists lb', list_node_create lb pp x a = Ok (lb', r) /\ fr l' lb'.
Proof.
  intros R A. unfold list_node_create. destruct a as [p|]; [|intros H; injection H as <- <-; eauto].
  destruct (A p eq_refl) as [A1 A2]. intros H. apply bind_ok in H. destruct H as (nx & N & H). rewrite (rd_fr _ _ _ _ R N). cbn [bind].
  pose proof (upd_fr _ _ p (Some (x, nx)) R A1 (fun _ => A2)) as R1.
  set (l1 := set_heap l _) in *. set (lb1 := set_heap lb _) in *.
  assert (R2 : fr (match nx with None => set_tail l1 (LNext p) | Some _ => l1 end) (match nx with None => set_tail lb1 (LNext p) | Some _ => lb1 end)).
  { destruct nx; [exact R1|apply tail_fr; exact R1]. }
  set (l2 := match nx with None => set_tail l1 (LNext p) | Some _ => l1 end) in *.
  set (lb2 := match nx with None => set_tail lb1 (LNext p) | Some _ => lb1 end) in *.
  apply bind_ok in H. destruct H as (l3 & W & H). destruct (wr_fr _ _ _ _ _ R2 W) as (lb3 & WB & R3). rewrite WB. cbn [bind].
  rewrite (fr_count _ _ R3). pose proof (count_fr _ _ (S (l_count l3)) R3) as R4.
  rewrite (fr_iters _ _ R4). set (is := map _ _) in *. pose proof (iters_fr _ _ is R4) as R5.
  apply bind_ok in H. destruct H as (u & U & H). rewrite (iters_assert_fr _ _ _ _ R5 U). cbn [bind]. injection H as <- <-. eauto.
Qed.

Lemma destroy_fr l lb pp l' r : fr l lb ->
  list_node_destroy l pp = Ok (l', r) -> exists lb', list_node_destroy lb pp = Ok (lb', r) /\ fr l' lb'.
Proof.
  intros R. unfold list_node_destroy. intros H. apply bind_ok in H. destruct H as (q & Q & H). rewrite (rd_fr _ _ _ _ R Q). cbn [bind].
  destruct q as [p|]; [|injection H as <- <-; eauto].
  apply bind_ok in H. destruct H as ([v nx] & N & H). rewrite (node_fr _ _ _ _ R N). cbn [bind]. destruct (in_l _ _ _ _ R N) as [I J].
  apply bind_ok in H. destruct H as (l1 & W & H). destruct (wr_fr _ _ _ _ _ R W) as (lb1 & WB & R1). rewrite WB. cbn [bind].
  assert (R2 : fr (match nx with None => set_tail l1 pp | Some _ => l1 end) (match nx with None => set_tail lb1 pp | Some _ => lb1 end)).
  { destruct nx; [exact R1|apply tail_fr; exact R1]. }
  set (l2 := match nx with None => set_tail l1 pp | Some _ => l1 end) in *.
  set (lb2 := match nx with None => set_tail lb1 pp | Some _ => lb1 end) in *.
  rewrite (fr_count _ _ R2). pose proof (count_fr _ _ (l_count l2 - 1) R2) as R3.
  rewrite (fr_iters _ _ R3). set (is := map _ _) in *. pose proof (iters_fr _ _ is R3) as R4.
  apply bind_ok in H. destruct H as (u & U & H). rewrite (iters_assert_fr _ _ _ _ R4 U). cbn [bind]. injection H as <- <-.
  eexists. split; [reflexivity|]. apply (upd_fr _ _ p None R4 I). congruence.
Qed.

Lemma find_first_fr n l lb f p v : fr l lb -> find_first n l f p = Ok v -> find_first n lb f p = Ok v.
Proof.
  intros R. revert p. induction n as [|n IH]; intros p; cbn [find_first]; [discriminate|]. destruct p as [a|]; [|auto].
  intros H. apply bind_ok in H. destruct H as (x & N & H). rewrite (node_fr _ _ _ _ R N). cbn [bind]. destruct (f (fst x)); [exact H|apply IH; exact H].
Qed.

Lemma delete_all_fr n : forall l lb f pp l' r, fr l lb ->
  delete_all n l f pp = Ok (l', r) -> exists lb', delete_all n lb f pp = Ok (lb', r) /\ fr l' lb'.
Proof.
  induction n as [|n IH]; intros l lb f pp l' r R; cbn [delete_all]; [discriminate|].
  intros H. apply bind_ok in H. destruct H as (q & Q & H). rewrite (rd_fr _ _ _ _ R Q). cbn [bind].
  destruct q as [a|]; [|injection H as <- <-; eauto].
  apply bind_ok in H. destruct H as (x & N & H). rewrite (node_fr _ _ _ _ R N). cbn [bind].
  destruct (f (fst x)); [|eapply IH; eauto].
  apply bind_ok in H. destruct H as ([l1 v] & E & H). destruct (destroy_fr _ _ _ _ _ R E) as (lb1 & EB & R1). rewrite EB. cbn [bind].
  apply bind_ok in H. destruct H as ([l2 w] & E2 & H). destruct (IH _ _ _ _ _ _ R1 E2) as (lb2 & EB2 & R2). rewrite EB2. cbn [bind fst snd] in *.
  injection H as <- <-. eauto.
Qed.

Lemma sort_pos_fr n l lb cmp d : fr l lb -> forall pos p, sort_pos n l cmp d pos = Ok p -> sort_pos n lb cmp d pos = Ok p.
Proof.
  intros R. induction n as [|n IH]; intros pos p; cbn [sort_pos]; [discriminate|].
  intros H. apply bind_ok in H. destruct H as (q & Q & H). rewrite (rd_fr _ _ _ _ R Q). cbn [bind].
  apply bind_ok in H. destruct H as (x & N & H). rewrite (deref_fr _ _ _ _ R N). cbn [bind].
  destruct (0 <=? cmp d (fst x))%Z; [|exact H]. apply bind_ok in H. destruct H as (y & Y & H). rewrite Y. cbn [bind]. apply IH. exact H.
Qed.

Lemma sort_loop_fr n : forall l lb cmp prev pp l' r, fr l lb ->
  sort_loop n l cmp prev pp = Ok (l', r) -> exists lb', sort_loop n lb cmp prev pp = Ok (lb', r) /\ fr l' lb'.
Proof.
  induction n as [|n IH]; intros l lb cmp prev pp l' r R; cbn [sort_loop]; [discriminate|].
  intros H. apply bind_ok in H. destruct H as (q & Q & H). rewrite (rd_fr _ _ _ _ R Q). cbn [bind].
  destruct q as [a|]; [|injection H as <- <-; eauto].
  apply bind_ok in H. destruct H as (x & N & H). rewrite (node_fr _ _ _ _ R N). cbn [bind].
  apply bind_ok in H. destruct H as (qp & QP & H). rewrite (rd_fr _ _ _ _ R QP). cbn [bind].
  apply bind_ok in H. destruct H as (xp & NP & H). rewrite (deref_fr _ _ _ _ R NP). cbn [bind].
  destruct (cmp (fst x) (fst xp) <? 0)%Z; [|eapply IH; eauto].
  apply bind_ok in H. destruct H as (pos & P & H). rewrite (fr_count _ _ R), (sort_pos_fr _ _ _ _ _ R _ _ P). cbn [bind].
  apply bind_ok in H. destruct H as (here & HH & H). rewrite (rd_fr _ _ _ _ R HH). cbn [bind].
  apply bind_ok in H. destruct H as (l1 & W1 & H). destruct (wr_fr _ _ _ _ _ R W1) as (lb1 & WB1 & R1). rewrite WB1. cbn [bind].
  apply bind_ok in H. destruct H as (l2 & W2 & H). destruct (wr_fr _ _ _ _ _ R1 W2) as (lb2 & WB2 & R2). rewrite WB2. cbn [bind].
  apply bind_ok in H. destruct H as (l3 & W3 & H). destruct (wr_fr _ _ _ _ _ R2 W3) as (lb3 & WB3 & R3). rewrite WB3. cbn [bind].
  apply bind_ok in H. destruct H as (pv & PV & H).
  assert (PVB : (if loc_eqb prev pos then do q1 <- rd lb3 prev; addr_next q1 else Ok prev) = Ok pv).
  { destruct (loc_eqb prev pos); [|exact PV]. apply bind_ok in PV. destruct PV as (q1 & Q1 & PV). rewrite (rd_fr _ _ _ _ R3 Q1). exact PV. }
  rewrite PVB. cbn [bind]. eapply IH; eauto.
Qed.

Lemma next_fr l lb id l' r : fr l lb -> list_next l id = Ok (l', r) -> exists lb', list_next lb id = Ok (lb', r) /\ fr l' lb'.
Proof.
  intros R. unfold list_next. rewrite (fr_iters _ _ R). intros H. apply bind_ok in H. destruct H as (i & I & H). rewrite I. cbn [bind].
  cbv zeta in *. apply bind_ok in H. destruct H as (p & P & H).
  assert (PB : match i_pos i with Some a => do n <- node (l_heap lb) a; Ok (snd n) | None => Ok (i_pos i) end = Ok p).
  { destruct (i_pos i); [|exact P]. apply bind_ok in P. destruct P as (n' & N & P). rewrite (node_fr _ _ _ _ R N). exact P. }
  rewrite PB. cbn [bind]. apply bind_ok in H. destruct H as (q & Q & H). rewrite (rd_fr _ _ _ _ R Q). cbn [bind].
  apply bind_ok in H. destruct H as (pv & PV & H). rewrite PV. cbn [bind].
  apply bind_ok in H. destruct H as (v & V & H).
  assert (VB : match i_pos i with Some a => do n <- node (l_heap lb) a; Ok (Some (fst n)) | None => Ok None end = Ok v).
  { destruct (i_pos i); [|exact V]. apply bind_ok in V. destruct V as (n' & N & V). rewrite (node_fr _ _ _ _ R N). exact V. }
  rewrite VB. cbn [bind]. injection H as <- <-. eexists. split; [reflexivity|]. unfold put_iter. rewrite (fr_iters _ _ R). apply iters_fr. exact R.
Qed.
Lemma find_loop_fr n : forall l lb id f l' r, fr l lb -> find_loop n l id f = Ok (l', r) -> exists lb', find_loop n lb id f = Ok (lb', r) /\ fr l' lb'.
Proof.
  induction n as [|n IH]; intros l lb id f l' r R; cbn [find_loop]; [discriminate|].
  intros H. apply bind_ok in H. destruct H as ([l1 v] & E & H). destruct (next_fr _ _ _ _ _ R E) as (lb1 & EB & R1). rewrite EB. cbn [bind].
  destruct v as [d|]; [|injection H as <- <-; eauto]. destruct (f d); [injection H as <- <-; eauto|eapply IH; eauto].
Qed.

Definition node_arg (o : lop (D:=D)) : option nat :=
  match o with OAppend _ a | OPrepend _ a | OInsert _ _ a => a | _ => None end.

Lemma lstep_fr l lb o l' r : fr l lb -> (forall p, node_arg o = Some p -> F p = None /\ dom p) ->
  lstep l o = Ok (l', r) -> exists lb', lstep lb o = Ok (lb', r) /\ fr l' lb'.
Proof.
  intros R A. destruct o; cbn [lstep node_arg] in *; intros H.
  - apply bind_ok in H. destruct H as ([l1 v] & E & H). injection H as <- <-. unfold list_append in *. rewrite (fr_tail _ _ R).
    destruct (create_fr _ _ _ _ _ _ _ R A E) as (lb1 & EB & R1). rewrite EB. cbn. eauto.
  - apply bind_ok in H. destruct H as ([l1 v] & E & H). injection H as <- <-. unfold list_prepend in *.
    destruct (create_fr _ _ _ _ _ _ _ R A E) as (lb1 & EB & R1). rewrite EB. cbn. eauto.
  - apply bind_ok in H. destruct H as ([l1 v] & E & H). injection H as <- <-. unfold list_pop in *.
    destruct (destroy_fr _ _ _ _ _ R E) as (lb1 & EB & R1). rewrite EB. cbn. eauto.
  - apply bind_ok in H. destruct H as (v & E & H). injection H as <- <-. unfold list_peek in *. rewrite (fr_head _ _ R).
    destruct (l_head l); [|injection E as <-; cbn; eauto]. apply bind_ok in E. destruct E as (n' & N & E). rewrite (node_fr _ _ _ _ R N).
    injection E as <-. cbn. eauto.
  - injection H as <- <-. unfold list_count. rewrite (fr_count _ _ R). eauto.
  - injection H as <- <-. unfold list_is_empty. rewrite (fr_count _ _ R). eauto.
  - apply bind_ok in H. destruct H as (v & E & H). injection H as <- <-. unfold list_find_first in *.
    rewrite (fr_count _ _ R), (fr_head _ _ R), (find_first_fr _ _ _ _ _ _ R E). cbn. eauto.
  - apply bind_ok in H. destruct H as ([l1 v] & E & H). injection H as <- <-. unfold list_delete_all in *. rewrite (fr_count _ _ R).
    destruct (delete_all_fr _ _ _ _ _ _ _ R E) as (lb1 & EB & R1). rewrite EB. cbn. eauto.
  - apply bind_ok in H. destruct H as (l1 & E & H). injection H as <- <-. unfold list_sort in *. rewrite (fr_count _ _ R).
    destruct (1 <? l_count l); [|injection E as <-; cbn; eauto].
    apply bind_ok in E. destruct E as (q & Q & E). rewrite (rd_fr _ _ _ _ R Q). cbn [bind].
    apply bind_ok in E. destruct E as (pp & PP & E). rewrite PP. cbn [bind].
    apply bind_ok in E. destruct E as ([l2 pe] & S & E). destruct (sort_loop_fr _ _ _ _ _ _ _ _ R S) as (lb2 & SB & R2). rewrite SB. cbn [bind].
    injection E as <-. eexists. split; [reflexivity|]. cbn [set_tail l_head l_iters]. rewrite (fr_head _ _ R2), (fr_iters _ _ R2).
    apply iters_fr, tail_fr. exact R2.
  - injection H as <- <-. eexists. split; [reflexivity|]. unfold list_iterator_create. rewrite (fr_head _ _ R), (fr_iters _ _ R). apply iters_fr. exact R.
  - apply bind_ok in H. destruct H as (l1 & E & H). injection H as <- <-. unfold list_iterator_reset in *. rewrite (fr_iters _ _ R).
    apply bind_ok in E. destruct E as (i & I & E). rewrite I. injection E as <-. cbn [bind]. eexists. split; [reflexivity|].
    unfold put_iter. rewrite (fr_head _ _ R), (fr_iters _ _ R). apply iters_fr. exact R.
  - apply bind_ok in H. destruct H as (l1 & E & H). injection H as <- <-. unfold list_iterator_destroy in *. rewrite (fr_iters _ _ R).
    apply bind_ok in E. destruct E as (i & I & E). rewrite I. injection E as <-. cbn [bind]. eexists. split; [reflexivity|]. apply iters_fr. exact R.
  - apply bind_ok in H. destruct H as ([l1 v] & E & H). injection H as <- <-.
    destruct (next_fr _ _ _ _ _ R E) as (lb1 & EB & R1). rewrite EB. cbn. eauto.
  - apply bind_ok in H. destruct H as ([l1 v] & E & H). injection H as <- <-. unfold list_insert in *. rewrite (fr_iters _ _ R).
    apply bind_ok in E. destruct E as (i & I & E). rewrite I. cbn [bind].
    destruct (create_fr _ _ _ _ _ _ _ R A E) as (lb1 & EB & R1). rewrite EB. cbn. eauto.
  - apply bind_ok in H. destruct H as ([l1 v] & E & H). injection H as <- <-. unfold list_find in *. rewrite (fr_count _ _ R).
    destruct (find_loop_fr _ _ _ _ _ _ _ R E) as (lb1 & EB & R1). rewrite EB. cbn. eauto.
  - apply bind_ok in H. destruct H as ([l1 v] & E & H). injection H as <- <-. unfold list_remove in *. rewrite (fr_iters _ _ R).
    apply bind_ok in E. destruct E as (i & I & E). rewrite I. cbn [bind].
    apply bind_ok in E. destruct E as (q & Q & E). rewrite (rd_fr _ _ _ _ R Q). cbn [bind].
    destruct (ptr_eqb q (i_pos i)); [injection E as <- <-; cbn; eauto|].
    destruct (destroy_fr _ _ _ _ _ R E) as (lb1 & EB & R1). rewrite EB. cbn. eauto.
Qed.

Lemma destroy_loop_fr n : forall h hb p h' r,
  (forall b, hb b = match h b with Some x => Some x | None => F b end) -> (forall b x, F b = Some x -> h b = None) ->
  destroy_loop n h p = Ok (h', r) -> exists hb', destroy_loop n hb p = Ok (hb', r) /\
    (forall b, hb' b = match h' b with Some x => Some x | None => F b end).
Proof.
  induction n as [|n IH]; intros h hb p h' r HB DJ; cbn [destroy_loop]; [discriminate|].
  destruct p as [a|]; [|intros H; injection H as <- <-; eauto].
  intros H. apply bind_ok in H. destruct H as (x & N & H). unfold node in *. rewrite HB. destruct (h a) as [y|] eqn:Y; [|discriminate].
  injection N as ->. cbn [bind]. apply bind_ok in H. destruct H as ([h1 v] & E & H).
  destruct (IH (upd h a None) (upd hb a None) (snd x) h1 v) as (hb1 & EB & R1); [| |exact E|].
  - intros b. unfold upd. destruct (Nat.eqb_spec b a) as [->|]; [|apply HB]. destruct (F a) eqn:Q; [|reflexivity]. rewrite (DJ _ _ Q) in Y. discriminate.
  - intros b z Q. unfold upd. destruct (Nat.eqb_spec b a) as [->|]; [reflexivity|]. eapply DJ; eauto.
  - rewrite EB. cbn [bind fst snd] in *. injection H as <- <-. eauto.
Qed.
End Frame.

(** ** The shared memory *)
Section Mem.
Context {D : Type}.
Notation L := (list (nat * D)).
Notation lst := (@lst D).
Notation heap := (@heap D).

(** the free nodes [fl] are linked from [p] *)
Fixpoint chain (mem : heap) (p : option nat) (fl : list nat) : Prop :=
  match fl with
  | [] => p = None
  | a :: t => p = Some a /\ exists d n, mem a = Some (d, n) /\ chain mem n t
  end.
Record mi (mem : heap) (free : option nat) (brk : nat) (LS : nat -> L) (fl : list nat) : Prop := {
  mi_mem : forall k b n, seg (LS k) None b = Some n -> mem b = Some n;
  mi_nd : forall k, NoDup (addrs (LS k));
  mi_dj : forall j k b, j <> k -> In b (addrs (LS j)) -> ~ In b (addrs (LS k));
  mi_fnd : NoDup fl;
  mi_chain : chain mem free fl;
  mi_fdj : forall k b, In b fl -> ~ In b (addrs (LS k));
  mi_lt : forall b x, mem b = Some x -> b < brk }.

Lemma chain_ext mem mem' fl : forall p, (forall b, In b fl -> mem' b = mem b) -> chain mem p fl -> chain mem' p fl.
Proof.
  induction fl as [|a t IH]; intros p H; cbn [chain]; [auto|]. intros (-> & d & n & E & C). split; [reflexivity|].
  exists d, n. rewrite H by (left; reflexivity). split; [exact E|]. apply IH; auto. intros b I. apply H. right. exact I.
Qed.
Lemma chain_some mem fl : forall p b, chain mem p fl -> In b fl -> exists x, mem b = Some x.
Proof.
  induction fl as [|a t IH]; intros p b; cbn [chain In]; [tauto|]. intros (-> & d & n & E & C) [<-|I]; [eauto|]. eapply IH; eauto.
Qed.
Lemma seg_some (l : L) n b : In b (addrs l) -> exists x, seg l n b = Some x.
Proof.
  induction l as [|[a d] t IH]; cbn [addrs map seg In fst]; [tauto|]. intros H. destruct (Nat.eqb_spec b a); [eauto|]. destruct H; [congruence|auto].
Qed.

Lemma node_alloc_ok s m LS fl : mi (p_mem s) (p_free s) (p_brk s) LS fl -> exists s1 a,
  list_node_alloc s m = Ok (s1, a) /\
  match a with
  | None => s1 = s /\ fl = [] /\ m = None
  | Some p => exists fl1, mi (p_mem s1) (p_free s1) (p_brk s1) LS fl1 /\ p_lists s1 = p_lists s /\ p_mem s1 p = None /\ p < p_brk s1 /\
      ~ In p fl1 /\ (forall k, ~ In p (addrs (LS k))) /\
      (fl = p :: fl1 /\ p_brk s1 = p_brk s \/ fl = [] /\ (exists j, m = Some j) /\ length fl1 = 9 /\ p_brk s1 = p_brk s + 10)
  end.
Proof.
  intros I. pose proof I as [M ND DJ FN CH FD LT]. unfold list_node_alloc.
  assert (TAKE : forall mem free brk p t, mi mem free brk LS (p :: t) -> exists d n,
    free = Some p /\ mem p = Some (d, n) /\ mi (upd mem p None) n brk LS t /\ ~ In p t /\ (forall k, ~ In p (addrs (LS k))) /\ p < brk).
  { clear. intros mem free brk p t [M ND DJ FN CH FD LT]. cbn [chain] in CH. destruct CH as (F0 & d & n & E & C). exists d, n.
    inversion FN as [|? ? N1 N2]; subst. assert (NK : forall k, ~ In p (addrs (LS k))) by (intros k; apply FD; left; reflexivity).
    repeat split; auto.
    - intros k b x S. unfold upd. destruct (Nat.eqb_spec b p) as [->|]; [|eapply M; eauto]. apply seg_in in S. destruct (NK k S).
    - eapply chain_ext; [|exact C]. intros b I. unfold upd. destruct (Nat.eqb_spec b p) as [->|]; [contradiction|reflexivity].
    - intros k b I. apply FD. right. exact I.
    - intros b x. unfold upd. destruct (Nat.eqb_spec b p); [discriminate|apply LT].
    - eapply LT; eauto. }
  destruct (p_free s) as [q|] eqn:Q.
  - destruct fl as [|p t]; [cbn in CH; congruence|]. destruct (TAKE _ _ _ _ _ I) as (d & n & E1 & E2 & I1 & NT & NK & PL). injection E1 as ->.
    assert (ST : match m with Some _ => s | None => s end = s) by (destruct m; reflexivity).
    replace (match m with Some _ | _ => s end) with s by (destruct m; reflexivity). rewrite Q. unfold node. rewrite E2. cbn [bind].
    eexists. exists (Some p). split; [reflexivity|]. exists t. cbn [p_mem p_free p_brk p_lists snd]. unfold upd at 2. rewrite Nat.eqb_refl. auto 10.
  - destruct fl as [|p t]; [|cbn in CH; destruct CH; congruence]. destruct m as [j|].
    + cbn [p_free p_mem p_brk p_lists].
      assert (I0 : mi (block (p_mem s) (p_brk s) j) (Some (p_brk s)) (p_brk s + LIST_ALLOC) LS (seq (p_brk s) 10)).
      { split; auto.
        - intros k b x S. pose proof (M _ _ _ S) as MB. pose proof (LT _ _ MB). unfold block. destruct (Nat.leb_spec (p_brk s) b); [lia|exact MB].
        - apply seq_NoDup.
        - unfold block, LIST_ALLOC. set (B := p_brk s). cbn [seq chain].
          assert (ST : forall i, i < 10 -> (fun b : nat => if (B <=? b) && (b <? B + 10) then Some (j, if b =? B + (10 - 1) then None else Some (S b)) else p_mem s b) (B + i)
            = Some (j, if i =? 9 then None else Some (S (B + i)))).
          { intros i Hi. cbv beta. destruct (Nat.leb_spec B (B + i)); [|lia]. destruct (Nat.ltb_spec (B + i) (B + 10)); [|lia]. cbn [andb].
            destruct (Nat.eqb_spec (B + i) (B + (10 - 1))), (Nat.eqb_spec i 9); auto; lia. }
          assert (CC : forall n i, i + n = 10 -> chain (fun b : nat => if (B <=? b) && (b <? B + 10) then Some (j, if b =? B + (10 - 1) then None else Some (S b)) else p_mem s b)
            (if i =? 10 then None else Some (B + i)) (seq (B + i) n)).
          { induction n as [|n IH]; intros i Hi; cbn [seq chain]; [destruct (Nat.eqb_spec i 10); [reflexivity|lia]|].
            destruct (Nat.eqb_spec i 10); [lia|]. split; [reflexivity|]. exists j, (if i =? 9 then None else Some (S (B + i))). split; [apply ST; lia|].
            specialize (IH (S i)). rewrite (Nat.add_succ_r B i) in IH. destruct (Nat.eqb_spec i 9), (Nat.eqb_spec (S i) 10); try lia; apply IH; lia. }
          specialize (CC 10 0 eq_refl). rewrite Nat.add_0_r in CC. exact CC.
        - intros k b IB X. apply in_seq in IB. destruct (seg_some _ None _ X) as [x SX]. apply M in SX. apply LT in SX. lia.
        - intros b x. unfold block. destruct (Nat.leb_spec (p_brk s) b); destruct (Nat.ltb_spec b (p_brk s + LIST_ALLOC)); cbn [andb]; try lia; intros HX; try lia; apply LT in HX; lia. }
      change (seq (p_brk s) 10) with (p_brk s :: seq (S (p_brk s)) 9) in I0.
      destruct (TAKE _ _ _ _ _ I0) as (d & n & _ & E2 & I1 & NT & NK & PL). unfold node. rewrite E2. cbn [bind].
      eexists. exists (Some (p_brk s)). split; [reflexivity|]. exists (seq (S (p_brk s)) 9). cbn [p_mem p_free p_brk p_lists snd].
      unfold upd at 2. rewrite Nat.eqb_refl. split; [exact I1|]. split; [reflexivity|]. split; [reflexivity|]. split; [exact PL|].
      split; [exact NT|]. split; [exact NK|]. right. split; [reflexivity|]. split; [eauto|]. split; reflexivity.
    + rewrite Q. exists s, None. auto.
Qed.

(** nodes that are given back are linked before the free ones *)
Lemma free_ok (old : heap) g : forall s fl, NoDup g -> (forall b, In b g -> exists x, old b = Some x) -> (forall b, In b g -> ~ In b fl) ->
  chain (p_mem s) (p_free s) fl ->
  let s' := fold_left (list_node_free old) g s in
  chain (p_mem s') (p_free s') (rev g ++ fl) /\ (forall b, ~ In b g -> p_mem s' b = p_mem s b) /\ p_brk s' = p_brk s /\ p_lists s' = p_lists s.
Proof.
  induction g as [|p g IH]; intros s fl N O NF C; cbn [fold_left rev app]; [auto|].
  inversion N as [|? ? N1 N2]; subst. destruct (O p (or_introl eq_refl)) as [[d q] E].
  assert (S1 : list_node_free old s p = mkPool (upd (p_mem s) p (Some (d, p_free s))) (Some p) (p_brk s) (p_lists s)).
  { unfold list_node_free. rewrite E. reflexivity. }
  rewrite S1. set (s1 := mkPool _ _ _ _).
  destruct (IH s1 (p :: fl)) as (A & B & Cc & Dd); auto.
  - intros b I. apply O. right. exact I.
  - intros b I [<-|X]; [contradiction|]. apply (NF b); [right; exact I|exact X].
  - cbn [chain s1 p_mem p_free]. split; [reflexivity|]. exists d, (p_free s). unfold upd at 1. rewrite Nat.eqb_refl. split; [reflexivity|].
    eapply chain_ext; [|exact C]. intros b I. unfold upd. destruct (Nat.eqb_spec b p) as [->|]; [|reflexivity]. destruct (NF p (or_introl eq_refl) I).
  - cbv zeta. split; [rewrite <- app_assoc; exact A|]. split; [|auto]. intros b NI. rewrite B by (intros X; apply NI; right; exact X).
    cbn [s1 p_mem]. unfold upd. destruct (Nat.eqb_spec b p) as [->|]; [|reflexivity]. destruct NI. left. reflexivity.
Qed.

(** A call on the list [k] that turns its nodes into [L'], with the node [a] it was given. *)
Lemma commit s LS fl k (a : option nat) (L' : L) (after : heap) :
  mi (p_mem s) (p_free s) (p_brk s) LS fl ->
  (forall p, a = Some p -> p_mem s p = None /\ p < p_brk s /\ ~ In p fl /\ (forall j, ~ In p (addrs (LS j))) /\ length L' = S (length (LS k))) ->
  NoDup (addrs L') -> (forall b, In b (addrs L') -> In b (addrs (LS k)) \/ a = Some b) ->
  (forall b, after b = match seg L' None b with Some n => Some n | None => if in_dec Nat.eq_dec b (addrs (LS k)) then None else p_mem s b end) ->
  let s' := give_back s after in
  p_brk s' = p_brk s /\ p_lists s' = p_lists s /\
  exists fl', mi (p_mem s') (p_free s') (p_brk s') (fun j => if j =? k then L' else LS j) fl' /\
    length fl' + length L' = length fl + length (LS k) + match a with Some _ => 1 | None => 0 end.
Proof.
  intros I HA ND' SUB AF. pose proof I as [M ND DJ FN CH FD LT]. cbv zeta. unfold give_back.
  set (g := gone (p_mem s) after (p_brk s)). set (s0 := mkPool after (p_free s) (p_brk s) (p_lists s)).
  assert (INL : forall b, In b (addrs (LS k)) -> exists x, p_mem s b = Some x).
  { intros b X. destruct (seg_some _ None _ X) as [x S]. eauto. }
  assert (G : forall b, In b g <-> (exists x, p_mem s b = Some x) /\ after b = None).
  { intros b. unfold g, gone. rewrite filter_In, in_seq. destruct (p_mem s b) as [x|] eqn:E; cbn [some andb].
    - pose proof (LT _ _ E). destruct (after b); cbn [some negb]; split; intros H0.
      + destruct H0; discriminate.
      + destruct H0; discriminate.
      + split; [eauto|reflexivity].
      + split; [lia|reflexivity].
    - split; [intros [_ X]; discriminate|]. intros [[x X] _]. discriminate. }
  assert (GL : forall b, In b g -> In b (addrs (LS k)) /\ ~ In b (addrs L')).
  { intros b X. apply G in X. destruct X as [[x E] A]. rewrite AF in A. destruct (seg L' None b) eqn:S; [discriminate|].
    destruct (in_dec Nat.eq_dec b (addrs (LS k))); [|congruence]. split; [assumption|]. intros X. destruct (seg_some _ None _ X). congruence. }
  assert (GN : NoDup g) by (apply NoDup_filter, seq_NoDup).
  assert (NOT : forall b, ~ In b (addrs (LS k)) -> a <> Some b -> after b = p_mem s b).
  { intros b N1 N2. rewrite AF, seg_notin; [destruct (in_dec Nat.eq_dec b (addrs (LS k))); [contradiction|reflexivity]|].
    intros X. destruct (SUB _ X); [contradiction|congruence]. }
  assert (AFL : forall b, In b fl -> after b = p_mem s b).
  { intros b X. apply NOT; [apply FD; exact X|]. intros ->. destruct (HA b eq_refl) as (_ & _ & X' & _). contradiction. }
  destruct (free_ok (p_mem s) g s0 fl GN) as (C1 & C2 & C3 & C4).
  { intros b X. apply G in X. apply X. }
  { intros b X Y. destruct (GL b X). exact (FD k b Y H). }
  { cbn [s0 p_mem p_free]. eapply chain_ext; [exact AFL|exact CH]. }
  set (s1 := fold_left _ g s0) in *. cbn [s0 p_brk p_lists p_mem] in C2, C3, C4. split; [exact C3|]. split; [exact C4|].
  exists (rev g ++ fl). split; [split|].
  - intros j b n. destruct (Nat.eqb_spec j k) as [->|NE]; intros S.
    + assert (E : after b = Some n) by (rewrite AF, S; reflexivity). rewrite C2; [exact E|]. intros X. apply G in X. destruct X. congruence.
    + pose proof (seg_in _ _ _ _ S) as IB. assert (E : after b = p_mem s b).
      { apply NOT; [apply DJ with (1 := NE); exact IB|]. intros ->. destruct (HA b eq_refl) as (_ & _ & _ & X & _). exact (X j IB). }
      rewrite C2; [rewrite E; eauto|]. intros X. apply GL in X. destruct X as [X _]. exact (DJ j k b NE IB X).
  - intros j. destruct (j =? k); auto.
  - intros i j b NE. destruct (Nat.eqb_spec i k) as [->|], (Nat.eqb_spec j k) as [->|]; try congruence.
    + intros X Y. destruct (SUB _ X) as [X'|X']; [eapply DJ; eauto|]. destruct (HA b X') as (_ & _ & _ & Z & _). exact (Z j Y).
    + intros X Y. destruct (SUB _ Y) as [Y'|Y']; [eapply (DJ i k); eauto|]. destruct (HA b Y') as (_ & _ & _ & Z & _). exact (Z i X).
    + apply DJ. exact NE.
  - apply (Permutation_NoDup (l := g ++ fl)); [apply Permutation_app_tail, Permutation_rev|].
    clear - GN FN GL FD. induction g as [|x g IH]; [exact FN|]. inversion GN; subst. cbn. constructor.
    + rewrite in_app_iff. intros [X|X]; [contradiction|]. destruct (GL x (or_introl eq_refl)) as [Y _]. exact (FD _ _ X Y).
    + apply IH; auto. intros b X. apply GL. right. exact X.
  - exact C1.
  - intros j b X. apply in_app_iff in X. rewrite <- in_rev in X. destruct (Nat.eqb_spec j k) as [->|NE]; destruct X as [X|X].
    + apply GL. exact X.
    + intros Y. destruct (SUB _ Y) as [Y'|Y']; [exact (FD _ _ X Y')|]. destruct (HA b Y') as (_ & _ & Z & _). contradiction.
    + destruct (GL b X) as [Y _]. apply DJ with k; auto.
    + apply FD. exact X.
  - intros b x E. rewrite C3. destruct (in_dec Nat.eq_dec b g) as [X|X].
    + apply G in X. destruct X as [[y Y] _]. eauto.
    + rewrite C2, AF in E by exact X. destruct (seg L' None b) eqn:S.
      * apply seg_in in S. destruct (SUB _ S) as [S'|S']; [destruct (INL _ S') as [y Y]; eauto|apply (HA b S')].
      * destruct (in_dec Nat.eq_dec b (addrs (LS k))); [discriminate|eauto].
  - rewrite app_length, rev_length.
    assert (ALEN : forall x : L, length (addrs x) = length x) by (intros x; apply map_length).
    assert (GND : NoDup (g ++ addrs L')).
    { clear - GN ND' GL. induction g as [|x g IH]; [exact ND'|]. inversion GN; subst. cbn. constructor.
      - rewrite in_app_iff. intros [X|X]; [contradiction|]. destruct (GL x (or_introl eq_refl)) as [_ Y]. contradiction.
      - apply IH; auto. intros b X. apply GL. right. exact X. }
    assert (BACK : forall b, In b (addrs (LS k)) -> In b (g ++ addrs L')).
    { intros b X. apply in_app_iff. destruct (in_dec Nat.eq_dec b (addrs L')) as [|N]; [auto|]. left. apply G. split; [apply INL; exact X|].
      rewrite AF, seg_notin by exact N. destruct (in_dec Nat.eq_dec b (addrs (LS k))); [reflexivity|contradiction]. }
    destruct a as [p|].
    + destruct (HA p eq_refl) as (E1 & E2 & E3 & E4 & E5).
      assert (LE : length (g ++ addrs L') <= length (p :: addrs (LS k))).
      { apply NoDup_incl_length; [exact GND|]. intros b X. apply in_app_iff in X. destruct X as [X|X]; [right; apply GL; exact X|].
        destruct (SUB _ X) as [Y|Y]; [right; exact Y|left; congruence]. }
      rewrite app_length, ALEN in LE. cbn [length] in LE. rewrite ALEN in LE. lia.
    + assert (P : Permutation (g ++ addrs L') (addrs (LS k))).
      { apply NoDup_Permutation; auto. intros b. split; [|apply BACK]. intros X. apply in_app_iff in X. destruct X as [X|X]; [apply GL; exact X|].
        destruct (SUB _ X); [assumption|discriminate]. }
      apply Permutation_length in P. rewrite app_length, !ALEN in P. lia.
Qed.
End Mem.

(** ** All lists *)
Section All.
Context {D : Type}.
Notation L := (list (nat * D)).
Notation lst := (@lst D).
Notation heap := (@heap D).

Lemma rep_ext (s s' : lst) l : l_head s' = l_head s -> l_tail s' = l_tail s -> l_count s' = l_count s ->
  (forall b, l_heap s' b = l_heap s b) -> rep s l -> rep s' l.
Proof.
  intros H T C P [[N HD HP] TL CN]. split; [split|..]; auto; try congruence; intros b; rewrite P; apply HP.
Qed.
Lemma srep_ext (s s' : lst) l a : l_head s' = l_head s -> l_tail s' = l_tail s -> l_count s' = l_count s -> l_iters s' = l_iters s ->
  (forall b, l_heap s' b = l_heap s b) -> srep s l a -> srep s' l a.
Proof. intros H T C I P (R & A & F). split; [eapply rep_ext; eauto|]. split; [exact A|]. rewrite I. exact F. Qed.

Lemma elems_seg (l : L) (h : heap) : NoDup (addrs l) -> (forall b n, seg l None b = Some n -> h b = Some n) ->
  elems_from (length l) h (hd_or l None) = map snd l.
Proof.
  induction l as [|[a d] t IH]; intros N H; [reflexivity|]. cbn [length hd_or elems_from map snd].
  rewrite (H a (d, hd_or t None)) by (cbn [seg]; rewrite Nat.eqb_refl; reflexivity). f_equal. inversion N; subst. apply IH; [assumption|].
  intros b n S. apply H. cbn [seg]. destruct (Nat.eqb_spec b a) as [->|]; [|exact S]. apply seg_in in S. contradiction.
Qed.

Definition lists_ok (s : pool (D:=D)) (m : many (D:=D)) (LS : nat -> L) : Prop :=
  forall k, match p_lists s k, m_lists m k with
            | Some l, Some a => srep (set_heap l (seg (LS k) None)) (LS k) a
            | None, None => LS k = []
            | _, _ => False
            end.
Record inv (s : pool (D:=D)) (m : many (D:=D)) (LS : nat -> L) (fl : list nat) : Prop := {
  in_mi : mi (p_mem s) (p_free s) (p_brk s) LS fl;
  in_lists : lists_ok s m LS;
  in_spare : m_spare m = length fl;
  in_total : p_brk s = m_spare m + m_used m;
  in_peak : m_used m <= m_peak m;
  in_most : p_brk s <= m_peak m + 9 }.

Lemma inv_start : inv start nothing (fun _ => []) [].
Proof.
  split; cbn; auto; try lia.
  - split; cbn; try discriminate; try tauto; constructor.
  - intros k. reflexivity.
Qed.

(** no list has more elements than there are nodes in use *)
Lemma len_le s m LS fl k : inv s m LS fl -> length (LS k) <= m_used m.
Proof.
  intros [I _ SP TO _ _]. pose proof I as [M ND DJ FN CH FD LT].
  assert (NoDup (addrs (LS k) ++ fl)).
  { pose proof (ND k) as N. pose proof (FD k) as X. clear - N FN X. induction (addrs (LS k)) as [|x t IH]; [exact FN|]. inversion N; subst. cbn. constructor.
    - rewrite in_app_iff. intros [Y|Y]; [contradiction|]. apply (X x Y). left. reflexivity.
    - apply IH; auto. intros b Y Z. apply (X b Y). right. exact Z. }
  apply NoDup_incl_length with (l' := seq 0 (p_brk s)) in H.
  - rewrite app_length, seq_length in H. unfold addrs in H. rewrite map_length in H. lia.
  - intros b X. apply in_seq. apply in_app_iff in X. split; [lia|]. destruct X as [X|X].
    + destruct (seg_some _ None _ X) as [x S]. apply M in S. apply LT in S. lia.
    + destruct (chain_some _ _ _ _ CH X) as [x S]. apply LT in S. lia.
Qed.

Lemma fr_whole (l : lst) (LS : nat -> L) mem free brk fl k : mi mem free brk LS fl -> forall dom : nat -> Prop,
  (forall b, In b (addrs (LS k)) -> dom b) ->
  fr (fun b => if in_dec Nat.eq_dec b (addrs (LS k)) then None else mem b) dom (set_heap l (seg (LS k) None)) (set_heap l mem).
Proof.
  intros [M ND DJ FN CH FD LT] dom DD. split; cbn [set_heap l_head l_tail l_count l_iters l_heap]; auto.
  - intros b. destruct (seg (LS k) None b) eqn:S; [eapply M; eauto|].
    destruct (in_dec Nat.eq_dec b (addrs (LS k))) as [X|]; [|reflexivity]. destruct (seg_some _ None _ X). congruence.
  - intros b n. destruct (in_dec Nat.eq_dec b (addrs (LS k))) as [|X]; [discriminate|]. intros _. apply seg_notin. exact X.
  - intros b n S. apply DD. eapply seg_in; eauto.
Qed.

Lemma served_same (a : alist (D:=D)) o p : astep a (with_node o p) = astep a (served o (some p)).
Proof. destruct o; try reflexivity; destruct p; reflexivity. Qed.
Lemma served_valid (l : alist (D:=D)) (o : lop (D:=D)) nodes p :
  match o with
  | OIter id => ~ In id (map fst (a_its l))
  | OReset id | OEnd id | ONext id | OFind id _ | ORemove id | OInsert id _ _ => In id (map fst (a_its l))
  | _ => True
  end -> (forall q, p = Some q -> ~ In q nodes) -> op_valid (D:=D) nodes (map fst (a_its l)) (with_node o p).
Proof. destruct o; cbn; auto. Qed.
Lemma insert_len {A} j (x : A) l : length (insert_at j x l) = S (length l).
Proof. unfold insert_at. rewrite app_length. cbn [length]. rewrite <- (firstn_skipn j l) at 3. rewrite app_length. lia. Qed.
Lemma in_find id its : In id (map fst its) -> exists c, a_find id its = Some c.
Proof. induction its as [|[j e] t IH]; cbn; [tauto|]. destruct (Nat.eqb_spec j id); [eauto|]. intros [H|H]; [congruence|auto]. Qed.
Lemma adds_len (l : alist (D:=D)) o : adds o = true ->
  match o with OInsert id _ _ => In id (map fst (a_its l)) | _ => True end ->
  length (a_list (fst (astep l (served o true)))) = S (length (a_list l)) /\ fst (astep l (served o false)) = l.
Proof.
  destruct o; try discriminate; intros _ V; cbn [served astep fst]; [split; [apply insert_len|reflexivity]..|].
  destruct (in_find _ _ V) as [c F]. unfold with_iter. rewrite F. split; [apply insert_len|reflexivity].
Qed.
(** calls that take no node do not make a list longer *)
Lemma remove_len j (l : list D) : length (remove_at j l) <= length l.
Proof. unfold remove_at. rewrite app_length. rewrite <- (firstn_skipn j l) at 3. rewrite app_length, !skipn_length. lia. Qed.
Lemma delete_len f n : forall j (s : alist (D:=D)), length (a_list (a_delete_all n j f s)) <= length (a_list s).
Proof.
  induction n as [|n IH]; intros j s; cbn [a_delete_all]; [lia|]. destruct (nth_error (a_list s) j); [|lia]. destruct (f d); [|apply IH].
  etransitivity; [apply IH|]. cbn [a_remove a_list]. apply remove_len.
Qed.
Lemma keeps_len (l : alist (D:=D)) o : adds o = false -> length (a_list (fst (astep l o))) <= length (a_list l).
Proof.
  destruct o; try discriminate; intros _; cbn [astep fst a_list a_put]; auto.
  - destruct (a_list l) eqn:E; cbn [fst]; [rewrite E; lia|]. cbn [a_remove a_list]. rewrite <- E. apply remove_len.
  - apply delete_len.
  - destruct (1 <? length (a_list l)); [|lia]. cbn [a_list]. pose proof (Permutation_length (isort_perm cmp (a_list l) [])) as P. cbn in P. lia.
  - unfold with_iter. destruct (a_find id (a_its l)); [|cbn; lia]. destruct (advance (a_list l) c). cbn. lia.
  - unfold with_iter. destruct (a_find id (a_its l)); [|cbn; lia]. destruct (seek (length (a_list l)) f (a_list l) c). cbn. lia.
  - unfold with_iter. destruct (a_find id (a_its l)); [|cbn; lia]. destruct (c_cur c); [|cbn; lia]. cbn. apply remove_len.
Qed.
Lemma takes_adds o : takes_node (D:=D) o = adds o.
Proof. destruct o; reflexivity. Qed.
Lemma no_node o p : takes_node (D:=D) o = false -> with_node o p = o.
Proof. destruct o; cbn; congruence. Qed.

(** the call itself, with the node it was given *)
Lemma do_ok s m LS fl k l a o p :
  mi (p_mem s) (p_free s) (p_brk s) LS fl -> lists_ok s m LS -> p_lists s k = Some l -> m_lists m k = Some a ->
  match o with
  | OIter id => ~ In id (map fst (a_its a))
  | OReset id | OEnd id | ONext id | OFind id _ | ORemove id | OInsert id _ _ => In id (map fst (a_its a))
  | _ => True
  end ->
  (forall q, p = Some q -> adds o = true /\ p_mem s q = None /\ q < p_brk s /\ ~ In q fl /\ (forall j, ~ In q (addrs (LS j)))) ->
  let st := astep a (served o (some p)) in
  exists lb L' fl', lstep (set_heap l (p_mem s)) (with_node o p) = Ok (lb, snd st) /\
    let s' := set_list (give_back s (l_heap lb)) k (Some lb) in
    let LS' := fun j => if j =? k then L' else LS j in
    mi (p_mem s') (p_free s') (p_brk s') LS' fl' /\ p_brk s' = p_brk s /\
    (forall spare used, lists_ok s' (change m k (Some (fst st)) spare used) LS') /\
    length (a_list (fst st)) = length L' /\ length (a_list a) = length (LS k) /\
    length fl' + length L' = length fl + length (LS k) + match p with Some _ => 1 | None => 0 end.
Proof.
  intros I LO PK MK V HP. cbv zeta. pose proof (LO k) as SR. rewrite PK, MK in SR.
  set (dom := fun b => In b (addrs (LS k)) \/ p = Some b).
  assert (FR := fr_whole l LS _ _ _ _ k I dom (fun b X => or_introl X)).
  assert (NK : forall q, p = Some q -> ~ In q (addrs (LS k))) by (intros q E; apply (HP q E)).
  destruct (step_ok _ _ _ _ SR (served_valid _ _ _ p V NK)) as (l' & L' & E & SR').
  rewrite served_same in E, SR'.
  assert (NA : forall q, node_arg (with_node o p) = Some q -> (if in_dec Nat.eq_dec q (addrs (LS k)) then None else p_mem s q) = None /\ dom q).
  { intros q Q. assert (p = Some q) as ->.
    { destruct o; cbn in Q; try discriminate; exact Q. }
    destruct (HP q eq_refl) as (_ & M0 & _ & _ & N0). destruct (in_dec Nat.eq_dec q (addrs (LS k))); split; auto; right; reflexivity. }
  destruct (lstep_fr _ _ _ _ _ _ _ FR NA E) as (lb & EB & FR').
  pose proof SR' as (RP' & AL' & IT'). pose proof SR as (_ & AL & _).
  assert (HL : forall b, l_heap l' b = seg L' None b) by apply RP'.
  destruct (commit s LS fl k p L' (l_heap lb) I) as (B1 & B2 & fl' & MI & LEN).
  { intros q Q. destruct (HP q Q) as (X1 & X2 & X3 & X4 & X5). repeat split; auto. rewrite <- (map_length snd L'), AL', Q.
    cbn [some]. rewrite <- (map_length snd (LS k)), AL. apply adds_len; [exact X1|]. destruct o; auto. }
  { apply RP'. }
  { intros b X. destruct (seg_some _ None _ X) as [x S]. rewrite <- HL in S. exact (fr_dom _ _ _ _ FR' b x S). }
  { intros b. rewrite (fr_heap _ _ _ _ FR'), HL. reflexivity. }
  exists lb, L', fl'. split; [exact EB|]. cbn [set_list p_mem p_free p_brk p_lists]. split; [exact MI|]. split; [exact B1|].
  split.
  { intros spare used j. cbn [set_list p_lists change m_lists]. destruct (Nat.eqb_spec j k) as [->|NE].
    - eapply srep_ext; [..|exact SR']; cbn [set_heap l_head l_tail l_count l_iters l_heap]; try apply FR'. intros b. symmetry. apply HL.
    - rewrite B2. exact (LO j). }
  rewrite <- AL', <- AL, !map_length. split; [reflexivity|]. split; [reflexivity|exact LEN].
Qed.

Lemma pstep_ok s m LS fl c : inv s m LS fl -> call_ok m c ->
  exists s' LS' fl', pstep s c = Ok (s', snd (mstep m c)) /\ inv s' (fst (mstep m c)) LS' fl'.
Proof.
  intros I V. pose proof I as [MI LO SP TO PE MO]. destruct c as [k|k o mem|k]; cbn [pstep mstep call_ok] in *.
  - (* new *) exists (set_list s k (Some list_create)), LS, fl. split; [reflexivity|].
    pose proof (LO k) as LK. rewrite V in LK. destruct (p_lists s k); [contradiction|].
    split; cbn [fst change m_spare m_used m_peak set_list p_mem p_free p_brk p_lists m_lists]; auto; try lia.
    intros j. cbn [set_list p_lists change m_lists]. destruct (Nat.eqb_spec j k) as [->|]; [|exact (LO j)].
    rewrite LK. eapply srep_ext; [..|exact rep_empty]; reflexivity.
  - destruct V as (a & MK & V). pose proof (LO k) as LK. rewrite MK in LK. destruct (p_lists s k) as [l|] eqn:PK; [|contradiction]. clear LK. rewrite MK.
    rewrite takes_adds. destruct (adds o) eqn:AD.
    + destruct (node_alloc_ok s mem LS fl MI) as (s1 & p & E & HP). rewrite E. cbn [bind]. destruct p as [q|].
      * destruct HP as (fl1 & MI1 & PL & M0 & Q1 & Q2 & Q3 & CASE). destruct (do_ok s1 m LS fl1 k l a o (Some q)) as (lb & L' & fl' & EB & MI' & B' & LO' & N1 & N2 & N3).
        { exact MI1. } { intros j. rewrite PL. exact (LO j). } { rewrite PL. exact PK. } { exact MK. } { exact V. } { intros r X. injection X as <-. auto. }
        rewrite EB. cbn [bind fst snd some] in *. destruct (adds_len a o AD) as [AL _]. { destruct o; auto. }
        assert (LL : length fl' = length fl1) by lia.
        destruct CASE as [[-> BE]|(-> & [j ->] & L9 & BE)].
        -- cbn [length] in SP. rewrite SP. destruct (astep a (served o true)) as [a' r]. cbn [fst snd] in *.
           eexists _, _, fl'. split; [reflexivity|]. split; [exact MI'|apply LO'|..]; cbn [change m_spare m_used m_peak]; rewrite ?B', ?BE; try lia.
        -- cbn [length] in SP. rewrite SP. destruct (astep a (served o true)) as [a' r]. cbn [fst snd] in *.
           eexists _, _, fl'. split; [reflexivity|]. split; [exact MI'|apply LO'|..]; cbn [change m_spare m_used m_peak]; rewrite ?B', ?BE; try lia.
      * destruct HP as (-> & -> & ->). destruct (do_ok s m LS [] k l a o None) as (lb & L' & fl' & EB & MI' & B' & LO' & N1 & N2 & N3); auto; [discriminate|].
        rewrite EB. cbn [bind fst snd some length] in *. rewrite SP. destruct (adds_len a o AD) as [_ AL]. { destruct o; auto. }
        destruct (astep a (served o false)) as [a' r]. cbn [fst snd] in *. subst a'.
        eexists _, _, fl'. split; [reflexivity|]. split; [exact MI'|apply LO'|..]; cbn [change m_spare m_used m_peak]; rewrite ?B'; try lia.
    + cbn [bind]. destruct (do_ok s m LS fl k l a o None) as (lb & L' & fl' & EB & MI' & B' & LO' & N1 & N2 & N3); auto; [discriminate|].
      rewrite EB. cbn [bind fst snd some] in *. assert (SV : served o false = o) by (destruct o; try discriminate; reflexivity).
      rewrite SV in *. pose proof (keeps_len a o AD) as KL. destruct (astep a o) as [a' r]. cbn [fst snd] in *.
      pose proof (len_le _ _ _ _ k I) as LE.
      eexists _, _, fl'. split; [reflexivity|]. split; [exact MI'|apply LO'|..]; cbn [change m_spare m_used m_peak]; rewrite ?B'; try lia.
  - pose proof (LO k) as LK. destruct (m_lists m k) as [a|] eqn:MK; [|congruence]. destruct (p_lists s k) as [l|] eqn:PK; [|contradiction].
    pose proof LK as (RP & AL & _). pose proof RP as [SH TL CN]. cbn [set_heap l_count l_head] in *.
    destruct (destroy_loop_ok (LS k) (S (length (LS k))) (seg (LS k) None)) as (h & EH & HZ); auto; [apply SH|].
    assert (FR := fr_whole l LS _ _ _ _ k MI (fun _ => True) (fun _ _ => Logic.I)).
    destruct (destroy_loop_fr (fun b => if in_dec Nat.eq_dec b (addrs (LS k)) then None else p_mem s b) _ _ (p_mem s) _ _ _ (fr_heap _ _ _ _ FR) (fr_dj _ _ _ _ FR) EH) as (hb & EB & HB).
    unfold list_destroy. cbn [set_heap l_count l_head l_heap]. rewrite CN, (sh_head _ _ SH : l_head l = _), EB. cbn [bind fst snd].
    destruct (commit s LS fl k None [] hb MI) as (B1 & B2 & fl' & MI' & LEN); [discriminate|constructor|cbn; tauto|..].
    { intros b. rewrite HB, HZ. reflexivity. }
    pose proof (len_le _ _ _ _ k I) as LE. assert (LA : length (a_list a) = length (LS k)) by (rewrite <- AL, map_length; reflexivity).
    eexists _, _, fl'. rewrite AL. split; [reflexivity|]. cbn [length] in LEN.
    split; cbn [fst change m_spare m_used m_peak set_list p_mem p_free p_brk p_lists]; [exact MI'|..]; try lia.
    intros j. cbn [set_list p_lists change m_lists]. destruct (Nat.eqb_spec j k) as [->|]; [reflexivity|]. rewrite B2. exact (LO j).
Qed.

Lemma prun_ok cs : forall s m LS fl, inv s m LS fl -> calls_ok m cs ->
  exists s' LS' fl', prun s cs = Ok (s', snd (mrun m cs)) /\ inv s' (fst (mrun m cs)) LS' fl'.
Proof.
  induction cs as [|c cs IH]; intros s m LS fl I V; cbn [prun mrun]; [eauto 6|]. destruct V as [V1 V2].
  destruct (pstep_ok _ _ _ _ _ I V1) as (s1 & LS1 & fl1 & E1 & I1). rewrite E1. cbn [bind fst snd].
  destruct (mstep m c) as [m1 r1]. cbn [fst snd] in *. destruct (IH _ _ _ _ I1 V2) as (s2 & LS2 & fl2 & E2 & I2). rewrite E2. cbn [bind fst snd].
  destruct (mrun m1 cs) as [m2 r2]. cbn [fst snd] in *. eauto 6.
Qed.

Lemma contents_ok s m LS fl k : inv s m LS fl -> contents s k = match m_lists m k with Some a => Some (a_list a) | None => None end.
Proof.
  intros [MI LO _ _ _ _]. specialize (LO k). unfold contents. destruct (p_lists s k) as [l|], (m_lists m k) as [a|]; try contradiction; [|reflexivity].
  destruct LO as ([SH TL CN] & AL & _). cbn [set_heap l_count] in CN. f_equal. unfold elems. cbn [set_heap l_count l_head l_heap].
  rewrite CN, (sh_head _ _ SH : l_head l = _), <- AL. apply elems_seg; [apply SH|]. apply (mi_mem _ _ _ _ _ MI).
Qed.
Lemma chain_len (mem : heap) fl : forall p, chain mem p fl -> nodes_from (length fl) mem p = fl.
Proof.
  induction fl as [|a t IH]; intros p; cbn [chain length nodes_from]; [intros ->; reflexivity|]. intros (-> & d & n & E & C). rewrite E. f_equal. apply IH. exact C.
Qed.
End All.

(** ** One list among others *)
Section View.
Context {D : Type}.

Lemma change_at (m : many (D:=D)) k l a b j : m_lists (change m k l a b) j = if j =? k then l else m_lists m j.
Proof. reflexivity. Qed.
(** with memory, what a call does to its list and returns depends on that list only *)
Lemma mstep_local (m1 m2 : many (D:=D)) c k : on k c = true -> memory c -> m_lists m1 k = m_lists m2 k ->
  snd (mstep m1 c) = snd (mstep m2 c) /\ m_lists (fst (mstep m1 c)) k = m_lists (fst (mstep m2 c)) k.
Proof.
  destruct c as [j|j o mem|j]; cbn [on memory mstep]; rewrite Nat.eqb_eq; intros -> M E.
  - cbn [fst snd]. rewrite !change_at, Nat.eqb_refl. auto.
  - rewrite E. destruct (m_lists m2 k) as [l|] eqn:Q; [|cbn; rewrite E, Q; auto]. destruct (adds o).
    + destruct mem; [|contradiction]. destruct (m_spare m1), (m_spare m2); destruct (astep l (served o true)); cbn [fst snd]; rewrite !change_at, Nat.eqb_refl; auto.
    + destruct (astep l o). cbn [fst snd]. rewrite !change_at, Nat.eqb_refl. auto.
  - rewrite E. destruct (m_lists m2 k) as [l|] eqn:Q; [|cbn; rewrite E, Q; auto]. cbn [fst snd]. rewrite !change_at, Nat.eqb_refl. auto.
Qed.
Lemma mstep_other (m : many (D:=D)) c k : on k c = false -> m_lists (fst (mstep m c)) k = m_lists m k.
Proof.
  destruct c as [j|j o mem|j]; cbn [on mstep]; rewrite Nat.eqb_sym; intros N.
  - cbn [fst]. rewrite change_at, N. reflexivity.
  - destruct (m_lists m j) as [l|]; [|reflexivity]. destruct (adds o).
    + destruct (m_spare m), mem; destruct (astep l (served o _)); cbn [fst]; rewrite change_at, N; reflexivity.
    + destruct (astep l o). cbn [fst]. rewrite change_at, N. reflexivity.
  - destruct (m_lists m j) as [l|]; [|reflexivity]. cbn [fst]. rewrite change_at, N. reflexivity.
Qed.
Lemma call_ok_local (m1 m2 : many (D:=D)) c k : on k c = true -> m_lists m1 k = m_lists m2 k -> call_ok m1 c -> call_ok m2 c.
Proof. destruct c as [j|j o mem|j]; cbn [on call_ok]; rewrite Nat.eqb_eq; intros -> E; rewrite E; auto. Qed.

Lemma mrun_local k cs : forall m1 m2 : many (D:=D), Forall memory cs -> m_lists m1 k = m_lists m2 k -> calls_ok m1 cs ->
  calls_ok m2 (filter (on k) cs) /\ snd (mrun m2 (filter (on k) cs)) = about k cs (snd (mrun m1 cs)) /\
  m_lists (fst (mrun m2 (filter (on k) cs))) k = m_lists (fst (mrun m1 cs)) k.
Proof.
  induction cs as [|c cs IH]; intros m1 m2 M E V; [cbn; auto|]. cbn [calls_ok] in V. destruct V as [V1 V2]. inversion M as [|? ? M1 M2]; subst.
  cbn [filter mrun]. destruct (mstep m1 c) as [m1' r1] eqn:E1. destruct (mrun m1' cs) as [m1'' rs] eqn:E1'. cbn [fst snd] in *.
  unfold about. cbn [combine filter fst]. destruct (on k c) eqn:O; cbn [map snd].
  - destruct (mstep_local m1 m2 c k O M1 E) as [X Y]. rewrite E1 in X, Y. cbn [fst snd] in X, Y.
    destruct (IH m1' (fst (mstep m2 c)) M2 Y V2) as (A & B & C). rewrite E1' in B, C. cbn [mrun calls_ok].
    split; [split; [eapply call_ok_local; eauto|exact A]|].
    destruct (mstep m2 c) as [m2' r2]. cbn [fst snd] in *. destruct (mrun m2' (filter (on k) cs)). cbn [fst snd] in *. rewrite B, X. auto.
  - pose proof (mstep_other m1 c k O) as Y. rewrite E1 in Y. cbn [fst] in Y.
    destruct (IH m1' m2 M2 (eq_trans Y E) V2) as (A & B & C). rewrite E1' in B, C. auto.
Qed.
End View.

(** ** What is in use *)
Section Used.
Context {D : Type}.
Definition len_at (m : many (D:=D)) (k : nat) : nat := match m_lists m k with Some a => length (a_list a) | None => 0 end.
Definition total (m : many (D:=D)) (ks : list nat) : nat := list_sum (map (len_at m) ks).
Definition covers (m : many (D:=D)) (ks : list nat) : Prop := NoDup ks /\ forall k, m_lists m k <> None -> In k ks.
Definition counts (m : many (D:=D)) : Prop := forall ks, covers m ks -> m_used m = total m ks.

Lemma total_cons m k ks : total m (k :: ks) = len_at m k + total m ks.
Proof. reflexivity. Qed.
Lemma total_same m m' k ks : (forall j, j <> k -> m_lists m' j = m_lists m j) -> ~ In k ks -> total m' ks = total m ks.
Proof.
  intros H. induction ks as [|j ks IH]; [reflexivity|]. rewrite !total_cons. cbn [In]. intros N. rewrite IH by tauto. f_equal. unfold len_at. rewrite H; [reflexivity|].
  intros ->. tauto.
Qed.
Lemma total_change m m' k ks : (forall j, j <> k -> m_lists m' j = m_lists m j) -> NoDup ks -> In k ks -> total m' ks + len_at m k = total m ks + len_at m' k.
Proof.
  intros H. induction ks as [|j ks IH]; [contradiction|]. intros N I. inversion N; subst. rewrite !total_cons. destruct (Nat.eq_dec j k) as [->|NE].
  - rewrite (total_same m m' k ks H) by assumption. lia.
  - destruct I as [->|I]; [congruence|]. specialize (IH ltac:(assumption) I). assert (len_at m' j = len_at m j) by (unfold len_at; rewrite H by exact NE; reflexivity). lia.
Qed.
Lemma counts_change m m' k : counts m -> (forall j, j <> k -> m_lists m' j = m_lists m j) ->
  (len_at m k <= m_used m -> m_used m' + len_at m k = m_used m + len_at m' k) -> counts m'.
Proof.
  intros C H U ks [N K].
  assert (G : forall ks', NoDup ks' -> (forall j, m_lists m' j <> None -> In j ks') -> In k ks' -> m_used m' = total m' ks').
  { intros ks' N' K' I. assert (CV : covers m ks').
    { split; [exact N'|]. intros j J. destruct (Nat.eq_dec j k) as [->|NE]; [exact I|]. apply K'. rewrite H by exact NE. exact J. }
    specialize (C ks' CV). pose proof (total_change _ _ _ _ H N' I) as T.
    assert (len_at m k <= total m ks').
    { clear - I. induction ks' as [|j t IH]; [contradiction|]. rewrite total_cons. destruct I as [->|I]; [lia|]. specialize (IH I). lia. }
    rewrite <- C in *. specialize (U H0). lia. }
  destruct (in_dec Nat.eq_dec k ks) as [I|I]; [auto|]. rewrite (G (k :: ks)).
  - rewrite total_cons. unfold len_at. destruct (m_lists m' k) eqn:E; [|reflexivity]. destruct I. apply K. congruence.
  - constructor; assumption.
  - intros j J. right. auto.
  - left. reflexivity.
Qed.
Lemma counts_step m c : counts m -> call_ok m c -> counts (fst (mstep m c)).
Proof.
  intros C V. assert (OTH : forall k j, j <> k -> on k c = true -> m_lists (fst (mstep m c)) j = m_lists m j).
  { intros k j NE O. apply mstep_other. destruct c; cbn [on] in *; apply Nat.eqb_eq in O; apply Nat.eqb_neq; congruence. }
  destruct c as [k|k o mem|k]; (apply (counts_change m _ k C); [intros j NE; apply (OTH k j NE); cbn; apply Nat.eqb_refl|]); cbn [mstep call_ok] in *; unfold len_at.
  - cbn [fst change m_lists m_used]. rewrite Nat.eqb_refl, V. cbn. lia.
  - destruct V as (a & MK & V). rewrite MK. destruct (adds o) eqn:AD.
    + destruct (adds_len a o AD) as [A1 A2]. { destruct o; auto. }
      destruct (astep a (served o true)) as [a1 r1] eqn:E1, (astep a (served o false)) as [a2 r2] eqn:E2. cbn [fst] in A1, A2.
      destruct (m_spare m), mem; cbn [fst change m_lists m_used]; rewrite Nat.eqb_refl; subst; lia.
    + pose proof (keeps_len a o AD). destruct (astep a o) as [a' r]. cbn [fst change m_lists m_used] in *. rewrite Nat.eqb_refl. lia.
  - destruct (m_lists m k) as [a|]; [|congruence]. cbn [fst change m_lists m_used]. rewrite Nat.eqb_refl. lia.
Qed.
Lemma counts_run cs : forall m, counts m -> calls_ok m cs -> counts (fst (mrun m cs)).
Proof.
  induction cs as [|c cs IH]; intros m C V; [exact C|]. destruct V as [V1 V2]. pose proof (counts_step _ _ C V1) as C1. cbn [mrun].
  destruct (mstep m c) as [m1 r1]. cbn [fst] in *. specialize (IH m1 C1 V2). destruct (mrun m1 cs). exact IH.
Qed.
Lemma counts_start : counts nothing.
Proof. intros ks _. induction ks as [|k ks IH]; [reflexivity|]. rewrite total_cons. exact IH. Qed.
End Used.
