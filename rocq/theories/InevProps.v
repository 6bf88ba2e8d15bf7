(** Theorems about the file watcher. *)
From Coq Require Import String.
From Verif Require Import Base BaseProof Mem Chars LexProof InevModel InevSpec InevProof InevRun.
From Coq Require Import ZifyNat.
Local Open Scope Z_scope.

Lemma names_file p d f d' f' : names p d f -> names p d' f' -> f = f'.
Proof.
  assert (X : forall a f b f', ~ In 47 f -> ~ In 47 f' -> a ++ 47 :: f = b ++ 47 :: f' -> f = f').
  { clear. induction a as [|x a IH]; intros f [|y b] f' N N' E; cbn [app] in E.
    - congruence.
    - injection E as _ E. destruct N. rewrite E. apply in_or_app. right. left. reflexivity.
    - injection E as _ E. destruct N'. rewrite <- E. apply in_or_app. right. left. reflexivity.
    - injection E as _ E. eapply IH; eauto. }
  intros (N & H) (N' & H'). assert (exists a b, a ++ 47 :: f = b ++ 47 :: f') as (a & b & E).
  { destruct H as [(-> & _)|(-> & _)]; destruct H' as [(E & _)|(E & _)]; [exists d, d'|exists d, []|exists [], d'|exists [], []]; exact E. }
  exact (X a f b f' N N' E).
Qed.

(** no history of registrations, removals, creations, deletions and reads goes wrong *)
Theorem C58_safe : forall dbg ops, Forall (fine dbg) ops -> exists s ran, run dbg st0 ops = Ok (s, ran).
Proof. intros dbg ops F. destruct (run_ok dbg ops [] st0 inv0 F) as (s & ran & E & _). eauto. Qed.

(** a registration that succeeds is watched in the directory of the file *)
Theorem C58_registered : forall dbg ops s ok dir path cb s', Forall (fine dbg) ops -> reaches dbg ops s -> chars_ok path -> (dbg = true -> ok = true) ->
  inevent_add dbg ok dir s path cb = Ok (s', 0) -> exists d f inode, names path d f /\ dir d = Some inode /\ watching s' path inode cb.
Proof.
  intros dbg ops s ok dir path cb s' F R C OK E. destruct (add_step dbg ops s ok dir path cb (reach_inv _ _ _ F R) C OK) as (s2 & rv & E2 & _ & W & _). rewrite E in E2. injection E2 as <- <-.
  destruct (W eq_refl) as (_ & d & f & inode & _ & N & D & X). exists d, f, inode. auto.
Qed.

(** a registration stays watched until it is removed, or its directory is deleted *)
Theorem C58_kept : forall dbg ops s o path inode cb, Forall (fine dbg) ops -> reaches dbg ops s -> fine dbg o -> o <> Remove path -> o <> Gone inode ->
  watching s path inode cb -> exists s' ran, step dbg s o = Ok (s', ran) /\ watching s' path inode cb.
Proof.
  intros dbg ops s o path inode cb F R FO N1 N2 W. destruct (step_ok dbg ops s o (reach_inv _ _ _ F R) FO) as (s' & ran & E & _ & K & _). exists s', ran. split; [exact E|]. apply K; auto.
Qed.

(** what is removed is not registered any more *)
Theorem C58_removed : forall dbg ops s path, Forall (fine dbg) ops -> reaches dbg ops s ->
  exists s', step dbg s (Remove path) = Ok (s', []) /\ (forall cb, ~ registered s' path cb).
Proof.
  intros dbg ops s path F R. destruct (remove_step dbg ops s path (reach_inv _ _ _ F R)) as (s' & E & _ & _ & N). exists s'. split; [cbn [step]; rewrite E; reflexivity|exact N].
Qed.

(** the kernel watches no directory without need, and a registration that is not watched is
    one whose directory is known to be gone *)
Theorem C58_watches : forall dbg ops s, Forall (fine dbg) ops -> reaches dbg ops s ->
  (forall inode wd, In (inode, wd) (k_watch (i_k s)) -> exists path cb, watching s path inode cb) /\
  (forall path cb, registered s path cb -> (exists inode, watching s path inode cb) \/ lost s path).
Proof.
  intros dbg ops s F R. pose proof (reach_inv _ _ _ F R) as IV. destruct (i_fd s) eqn:FD.
  - destruct (iv_on _ _ IV FD) as (l & H & L & K & ND & RG & WT & QE). split.
    + intros inode wd I. destruct (WT _ I) as (r & A & B). exists (r_path r), (r_cb r), l, r. cbn [snd] in B. rewrite B. auto.
    + intros path cb (l0 & r & A & B & C & D). rewrite L in A. injection A as <-. destruct (RG r B) as (_ & i & _ & _ & [X|X]).
      * left. exists i, l, r. auto.
      * right. exists l, r. auto.
  - destruct (iv_off _ _ IV FD) as [L K]. rewrite K. split; [intros ? ? []|]. intros path cb (l0 & r & A & _). congruence.
Qed.

(** when a watched file is created its callback runs, once that many events have been handled,
    whatever else happens in between *)
Theorem C58_delivered : forall dbg ops s path d f inode cb more, Forall (fine dbg) ops -> reaches dbg ops s ->
  watching s path inode cb -> names path d f -> f <> [] ->
  (forall path' d' cb', watching s path' inode cb' -> names path' d' f -> path' = path) ->
  Forall (fine dbg) more -> ~ In (Remove path) more -> (waiting s < handled more)%nat ->
  exists s' ran, run dbg s (Created inode f :: more) = Ok (s', ran) /\ In cb ran.
Proof.
  intros dbg ops s path d f inode cb more F R (l & r & L & I & RP & RC & W) NM NE UN FM NR HM. pose proof (reach_inv _ _ _ F R) as IV.
  assert (FD : i_fd s = true) by (destruct (i_fd s) eqn:FD; [reflexivity|]; destruct (iv_off _ _ IV FD); congruence).
  destruct (iv_on _ _ IV FD) as (l0 & H & L0 & K & ND & RG & WT & QE). assert (l0 = l) by congruence. subst l0.
  destruct (RG r I) as (CB & j & HJ & (ok & dir & AI & NMJ & DJ) & _). assert (RF : r_file r = f) by (rewrite RP in NMJ; exact (names_file _ _ _ _ _ NMJ NM)).
  cbn [run step bind fst snd]. set (s1 := mkSt (i_fd s) (i_list s) (k_created (i_k s) inode f)).
  assert (IV1 : inv (ops ++ [Created inode f]) s1) by (apply created_step; exact IV).
  assert (D : due r (S (waiting s)) s1).
  { split; [exact FD|]. destruct (in_split _ _ I) as (l1 & l2 & LS). unfold s1. cbn [i_list i_k]. rewrite L, LS. exists l1, l2.
    assert (NI : ~ In (EIgnored (r_wd r)) (k_queue (i_k s))). { intros X. destruct (ki_ign _ _ K _ X) as [_ Y]. apply Y. apply in_map_iff. exists (inode, r_wd r). auto. }
    assert (FR : forall x, In x l1 -> by_event (r_wd r) (r_file r) x = false).
    { intros x X. destruct (by_event (r_wd r) (r_file r) x) eqn:BE; [|reflexivity]. exfalso. unfold by_event in BE. apply andb_true_iff in BE. destruct BE as [B1 B2].
      apply Z.eqb_eq in B1. apply eqb_eq in B2. assert (XL : In x l) by (rewrite LS; apply in_or_app; auto). destruct (RG x XL) as (_ & jx & _ & (_ & _ & _ & NX & _) & _).
      assert (PX : r_path x = path). { apply (UN (r_path x) (r_dir x) (r_cb x)); [exists l, x; rewrite B1; auto|rewrite <- RF, <- B2; exact NX]. }
      rewrite LS, map_app in ND. cbn [map] in ND. apply NoDup_remove_2 in ND. apply ND. apply in_or_app. left. rewrite RP, <- PX. apply in_map. exact X. }
    unfold k_created. assert (WO : watch_of (i_k s) inode = Some (r_wd r)) by (apply (watch_in H _ _ _ K); exact W). rewrite WO.
    destruct (enqueue_shape (ECreate (r_wd r) f) (i_k s)) as (_ & _ & [Q|(Q & q & QQ)]).
    - exists (k_queue (i_k s)), []. split; [reflexivity|]. split; [rewrite RF; exact Q|]. split; [exact NI|]. split; [exact FR|]. unfold waiting. lia.
    - exists q, []. split; [reflexivity|]. split; [rewrite RF, Q; exact QQ|]. split; [intros X; apply NI; rewrite QQ; apply in_or_app; auto|]. split; [exact FR|].
      unfold waiting. rewrite QQ, app_length. cbn [length]. lia. }
  destruct (due_run dbg r more) with (past := ops ++ [Created inode f]) (s := s1) (m := S (waiting s)) as (s2 & ran & E & C); auto.
  - rewrite RF. exact NE.
  - rewrite RP. exact NR.
  - rewrite E. cbn [bind fst snd app]. exists s2, ran. split; [reflexivity|]. rewrite <- RC. exact C.
Qed.

(** a callback runs only after a file it was registered for has been created *)
Theorem C58_only_if_created : forall dbg ops s ran cb, Forall (fine dbg) ops -> run dbg st0 ops = Ok (s, ran) -> In cb ran -> caused ops cb.
Proof.
  intros dbg ops s ran cb F R I. destruct (run_ok dbg ops [] st0 inv0 F) as (s' & ran' & E & _ & C). rewrite E in R. injection R as <- <-. exact (C cb I).
Qed.

(** ** Where the property fails *)
Definition tmp : list Z := zs "/tmp/c.sock".
Definition link : list Z := zs "/link/c.sock".
Definition fs (p : list Z) : option Z := if list_eqb p (zs "/tmp") || list_eqb p (zs "/link") then Some 7 else None.
(** two paths that lead to the same directory: only the console registered first is told *)
Theorem C58_alias_refuted : exists ops s, Forall (fine false) ops /\ reaches false ops s /\ watching s tmp 7 1 /\ watching s link 7 2 /\
  exists s', run false s [Created 7 (zs "c.sock"); Process 100] = Ok (s', [1]) /\ waiting s' = 0%nat.
Proof.
  exists [Add true fs tmp 1; Add true fs link 2]. eexists. split; [|split; [|split; [|split]]].
  - assert (chars_ok tmp /\ chars_ok link) as [A B] by (split; repeat constructor; discriminate).
    constructor; [split; [exact A|discriminate]|]. constructor; [split; [exact B|discriminate]|constructor].
  - eexists. vm_compute. reflexivity.
  - eexists _, _. split; [reflexivity|]. split; [left; reflexivity|]. vm_compute. auto.
  - eexists _, _. split; [reflexivity|]. split; [right; left; reflexivity|]. vm_compute. auto.
  - eexists. split; vm_compute; reflexivity.
Qed.
(** a directory that is deleted and made again: the registration is gone *)
Theorem C58_recreated_refuted : exists s s' ran, reaches false [Add true fs tmp 1] s /\ watching s tmp 7 1 /\
  run false s [Gone 7; Process 100; Created 8 (zs "c.sock"); Process 100] = Ok (s', ran) /\ ran = [] /\ ~ registered s' tmp 1.
Proof.
  eexists _, _, _. split; [eexists; vm_compute; reflexivity|]. split; [|split; [vm_compute; reflexivity|split; [reflexivity|]]].
  - eexists _, _. split; [reflexivity|]. split; [left; reflexivity|]. vm_compute. auto.
  - intros (l & r & A & B & _). injection A as <-. destruct B.
Qed.
(** a debug build stops when the kernel has no inotify *)
Theorem C58_init_failure_refuted : forall dir t cb, cb <> 0 -> step true st0 (Add false dir (47 :: t) cb) = UB AssertFail /\
  step false st0 (Add false dir (47 :: t) cb) = Ok (st0, []).
Proof. intros dir t cb C. cbn [step]. unfold inevent_add. destruct (Z.eqb_spec cb 0); [contradiction|]. split; reflexivity. Qed.

(** ** The hypotheses are met *)
Example C58_nonvacuous : exists s s' ran, let ops := [Add true fs tmp 1; Add true fs (zs "/tmp/d.sock") 2; Remove (zs "/tmp/d.sock")] in
  Forall (fine true) ops /\ reaches true ops s /\ watching s tmp 7 1 /\ names tmp (zs "/tmp") (zs "c.sock") /\
  (forall path' d' cb', watching s path' 7 cb' -> names path' d' (zs "c.sock") -> path' = tmp) /\
  run true s [Created 7 (zs "c.sock"); Created 7 (zs "x"); Gone 7; Process 1; Process 5] = Ok (s', ran) /\ ran = [1] /\ waiting s' = 0%nat.
Proof.
  eexists _, _, _. split.
  { assert (chars_ok tmp /\ chars_ok (zs "/tmp/d.sock")) as [A B] by (split; repeat constructor; discriminate).
    repeat (constructor; [split; [first [exact A|exact B|exact I]|intros _; first [reflexivity|exact I]]|]). constructor. }
  split; [eexists; vm_compute; reflexivity|].
  split; [eexists _, _; split; [reflexivity|]; split; [left; reflexivity|]; vm_compute; auto|].
  split; [split; [vm_compute; intuition discriminate|]; left; split; [reflexivity|discriminate]|].
  split; [intros p d c (l & r & A & B & C & _) _; injection A as <-; destruct B as [<-|[]]; symmetry; exact C|].
  split; [vm_compute; reflexivity|]. split; reflexivity.
Qed.
Print Assumptions C58_safe.
Print Assumptions C58_registered.
Print Assumptions C58_kept.
Print Assumptions C58_removed.
Print Assumptions C58_watches.
Print Assumptions C58_delivered.
Print Assumptions C58_only_if_created.
Print Assumptions C58_alias_refuted.
Print Assumptions C58_recreated_refuted.
Print Assumptions C58_init_failure_refuted.
