(** Histories of the file watcher. *)
From Verif Require Import Base BaseProof Mem Chars LexProof InevModel InevSpec InevProof.
From Coq Require Import ZifyNat.
Local Open Scope Z_scope.

Lemma inv_more past o s : inv past s -> inv (past ++ [o]) s.
Proof.
  intros [OFF ON]. constructor; [exact OFF|]. intros F. destruct (ON F) as (l & H & L & K & ND & RG & WT & QE). exists l, H. repeat (split; [assumption|]). split; [|split; [exact WT|]].
  - intros r I. destruct (RG r I) as (CB & i & A & B & C). split; [exact CB|]. exists i. split; [exact A|]. split; [apply came_more; exact B|exact C].
  - intros wd nm I. destruct (QE wd nm I) as (i & A & B). exists i. split; [exact A|]. apply in_or_app. auto.
Qed.
Lemma created_step past s inode name : inv past s -> inv (past ++ [Created inode name]) (mkSt (i_fd s) (i_list s) (k_created (i_k s) inode name)).
Proof.
  intros IV. pose proof (inv_more past (Created inode name) s IV) as [OFF ON]. constructor; cbn [i_fd i_list i_k].
  - intros F. destruct (OFF F) as [-> ->]. split; reflexivity.
  - intros F. destruct (ON F) as (l & H & L & K & ND & RG & WT & QE). destruct (created_ok H (i_k s) inode name K) as (K1 & W1 & QK & _ & QI). exists l, H.
    split; [exact L|]. split; [exact K1|]. split; [exact ND|]. rewrite W1. split; [|split; [exact WT|]].
    + intros r I. destruct (RG r I) as (CB & i & A & B & C). split; [exact CB|]. exists i. split; [exact A|]. split; [exact B|]. destruct C as [C|C]; auto.
    + intros wd nm I. apply QI in I. destruct I as [I|(v & V & E)]; [apply QE; exact I|]. injection E as -> ->. exists inode. split; [apply (ki_hist _ _ K); exact V|]. apply in_or_app. right. left. reflexivity.
Qed.
Lemma gone_step past s inode : inv past s -> inv (past ++ [Gone inode]) (mkSt (i_fd s) (i_list s) (k_gone (i_k s) inode)).
Proof.
  intros IV. pose proof (inv_more past (Gone inode) s IV) as [OFF ON]. constructor; cbn [i_fd i_list i_k].
  - intros F. destruct (OFF F) as [-> ->]. split; reflexivity.
  - intros F. destruct (ON F) as (l & H & L & K & ND & RG & WT & QE). destruct (gone_ok H (i_k s) inode K) as (q & K1 & Q & WI & WG & QN). exists l, H.
    split; [exact L|]. split; [exact K1|]. split; [exact ND|]. split; [|split].
    + intros r I. destruct (RG r I) as (CB & i & A & B & C). split; [exact CB|]. exists i. split; [exact A|]. split; [exact B|]. destruct C as [C|C].
      * destruct (WG _ _ C) as [W|[_ W]]; auto.
      * right. rewrite Q. apply in_or_app. auto.
    + intros p I. apply WT. apply WI. exact I.
    + intros wd nm I. rewrite Q in I. apply in_app_or in I. destruct I as [I|I]; [apply QE; exact I|]. destruct (QN _ I) as (v & E). discriminate E.
Qed.
Lemma In_firstn_skipn {A} n (l : list A) x : In x l <-> In x (firstn n l) \/ In x (skipn n l).
Proof. rewrite <- in_app_iff, firstn_skipn. tauto. Qed.
Lemma process_nodup es : forall l, NoDup (map r_path l) -> NoDup (map r_path (fst (process_events l es))).
Proof.
  induction es as [|[wd name|wd] es IH]; intros l N; cbn [process_events]; [exact N| |].
  - pose proof (IH l N) as X. destruct (process_events l es) as [l' ran]. cbn [fst] in X. destruct name; [exact X|]. destruct (find _ l); exact X.
  - apply IH. apply NoDup_filter_map. exact N.
Qed.
Lemma process_step past s n : inv past s -> exists s' ran, inevent_process n s = Ok (s', ran) /\ inv (past ++ [Process n]) s' /\
  (forall p i c, watching s p i c -> watching s' p i c) /\ (forall cb, In cb ran -> caused past cb).
Proof.
  intros IV. pose proof (inv_more past (Process n) s IV) as IV'. unfold inevent_process. destruct (i_fd s) eqn:FD.
  2:{ exists s, []. split; [reflexivity|]. split; [exact IV'|]. split; [auto|intros ? []]. }
  destruct (iv_on _ _ IV FD) as (l & H & L & K & ND & RG0 & _ & QE0). destruct (iv_on _ _ IV' FD) as (l2 & H2 & L2 & K2 & _ & RG & WT & QE). assert (l2 = l) by congruence. subst l2.
  destruct (firstn n (k_queue (i_k s))) as [|e es] eqn:FN.
  { exists s, []. split; [reflexivity|]. split; [exact IV'|]. split; [auto|intros ? []]. }
  rewrite L. rewrite <- FN. pose proof (process_in l (firstn n (k_queue (i_k s)))) as PI. pose proof (process_ran l (firstn n (k_queue (i_k s)))) as PR. pose proof (process_nodup (firstn n (k_queue (i_k s))) l ND) as PN.
  destruct (process_events l (firstn n (k_queue (i_k s)))) as [l' ran]. cbn [fst snd] in *. eexists _, _. split; [reflexivity|].
  assert (STAY : forall r i, In r l -> In (i, r_wd r) (k_watch (i_k s)) -> In r l').
  { intros r i I W. apply PI. split; [exact I|]. intros wd IG E. destruct (ki_ign _ _ K wd) as [_ NI]; [apply (In_firstn_skipn n); auto|]. apply NI. rewrite <- E. apply in_map_iff. exists (i, r_wd r). auto. }
  split; [|split].
  - constructor; cbn [i_fd]; [congruence|]. intros _. exists l', H2. cbn [i_list i_k k_watch k_queue]. split; [reflexivity|]. split; [|split; [exact PN|split; [|split]]].
    + destruct K2 as [A1 A2 A3 A4 A5 A6]. constructor; cbn [k_watch k_next k_queue]; auto. intros wd I. apply A6. apply (In_firstn_skipn n). auto.
    + intros r I. apply PI in I. destruct I as [I NI]. destruct (RG r I) as (CB & i & A & B & C). split; [exact CB|]. exists i. split; [exact A|]. split; [exact B|].
      destruct C as [C|C]; [auto|]. apply (In_firstn_skipn n) in C. destruct C as [C|C]; [destruct (NI _ C eq_refl)|auto].
    + intros p I. destruct (WT p I) as (r & A & B). exists r. split; [|exact B]. apply (STAY r (fst p)); [exact A|]. rewrite B. destruct p. exact I.
    + intros wd nm I. apply QE. apply (In_firstn_skipn n). auto.
  - intros p i c (l1 & r & A & B & C & D & E). rewrite L in A. injection A as <-. exists l', r. cbn [i_list i_k k_watch]. split; [reflexivity|]. split; [eapply STAY; eauto|auto].
  - intros cb I. destruct (PR cb I) as (r & nm & A & B & C & D). destruct (RG0 r A) as (_ & i & HI & (ok & dir & AI & NM & DI) & _).
    destruct (QE0 (r_wd r) nm) as (j & HJ & CJ); [apply (In_firstn_skipn n); auto|]. assert (EJ : i = j) by exact (wd_inode H (i_k s) i j (r_wd r) K HI HJ). subst j.
    exists ok, dir, (r_path r), (r_dir r), (r_file r), i. rewrite <- B. split; [exact AI|]. split; [exact NM|]. split; [exact DI|]. rewrite D. exact CJ.
Qed.

Lemma step_ok dbg past s o : inv past s -> fine dbg o -> exists s' ran, step dbg s o = Ok (s', ran) /\ inv (past ++ [o]) s' /\
  (forall p i c, o <> Remove p -> o <> Gone i -> watching s p i c -> watching s' p i c) /\ (forall cb, In cb ran -> caused past cb).
Proof.
  intros IV [O1 O2]. destruct o as [ok dir path cb|path|inode name|inode|n]; cbn [step].
  - destruct (add_step dbg past s ok dir path cb IV O1 O2) as (s' & rv & E & I & _ & W). rewrite E. cbn [bind fst]. exists s', []. split; [reflexivity|]. split; [exact I|]. split; [auto|intros ? []].
  - destruct (remove_step dbg past s path IV) as (s' & E & I & W & _). rewrite E. cbn [bind]. exists s', []. split; [reflexivity|]. split; [exact I|]. split; [intros p i c N _; apply W; congruence|intros ? []].
  - eexists _, []. split; [reflexivity|]. split; [apply created_step; exact IV|]. split; [|intros ? []]. intros p i c _ _ (l & r & A & B & C & D & E).
    exists l, r. cbn [i_list i_k]. assert (FD : i_fd s = true) by (destruct (i_fd s) eqn:FD; [reflexivity|]; destruct (iv_off _ _ IV FD); congruence).
    destruct (iv_on _ _ IV FD) as (l0 & H & _ & K & _). destruct (created_ok H (i_k s) inode name K) as (_ & W1 & _). rewrite W1. auto.
  - eexists _, []. split; [reflexivity|]. split; [apply gone_step; exact IV|]. split; [|intros ? []]. intros p i c _ NG (l & r & A & B & C & D & E).
    exists l, r. cbn [i_list i_k]. assert (FD : i_fd s = true) by (destruct (i_fd s) eqn:FD; [reflexivity|]; destruct (iv_off _ _ IV FD); congruence).
    destruct (iv_on _ _ IV FD) as (l0 & H & _ & K & _). destruct (gone_ok H (i_k s) inode K) as (q & _ & _ & _ & WG & _). destruct (WG _ _ E) as [W|[-> _]]; [auto|congruence].
  - destruct (process_step past s n IV) as (s' & ran & E & I & W & C). exists s', ran. split; [exact E|]. split; [exact I|]. split; [auto|exact C].
Qed.
Lemma caused_more past o cb : caused past cb -> caused (past ++ o) cb.
Proof. intros (ok & dir & p & d & f & i & A & B & C & D). exists ok, dir, p, d, f, i. split; [apply in_or_app; auto|]. split; [exact B|]. split; [exact C|]. apply in_or_app. auto. Qed.
Lemma run_ok dbg ops : forall past s, inv past s -> Forall (fine dbg) ops -> exists s' ran, run dbg s ops = Ok (s', ran) /\ inv (past ++ ops) s' /\ (forall cb, In cb ran -> caused (past ++ ops) cb).
Proof.
  induction ops as [|o ops IH]; intros past s IV F; cbn [run].
  - exists s, []. rewrite app_nil_r. split; [reflexivity|]. split; [exact IV|intros ? []].
  - inversion F as [|? ? F1 F2]; subst. destruct (step_ok dbg past s o IV F1) as (s1 & r1 & E1 & I1 & _ & C1). rewrite E1. cbn [bind fst snd].
    destruct (IH (past ++ [o]) s1 I1 F2) as (s2 & r2 & E2 & I2 & C2). rewrite E2. cbn [bind fst snd]. rewrite <- app_assoc in I2, C2. cbn [app] in I2, C2.
    exists s2, (r1 ++ r2). split; [reflexivity|]. split; [exact I2|]. intros cb I. apply in_app_or in I. destruct I as [I|I]; [apply caused_more; apply C1; exact I|apply C2; exact I].
Qed.
Lemma reach_inv dbg ops s : Forall (fine dbg) ops -> reaches dbg ops s -> inv ops s.
Proof. intros F (ran & R). destruct (run_ok dbg ops [] st0 inv0 F) as (s' & ran' & E & I & _). rewrite E in R. injection R as <- _. exact I. Qed.

(** ** Delivery *)
(** the event for [r] waits in the queue behind [q1], and [r] is the one that will be found *)
Definition due (r : reg) (m : nat) (s : st) : Prop :=
  i_fd s = true /\ exists l1 l2 q1 q2, i_list s = Some (l1 ++ r :: l2) /\ k_queue (i_k s) = q1 ++ ECreate (r_wd r) (r_file r) :: q2 /\
  ~ In (EIgnored (r_wd r)) q1 /\ (forall x, In x l1 -> by_event (r_wd r) (r_file r) x = false) /\ (length q1 < m)%nat.
Lemma remove_split path l1 r l2 : r_path r <> path -> exists a b, remove_first (by_path path) (l1 ++ r :: l2) = a ++ r :: b /\ incl a l1.
Proof.
  intros NP. induction l1 as [|x l1 IH]; cbn [app remove_first].
  - destruct (by_path path r) eqn:B; [apply eqb_eq in B; contradiction|]. exists [], (remove_first (by_path path) l2). split; [reflexivity|intros ? []].
  - destruct (by_path path x); [exists l1, l2; split; [reflexivity|intros y I; right; exact I]|]. destruct IH as (a & b & -> & I). exists (x :: a), b. split; [reflexivity|].
    intros y [->|Y]; [left; reflexivity|right; apply I; exact Y].
Qed.
Lemma process_split wd es : ~ In (EIgnored wd) es -> forall r l1 l2, r_wd r = wd -> exists a b, fst (process_events (l1 ++ r :: l2) es) = a ++ r :: b /\ incl a l1.
Proof.
  intros NI r l1 l2 RW. revert l1 l2. induction es as [|[w name|w] es IH]; intros l1 l2; cbn [process_events].
  - exists l1, l2. split; [reflexivity|apply incl_refl].
  - assert (NI' : ~ In (EIgnored wd) es) by (intros I; apply NI; right; exact I). destruct (IH NI' l1 l2) as (a & b & E & I). destruct (process_events (l1 ++ r :: l2) es) as [l' ran].
    cbn [fst] in E. exists a, b. split; [|exact I]. destruct name; [exact E|]. destruct (find _ _); exact E.
  - assert (NI' : ~ In (EIgnored wd) es) by (intros I; apply NI; right; exact I). rewrite filter_app. cbn [filter].
    unfold by_wd at 2. destruct (Z.eqb_spec (r_wd r) w) as [E|]; [subst; destruct NI; left; congruence|]. cbn [negb].
    destruct (IH NI' (filter (fun r => negb (by_wd w r)) l1) (filter (fun r => negb (by_wd w r)) l2)) as (a & b & E & I). exists a, b. split; [exact E|].
    intros x X. apply I in X. apply filter_In in X. tauto.
Qed.
Lemma process_app a b : forall l, process_events l (a ++ b) =
  (fst (process_events (fst (process_events l a)) b), snd (process_events l a) ++ snd (process_events (fst (process_events l a)) b)).
Proof.
  induction a as [|[w name|w] a IH]; intros l; cbn [app process_events].
  - cbn [fst snd app]. destruct (process_events l b); reflexivity.
  - rewrite IH. destruct (process_events l a) as [l' ran]. cbn [fst snd]. destruct name; [reflexivity|]. destruct (find _ l) as [r|]; [|reflexivity]. cbn [fst snd]. destruct (r_cb r =? 0); reflexivity.
  - apply IH.
Qed.
Lemma process_hit wd name r l1 l2 es : r_wd r = wd -> r_file r = name -> name <> [] -> r_cb r <> 0 -> (forall x, In x l1 -> by_event wd name x = false) ->
  In (r_cb r) (snd (process_events (l1 ++ r :: l2) (ECreate wd name :: es))).
Proof.
  intros W N NE CB F. cbn [process_events]. destruct (process_events (l1 ++ r :: l2) es) as [l' ran]. destruct name as [|c name]; [congruence|].
  assert (X : find (by_event wd (c :: name)) (l1 ++ r :: l2) = Some r).
  { clear - F W N. induction l1 as [|x l1 IH]; cbn [app find].
    - unfold by_event. rewrite W, N, Z.eqb_refl. assert (T : list_eqb (c :: name) (c :: name) = true) by (apply eqb_eq; reflexivity). rewrite T. reflexivity.
    - rewrite (F x (or_introl eq_refl)). apply IH. intros y I. apply F. right. exact I. }
  rewrite X. cbn [snd]. destruct (Z.eqb_spec (r_cb r) 0); [contradiction|]. left. reflexivity.
Qed.
Lemma due_queue r m s k q : due r m s -> k_queue k = k_queue (i_k s) ++ q -> due r m (mkSt (i_fd s) (i_list s) k).
Proof.
  intros (FD & l1 & l2 & q1 & q2 & L & Q & NI & F & M) E. split; [exact FD|]. exists l1, l2, q1, (q2 ++ q). cbn [i_list i_k]. split; [exact L|].
  split; [rewrite E, Q, <- app_assoc; reflexivity|]. auto.
Qed.
Lemma due_step dbg past s o r m : inv past s -> fine dbg o -> o <> Remove (r_path r) -> r_file r <> [] -> r_cb r <> 0 -> due r m s ->
  exists s' ran, step dbg s o = Ok (s', ran) /\ inv (past ++ [o]) s' /\ (In (r_cb r) ran \/ due r (m - handled [o]) s').
Proof.
  intros IV FI NR NE CB D. destruct (step_ok dbg past s o IV FI) as (s' & ran & E & I & _). exists s', ran. split; [exact E|]. split; [exact I|].
  assert (DD := D). destruct DD as (FD & l1 & l2 & q1 & q2 & L & Q & NI & F & M). destruct (iv_on _ _ IV FD) as (l0 & H & _ & K & _).
  destruct o as [ok dir path cb|path|inode name|inode|n]; cbn [step handled] in *; rewrite ?Nat.sub_0_r.
  - right. unfold inevent_add in E. rewrite FD in E. assert (STAY : (s, []) = (s', ran) -> due r m s') by (intros X; injection X as <- _; exact D).
    destruct (cb =? 0); [apply STAY; cbn [bind fst] in E; congruence|]. destruct path as [|c t]; [apply STAY; cbn [bind fst] in E; congruence|].
    destruct (Z.eq_dec c 47) as [->|NC].
    2:{ assert (EQ : forall A (x y : A), match c with 47 => x | _ => y end = y). { intros A x y. destruct c as [|z|z]; try reflexivity. repeat (destruct z as [z|z|]; try reflexivity). contradiction. }
        rewrite EQ in E. apply STAY. cbn [bind fst] in E. congruence. }
    cbn [bind] in E. rewrite L in E. destruct (find _ _); [apply STAY; cbn [bind fst] in E; congruence|]. unfold inevent_create in E.
    destruct (split_path (47 :: t)) as [[d f]|]; [|discriminate E]. cbn [bind fst snd] in E. destruct (dir d) as [inode|]; cbn [bind fst snd] in E.
    + destruct (add_watch (i_k s) inode) as [k' wd] eqn:AW. destruct (add_watch_ok H _ _ _ _ K AW) as (_ & _ & _ & _ & _ & QS & _). cbn [bind fst snd] in E. injection E as <- _.
      split; [exact FD|]. eexists l1, (l2 ++ [_]), q1, q2. cbn [i_list i_k]. split; [rewrite <- app_assoc; reflexivity|]. rewrite QS. auto.
    + injection E as <- _. split; [exact FD|]. exists l1, l2, q1, q2. cbn [i_list i_k]. auto.
  - right. unfold inevent_remove in E. rewrite L in E. destruct (find (by_path path) _) as [g|] eqn:FP; [|cbn [bind] in E; injection E as <- _; exact D].
    assert (NP : r_path r <> path) by congruence. destruct (remove_split path l1 r l2 NP) as (a & b & RS & IA). rewrite RS in E.
    match type of E with context [mkSt (i_fd s) _ ?k] => set (k1 := k) in E end.
    assert (S1 : s' = mkSt (i_fd s) (Some (a ++ r :: b)) k1). { destruct (a ++ r :: b) as [|y ys] eqn:AB; [destruct a; discriminate AB|]. cbn [bind] in E. congruence. }
    subst s'. split; [exact FD|]. assert (KQ : exists q, k_queue k1 = k_queue (i_k s) ++ q).
    { unfold k1. destruct (_ && _); [destruct (rm_watch_ok H (i_k s) (r_wd g) K) as (_ & _ & _ & _ & _ & X & _); exact X|exists []; rewrite app_nil_r; reflexivity]. }
    destruct KQ as (q & KQ). exists a, b, q1, (q2 ++ q). cbn [i_list i_k]. split; [reflexivity|]. split; [rewrite KQ, Q, <- app_assoc; reflexivity|]. auto.
  - right. injection E as <- _. destruct (created_ok H (i_k s) inode name K) as (_ & _ & _ & (q & X) & _). eapply due_queue; eauto.
  - right. injection E as <- _. destruct (gone_ok H (i_k s) inode K) as (q & _ & X & _). eapply due_queue; eauto.
  - rewrite Nat.add_0_r. unfold inevent_process in E. rewrite FD in E. destruct (firstn n (k_queue (i_k s))) as [|e es] eqn:FN.
    { injection E as <- _. right. assert (n = 0%nat) by (destruct n; [reflexivity|]; rewrite Q in FN; destruct q1; discriminate FN). subst n. rewrite Nat.sub_0_r. exact D. }
    rewrite L in E. rewrite <- FN in E. destruct (Nat.lt_ge_cases (length q1) n) as [LT|GE].
    + left. assert (FQ : exists q3, firstn n (k_queue (i_k s)) = q1 ++ ECreate (r_wd r) (r_file r) :: q3).
      { rewrite Q, firstn_app, firstn_all2 by lia. destruct (n - length q1)%nat as [|j] eqn:J; [lia|]. cbn [firstn]. eexists. reflexivity. }
      destruct FQ as (q3 & FQ). rewrite FQ, process_app in E. injection E as _ <-. apply in_or_app. right.
      destruct (process_split (r_wd r) q1 NI r l1 l2 eq_refl) as (a & b & PE & IA). rewrite PE. apply process_hit; auto.
    + right. destruct (process_events (l1 ++ r :: l2) (firstn n (k_queue (i_k s)))) as [l' ran'] eqn:PE. injection E as <- _. split; [reflexivity|].
      assert (FQ : firstn n (k_queue (i_k s)) = firstn n q1) by (rewrite Q, firstn_app; replace (n - length q1)%nat with 0%nat by lia; cbn [firstn]; apply app_nil_r).
      assert (NI' : ~ In (EIgnored (r_wd r)) (firstn n q1)) by (intros X; apply NI; apply (In_firstn_skipn n); auto).
      destruct (process_split (r_wd r) (firstn n q1) NI' r l1 l2 eq_refl) as (a & b & PE' & IA). rewrite FQ in PE. rewrite PE in PE'. cbn [fst] in PE'. subst l'.
      exists a, b, (skipn n q1), q2. cbn [i_list i_k k_queue]. split; [reflexivity|]. split; [rewrite Q, skipn_app; replace (n - length q1)%nat with 0%nat by lia; reflexivity|].
      split; [intros X; apply NI; apply (In_firstn_skipn n); auto|]. split; [auto|]. rewrite skipn_length. lia.
Qed.
Lemma handled_cons o ops : handled (o :: ops) = (handled [o] + handled ops)%nat.
Proof. destruct o; cbn [handled]; lia. Qed.
Lemma due_run dbg r ops : r_file r <> [] -> r_cb r <> 0 -> ~ In (Remove (r_path r)) ops -> Forall (fine dbg) ops ->
  forall past s m, inv past s -> due r m s -> (m <= handled ops)%nat -> exists s' ran, run dbg s ops = Ok (s', ran) /\ In (r_cb r) ran.
Proof.
  intros NE CB. induction ops as [|o ops IH]; intros NR FI past s m IV D M.
  - destruct D as (_ & l1 & l2 & q1 & q2 & _ & _ & _ & _ & X). cbn [handled] in M. lia.
  - inversion FI as [|? ? F1 F2]; subst. destruct (due_step dbg past s o r m IV F1) as (s1 & ran & E & I & [C|D1]); auto.
    { intros X. apply NR. left. exact X. }
    + cbn [run]. rewrite E. cbn [bind fst snd]. destruct (run_ok dbg ops _ s1 I F2) as (s2 & r2 & E2 & _). rewrite E2. cbn [bind fst snd]. exists s2, (ran ++ r2). split; [reflexivity|]. apply in_or_app. auto.
    + rewrite handled_cons in M. destruct (IH (fun X => NR (or_intror X)) F2 _ s1 (m - handled [o])%nat I D1) as (s2 & r2 & E2 & C2); [lia|]. cbn [run]. rewrite E. cbn [bind fst snd]. rewrite E2. cbn [bind fst snd].
      exists s2, (ran ++ r2). split; [reflexivity|]. apply in_or_app. auto.
Qed.
