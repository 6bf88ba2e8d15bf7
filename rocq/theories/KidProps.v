(** C69: whose process is killed, with process numbers that are used again. *)
From Verif Require Import Base ReconnModel ReconnSpec ReconnProof ReconnProps KidSpec.
Open Scope Z_scope.
Open Scope list_scope.

Lemma gone_in p q l : In q (gone p l) -> In q l /\ k_pid q <> p.
Proof. unfold gone. intros H. apply filter_In in H. destruct H as [H N]. apply negb_true_iff, Z.eqb_neq in N. auto. Qed.
Lemma done_app a b : done (a ++ b) = done a ++ done b.
Proof. induction a as [|[t e| |] a IH]; cbn [done app]; [auto|f_equal; auto|auto|auto]. Qed.

Lemma owners h : numbers_free h -> not_remembered h ->
  forall c p q, child c (done h) = Some p -> In q (alive h) -> k_pid q = p -> k_of q = Some c.
Proof.
  induction h as [|x h IH]; intros F K c p q CH I P; [destruct I|].
  assert (F' : numbers_free h). { intros n y o r EQ. apply (F (x :: n) y o r). rewrite EQ. reflexivity. }
  assert (K' : not_remembered h). { intros n y o r EQ. apply (K (x :: n) y o r). rewrite EQ. reflexivity. }
  specialize (IH F' K'). pose proof (fun p => F [] x h p eq_refl) as FX. pose proof (fun p => K [] x h p eq_refl) as KX.
  destruct x as [t e|r|r]; cbn [done alive fresh_of] in *.
  - destruct e; cbn [child] in CH; try (eapply IH; eauto; fail).
    + specialize (FX _ eq_refl). specialize (KX _ eq_refl). destruct (Nat.eqb_spec c0 c) as [->|N].
      * injection CH as ->. destruct I as [<-|I]; [reflexivity|]. destruct FX. rewrite <- P. apply in_map. exact I.
      * destruct I as [<-|I]; [cbn [k_pid] in P; subst; destruct (KX _ CH)|eapply IH; eauto].
    + apply gone_in in I. destruct (Nat.eqb_spec c0 c) as [->|N]; [discriminate|]. eapply IH; eauto. tauto.
  - apply gone_in in I. eapply IH; eauto. tauto.
  - specialize (KX _ eq_refl c). destruct I as [<-|I]; [cbn [k_pid] in P; subst; destruct (KX CH)|eapply IH; eauto].
Qed.
Lemma struck_at h c q : In (c, q) (struck h) -> exists newer t p older, h = newer ++ Does t (Killed c p) :: older /\ In q (alive older) /\ k_pid q = p.
Proof.
  induction h as [|x h IH]; intros I; [destruct I|].
  assert (G : In (c, q) (struck h) -> exists newer t p older, x :: h = newer ++ Does t (Killed c p) :: older /\ In q (alive older) /\ k_pid q = p).
  { intros J. destruct (IH J) as (n & t & p & o & EQ & R). exists (x :: n), t, p, o. rewrite EQ. auto. }
  destruct x as [t e|r|r]; cbn [struck] in I; auto. destruct e; auto. apply in_app_or in I. destruct I as [I|I]; auto.
  apply in_map_iff in I. destruct I as (q' & EQ & I). injection EQ as -> ->. apply filter_In in I. destruct I as [I P]. apply Z.eqb_eq in P.
  exists [], t, pid, h. auto.
Qed.

(** Whatever processes there are and whenever they end: as long as no new process gets a number that a
    console still remembers, what is killed on account of a console is the program of that
    console and nothing else. *)
Theorem C69_spares_partial start ks es w h c q :
  reached start ks es w -> done h = w_log w -> numbers_free h -> not_remembered h ->
  (c < length ks)%nat -> In (c, q) (struck h) -> k_of q = Some c.
Proof.
  intros R D F K L I. destruct (struck_at h c q I) as (n & t & p & o & -> & J & P).
  rewrite done_app in D. cbn [done] in D. symmetry in D. pose proof (@C69_own_child_partial _ _ _ _ _ _ _ _ _ R L D) as CH.
  assert (F' : numbers_free o). { intros a y b r EQ. apply (F (n ++ Does t (Killed c p) :: a) y b r). rewrite EQ, <- app_assoc. reflexivity. }
  assert (K' : not_remembered o). { intros a y b r EQ. apply (K (n ++ Does t (Killed c p) :: a) y b r). rewrite EQ, <- app_assoc. reflexivity. }
  eapply owners; eauto.
Qed.

(** A program that still runs when its connection is lost is killed. *)
Theorem C69_struck : forall h t c p older, h = Does t (Killed c p) :: older -> In (mkProc p (Some c)) (alive older) ->
  In (c, mkProc p (Some c)) (struck h) /\ ~ In (mkProc p (Some c)) (alive h).
Proof.
  intros h t c p older -> I. cbn [struck alive]. split.
  - apply in_or_app. left. apply in_map. apply filter_In. split; [exact I|apply Z.eqb_refl].
  - intros J. apply gone_in in J. destruct J as [_ J]. apply J. reflexivity.
Qed.

(** ** Where the full statement fails *)
Definition orc_n (fd pid : Z) := mkOrc true true true CDone false true fd pid.
Fixpoint free_b (h : list kev) : bool :=
  match h with
  | [] => true
  | x :: h => match fresh_of x with Some p => negb (existsb (Z.eqb p) (map k_pid (alive h))) | None => true end && free_b h
  end.
Lemma free_ok h : free_b h = true -> numbers_free h.
Proof.
  intros B n x o p EQ FR I. subst h. induction n as [|y n IH]; cbn [app free_b] in B; apply andb_prop in B; destruct B as [B1 B2]; [|apply (IH B2)].
  rewrite FR in B1. apply negb_true_iff in B1. rewrite <- not_true_iff_false in B1. apply B1. apply existsb_exists. exists p. split; [exact I|apply Z.eqb_refl].
Qed.
(** The program of a console ends and is waited for, its number is given to a process that has
    nothing to do with the daemon, and only then the console's connection is found to be
    lost: that process is killed. *)
Theorem C69_reuse_refuted : exists w h, reached 0 [(Process, orc_n 7 500)] [Hangup 0 (orc_n 7 501) []] w /\
  done h = w_log w /\ numbers_free h /\ In (0%nat, mkProc 500 None) (struck h).
Proof.
  eexists. exists [Does 0 (Retry 0 60000); Does 0 (Killed 0 500); Does 0 (Went_down 0); Born 500; Ends 500; Does 0 (Came_up 0); Does 0 (Forked 0 500); Does 0 (Try 0)].
  split; [|split; [|split]].
  - split; [repeat constructor; discriminate|]. split; [repeat constructor; cbn; auto; try lia; try discriminate|]. eexists. split; vm_compute; reflexivity.
  - vm_compute. reflexivity.
  - apply free_ok. vm_compute. reflexivity.
  - vm_compute. auto.
Qed.
(** The number may also be given to the program of another console: then that console loses its
    program when the first is found to be lost. *)
Theorem C69_sibling_refuted : exists ks es w h, reached 0 ks es w /\ done h = w_log w /\ numbers_free h /\
  In (0%nat, mkProc 500 (Some 1%nat)) (struck h) /\ exists d, nth_error (w_devs w) 1 = Some d /\ d_st d = Up /\ d_pid d = 500.
Proof.
  exists [(Process, orc_n 7 500); (Process, mkOrc true true true CDone false false 8 501)], [Tick 60000; Fire 2 (orc_n 8 500); Hangup 0 (orc_n 7 501) []].
  eexists. exists [Does 60000 (Retry 0 60000); Does 60000 (Killed 0 500); Does 60000 (Went_down 0); Does 60000 (Came_up 1); Does 60000 (Forked 1 500); Does 60000 (Try 1);
    Ends 500; Does 0 (Retry 1 60000); Does 0 (Try 1); Does 0 (Came_up 0); Does 0 (Forked 0 500); Does 0 (Try 0)].
  split; [|split; [|split; [|split]]].
  - split; [repeat constructor; discriminate|]. split; [repeat constructor; cbn; auto; try lia; try discriminate|]. eexists. split; vm_compute; reflexivity.
  - vm_compute. reflexivity.
  - apply free_ok. vm_compute. reflexivity.
  - vm_compute. auto.
  - eexists. split; [vm_compute; reflexivity|]. split; reflexivity.
Qed.

(** Two consoles, a stranger, a program that ends by itself and one that is killed. *)
Example C69_spares_example : exists ks es w h, reached 0 ks es w /\ done h = w_log w /\ numbers_free h /\ not_remembered h /\
  struck h = [(0%nat, mkProc 500 (Some 0%nat))] /\ alive h = [mkProc 700 None].
Proof.
  exists [(Process, orc_n 7 500)], [Hangup 0 (orc_n 7 501) []]. eexists.
  exists [Does 0 (Retry 0 60000); Does 0 (Killed 0 500); Does 0 (Went_down 0); Born 700; Ends 600; Born 600; Does 0 (Came_up 0); Does 0 (Forked 0 500); Does 0 (Try 0)].
  split; [|split; [|split; [|split; [|split]]]].
  - split; [repeat constructor; discriminate|]. split; [repeat constructor; cbn; auto; try lia; try discriminate|]. eexists. split; vm_compute; reflexivity.
  - vm_compute. reflexivity.
  - apply free_ok. vm_compute. reflexivity.
  - intros n x o p EQ FR c. do 9 (destruct n as [|? n]; [injection EQ as <- <-; cbn [fresh_of] in FR; try discriminate FR; injection FR as <-; cbn [done child];
      repeat match goal with |- context [(?a =? ?b)%nat] => destruct (a =? b)%nat end; discriminate|apply (f_equal (@tl _)) in EQ; cbn [tl app] in EQ]).
    destruct n; discriminate.
  - vm_compute. reflexivity.
  - vm_compute. reflexivity.
Qed.

Print Assumptions C69_spares_partial.
Print Assumptions C69_struck.
Print Assumptions C69_reuse_refuted.
Print Assumptions C69_sibling_refuted.
