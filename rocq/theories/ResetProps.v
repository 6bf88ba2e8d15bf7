(** Theorems about the reset command (C41). *)
From Verif Require Import Base ResetModel ResetSpec ResetProof.
Set Implicit Arguments.
Open Scope Z_scope.

(** Two resets of a console begin at least a minute apart. *)
Theorem C41_spacing n y t c no pid t' no' pid' :
  reached n y -> In (Began t c no pid) (y_notes y) -> In (Began t' c no' pid') (y_notes y) ->
  (no < no')%nat -> t + 60000 <= t'.
Proof. intros R. apply reached_inv in R. apply (v_sep R). Qed.

(** At any time at most one shell started by resets of a console is running. *)
Theorem C41_one_shell n y c t no pid t' no' pid' p p' :
  reached n y -> In (Began t c no pid) (y_notes y) -> In (Began t' c no' pid') (y_notes y) ->
  In p (y_procs y) -> p_shell p = true -> p_from p = Some no ->
  In p' (y_procs y) -> p_shell p' = true -> p_from p' = Some no' -> p = p'.
Proof.
  intros R B B' P S F P' S' F'. apply reached_inv in R.
  destruct (@v_cur _ R _ P S) as (c1 & x1 & n1 & H1 & A1 & A2 & A3).
  destruct (@v_cur _ R _ P' S') as (c2 & x2 & n2 & H2 & A4 & A5 & A6).
  assert (n1 = no) as -> by congruence. assert (n2 = no') as -> by congruence.
  destruct (@v_last _ R _ _ _ H1 A2) as (t1 & q1 & B1 & _). destruct (@v_last _ R _ _ _ H2 A5) as (t2 & q2 & B2 & _).
  destruct (@v_uniq _ R _ _ _ _ _ _ _ B B1) as (_ & <- & _). destruct (@v_uniq _ R _ _ _ _ _ _ _ B' B2) as (_ & <- & _).
  eapply same_proc; eauto using v_nodup. congruence.
Qed.

(** While the shell of a reset runs, its timer is pending, a minute after the
    reset began. *)
Theorem C41_timer n y c t no pid :
  reached n y -> In (Began t c no pid) (y_notes y) -> shell_runs no y ->
  exists x, nth_error (y_cons y) c = Some x /\ r_no x = Some no /\ r_pid x = pid /\ r_timer x = Some (t + 60000).
Proof.
  intros R B (p & P & S & F). apply reached_inv in R.
  destruct (@v_cur _ R _ P S) as (c1 & x1 & n1 & H1 & A1 & A2 & A3). assert (n1 = no) as -> by congruence.
  destruct (@v_last _ R _ _ _ H1 A2) as (t1 & q1 & B1 & _ & X & _).
  destruct (@v_uniq _ R _ _ _ _ _ _ _ B B1) as (<- & <- & <-). exists x1.
  pose proof (@v_pos _ R _ P). destruct X as [X1 X2]; [lia|]. auto.
Qed.

(** When the timer of a reset expires while its shell is running, every process
    of its group is killed, and nothing that does not descend from this reset. *)
Theorem C41_kills_partial n y y' c x no due :
  reached n y -> nth_error (y_cons y) c = Some x -> r_no x = Some no -> r_timer x = Some due -> due <= y_now y ->
  shell_runs no y -> step (Expire c) y = Ok y' ->
  ~ shell_runs no y' /\ (forall p, In p (y_procs y') -> p_grp p <> r_pid x)
  /\ (forall p, In p (y_procs y) -> In p (y_procs y') \/ (p_from p = Some no /\ p_grp p = r_pid x))
  /\ y_notes y' = Signalled (y_now y) c (r_pid x) :: y_notes y.
Proof.
  intros R HC NO TM DUE (p & P & S & F) E. apply reached_inv in R.
  destruct (@v_cur _ R _ P S) as (c1 & x1 & n1 & H1 & A1 & A2 & A3). assert (n1 = no) as -> by congruence.
  destruct (@v_last _ R _ _ _ H1 A2) as (t1 & q1 & B1 & _). destruct (@v_last _ R _ _ _ HC NO) as (t2 & q2 & B2 & _).
  destruct (@v_uniq _ R _ _ _ _ _ _ _ B1 B2) as (_ & -> & _). assert (x1 = x) as -> by congruence.
  pose proof (@v_pos _ R _ P) as PP.
  cbn [step] in E. rewrite HC, TM in E. destruct (Z.ltb_spec (y_now y) due); [lia|].
  unfold kill_reset_cmd in E. rewrite HC in E. destruct (Z.leb_spec (r_pid x) 0); [lia|].
  assert (alive (y_procs y) (r_pid x) = true) as AL by (apply alive_in; eauto).
  rewrite AL in E. injection E as <-. cbn [y_procs y_notes].
  assert (forall q, In q (kill_group (y_procs y) (r_pid x)) -> p_grp q <> r_pid x) as NG.
  { intros q Q. apply filter_In in Q. destruct Q as [_ Q]. apply negb_true_iff, Z.eqb_neq in Q. exact Q. }
  split; [|split; [exact NG|split; [|reflexivity]]].
  - intros (q & Q & QS & QF). cbn [y_procs] in Q. apply (NG q Q). apply filter_In in Q. destruct Q as [Q _].
    destruct (@v_cur _ R _ Q QS) as (c3 & x3 & n3 & H3 & A4 & A5 & A6). assert (n3 = no) as -> by congruence.
    destruct (@v_last _ R _ _ _ H3 A5) as (t3 & q3 & B3 & _). destruct (@v_uniq _ R _ _ _ _ _ _ _ B3 B2) as (_ & -> & _).
    rewrite (@v_sh _ R _ Q QS). congruence.
  - intros q Q. destruct (Z.eq_dec (p_grp q) (r_pid x)) as [G|G].
    + right. split; auto. rewrite <- F. apply (@v_grp _ R p q); auto. congruence.
    + left. apply filter_In. split; auto. apply negb_true_iff, Z.eqb_neq. exact G.
Qed.

(** When the shell has ended and its number was not given to another process,
    nothing is signalled. *)
Theorem C41_spares n y y' c x due :
  reached n y -> nth_error (y_cons y) c = Some x -> r_timer x = Some due ->
  (forall p, In p (y_procs y) -> p_pid p <> r_pid x) ->
  step (Expire c) y = Ok y' -> y_procs y' = y_procs y /\ y_notes y' = y_notes y.
Proof.
  intros R HC TM NP E. cbn [step] in E. rewrite HC, TM in E. destruct (y_now y <? due); [injection E as <-; auto|].
  unfold kill_reset_cmd in E. rewrite HC in E. destruct (r_pid x <=? 0); [injection E as <-; auto|].
  assert (alive (y_procs y) (r_pid x) = false) as AL.
  { destruct (alive (y_procs y) (r_pid x)) eqn:A; auto. apply alive_in in A. destruct A as (p & P & PE). exfalso. eapply NP; eauto. }
  rewrite AL in E. injection E as <-. auto.
Qed.

(** A request is ignored while the timer of the last reset is pending, and
    otherwise starts a shell in a group of its own. *)
Theorem C41_request n y y' c x fits pid :
  reached n y -> nth_error (y_cons y) c = Some x -> pid = -1 \/ 0 < pid ->
  step (Reset [(c, fits, pid)]) y = Ok y' ->
  match r_timer x with
  | Some _ => y_procs y' = y_procs y /\ y_cons y' = y_cons y /\ y_notes y' = Ignored (y_now y) c :: y_notes y
  | None =>
      if fits && (0 <? pid) then
        y_procs y' = mkProc pid pid (Some (y_count y)) true :: y_procs y
        /\ y_notes y' = Began (y_now y) c (y_count y) pid :: y_notes y
      else y_procs y' = y_procs y /\ y_notes y' = y_notes y
  end.
Proof.
  intros R HC U E. apply reached_inv in R. cbn [step perform_reset] in E.
  unfold reset_console in E. rewrite HC in E. destruct (@v_con _ R _ _ HC) as [A B].
  destruct (Z.ltb_spec 0 (r_pid x)) as [P|P].
  - destruct (B P) as (no & NO). destruct (@v_last _ R _ _ _ HC NO) as (t & q & _ & _ & C & _).
    destruct (C P) as [_ ->]. cbn [bind] in E. injection E as <-. auto.
  - rewrite (A P). destruct fits; cbn [andb]; [|cbn [bind] in E; injection E as <-; auto].
    destruct (Z.ltb_spec pid 0) as [N|N]; cbn [bind] in E; injection E as <-; destruct (Z.ltb_spec 0 pid); cbn; auto; lia.
Qed.

Theorem C41_safe n y e : reached n y -> event_ok y e -> exists y', step e y = Ok y'.
Proof. intros _. apply step_ok. Qed.

(** ** Where the full statement fails *)
(** A reset command that leaves a process in the background: its shell ends at
    once, so nothing is killed at the timeout, and the next reset begins while the
    process of the first still runs, in the group of the first. *)
Theorem C41_background_refuted :
  exists y p, reached 1 y /\ In p (y_procs y) /\ p_from p = Some 0%nat /\ p_grp p = 100
  /\ In (Began 0 0 0 100) (y_notes y) /\ In (Began 61000 0 1 102) (y_notes y) /\ shell_runs 1 y
  /\ (forall t c pid, ~ In (Signalled t c pid) (y_notes y)).
Proof.
  eexists. exists (mkProc 101 100 (Some 0%nat) false). split.
  - eapply (@reach_run 1 [Reset [(0%nat, true, 100)]; Born 101 (Some 100); Ends 100; Tick 60000; Expire 0; Tick 1000;
       Reset [(0%nat, true, 102)]] (start 0 1)); [apply R_start|vm_compute; reflexivity|vm_compute; reflexivity].
  - split; [right; left; reflexivity|]. split; [reflexivity|]. split; [reflexivity|].
    split; [right; left; reflexivity|]. split; [left; reflexivity|].
    split; [eexists; split; [left; reflexivity|split; reflexivity]|].
    intros t c pid X. cbn in X. intuition discriminate.
Qed.

(** Process numbers are reused: the group of a process that has nothing to do with
    the daemon is killed. *)
Theorem C41_reuse_refuted :
  exists y y' p, reached 1 y /\ In p (y_procs y) /\ p_from p = None
  /\ step (Expire 0) y = Ok y' /\ ~ In p (y_procs y').
Proof.
  eexists. eexists. exists (mkProc 100 100 None false). split.
  - eapply (@reach_run 1 [Reset [(0%nat, true, 100)]; Ends 100; Born 100 None; Tick 60000] (start 0 1));
      [apply R_start|vm_compute; reflexivity|vm_compute; reflexivity].
  - split; [left; reflexivity|]. split; [reflexivity|]. split; [vm_compute; reflexivity|]. cbn. tauto.
Qed.

(** A hanging command with a child: both are killed. *)
Example C41_example :
  exists y y' x, reached 2 y /\ nth_error (y_cons y) 1 = Some x /\ r_no x = Some 0%nat /\ r_timer x = Some 60000
  /\ shell_runs 0 y /\ length (y_procs y) = 3%nat /\ y_now y = 60000
  /\ step (Expire 1) y = Ok y' /\ length (y_procs y') = 1%nat.
Proof.
  eexists. eexists. eexists. split.
  - eapply (@reach_run 2 [Born 7 None; Reset [(1%nat, true, 100)]; Born 101 (Some 100); Tick 60000] (start 0 2));
      [apply R_start|vm_compute; reflexivity|vm_compute; reflexivity].
  - split; [reflexivity|]. split; [reflexivity|]. split; [reflexivity|].
    split; [eexists; split; [right; left; reflexivity|split; reflexivity]|]. repeat split.
Qed.

Print Assumptions C41_spacing.
Print Assumptions C41_one_shell.
Print Assumptions C41_timer.
Print Assumptions C41_kills_partial.
Print Assumptions C41_spares.
Print Assumptions C41_request.
Print Assumptions C41_safe.
Print Assumptions C41_background_refuted.
Print Assumptions C41_reuse_refuted.
