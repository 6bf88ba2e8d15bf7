(** C98-C101: reopening the logs on request, stopping, restarting, and the daemon's children. *)
From Coq Require Import Lia.
From Verif Require Import Base DownModel DownSpec DownProof.

(** ** C98 *)
(** A SIGHUP that arrives while the daemon waits or serves, but not between its test for requests
    and its waiting nor while it carries out an earlier request: when it waits again, every log
    has been opened again since. *)
Theorem C98_prompt_partial : forall logs l ys, ~ reopening l -> l_pc l <> BeforePoll ->
  let (l', opened) := loop_run logs l (Signal SigHup :: ys) in
  blocked l' -> forall k, k < logs -> In k opened.
Proof. exact hup_prompt. Qed.

(** If it arrives between the test and the waiting too, this needs something else to wake the
    daemon. *)
Theorem C98_woken_partial : forall logs l ys h zs, ~ reopening l ->
  let (l1, a) := loop_run logs l (Signal SigHup :: ys) in wakes l1 h ->
  let (l2, b) := loop_run logs l1 (h :: zs) in blocked l2 -> forall k, k < logs -> In k (a ++ b).
Proof. exact hup_woken. Qed.

(** Logs are opened again on request only: each at most once for each SIGHUP. *)
Theorem C98_only : forall logs hs k, count_occ Nat.eq_dec (snd (loop_run logs loop_start hs)) k <= hups hs.
Proof. intros logs hs k. pose proof (owed_run logs k hs loop_start) as H. unfold owed in H at 2. cbn in H. lia. Qed.

(** A SIGHUP that arrives while an earlier one is carried out is lost: a log that has been opened
    already is not opened again, however long the daemon runs.  Its file, if it was renamed in
    the meantime, is written on under the new name. *)
Theorem C98_lost_refuted : forall logs l ys k j, l_pc l = Reopening k -> j < k ->
  forallb (fun h => negb (is_hup h)) ys = true -> ~ In j (snd (loop_run logs l (Signal SigHup :: ys))).
Proof.
  intros logs l ys k j Hp Hj Hy. cbn [loop_run]. unfold loop_step, handler. rewrite Hp.
  assert (Hd : Deaf j (mkLoop (l_pc l) (l_done l) true)) by (unfold Deaf; cbn; rewrite Hp; exact Hj).
  rewrite Hp in Hd. pose proof (deaf_run logs j ys _ Hy Hd) as H. destruct (loop_run _ _ ys). exact H.
Qed.

(** A SIGHUP that arrives between the test and the waiting is not noticed until something else
    happens: the daemon waits with the request unheeded. *)
Theorem C98_unnoticed_refuted : forall logs l, l_pc l = BeforePoll -> forall n,
  let (l', opened) := loop_run logs l (Signal SigHup :: repeat Step (S n)) in
  blocked l' /\ l_reconfig l' = true /\ opened = [].
Proof.
  intros logs l Hp n. cbn [loop_run repeat]. unfold loop_step at 1, handler. rewrite Hp.
  cbn [loop_step l_pc l_done l_reconfig].
  assert (H : forall m, loop_run logs (mkLoop InPoll (l_done l) true) (repeat Step m) = (mkLoop InPoll (l_done l) true, [])).
  { induction m as [|m IH]; [reflexivity|]. cbn [repeat loop_run loop_step l_pc]. now rewrite IH. }
  rewrite H. repeat split.
Qed.

(** two logs: the signal is delivered in poll(); another one just after log 0 was opened *)
Example C98_example :
  let s := repeat Step in
  snd (loop_run 2 loop_start (s 3 ++ [Signal SigHup] ++ s 9)) = [0; 1] /\
  l_pc (fst (loop_run 2 loop_start (s 3 ++ [Signal SigHup] ++ s 9))) = InPoll /\
  l_pc (fst (loop_run 2 loop_start (s 3 ++ [Signal SigHup] ++ s 4))) = Reopening 1 /\
  snd (loop_run 2 loop_start (s 3 ++ [Signal SigHup] ++ s 4 ++ [Signal SigHup] ++ s 99 ++ [Ready] ++ s 99)) = [0; 1] /\
  l_pc (fst (loop_run 2 loop_start (s 2))) = BeforePoll.
Proof. vm_compute. auto 10. Qed.

(** ** C99 *)
(** A SIGTERM that arrives while the daemon waits or serves ends its loop at the next turn. *)
Theorem C99_stops_partial : forall logs l ys, tests_first l -> 2 <= steps ys ->
  let (l', opened) := loop_run logs l (Signal SigTerm :: ys) in l_pc l' = Out /\ opened = [].
Proof.
  intros logs [p d r] ys Ht Hs.
  destruct (leaving_run logs ys 2 (fst (loop_step logs (mkLoop p d r) (Signal SigTerm)))) as [H1 H2].
  { unfold tests_first in Ht. destruct p as [| |k| | | | |]; cbn in Ht; try contradiction; repeat split. }
  cbn [loop_run]. assert (E : snd (loop_step logs (mkLoop p d r) (Signal SigTerm)) = []) by (destruct p as [| |k| | | | |]; reflexivity).
  destruct (loop_step logs (mkLoop p d r) (Signal SigTerm)) as [l1 a]. cbn [fst snd] in *. subst a.
  destruct (loop_run logs l1 ys) as [l2 b]. cbn [fst snd] in *. subst b. split; [|reflexivity].
  replace (2 - steps ys) with 0 in H1 by lia. destruct H1 as [_ H1]. destruct (l_pc l2) as [| |k| | | | |]; try contradiction. reflexivity.
Qed.

(** One that arrives later in the turn is not noticed until something else happens: the daemon
    goes on and waits, however much time it is given. *)
Theorem C99_stop_unnoticed_refuted : forall logs l n, past_test l ->
  let (l', opened) := loop_run logs l (Signal SigTerm :: repeat Step (logs + 4 + n)) in blocked l' /\ l_done l' = true.
Proof.
  intros logs [p d r] n Hp. cbn [loop_run].
  assert (E : loop_step logs (mkLoop p d r) (Signal SigTerm) = (mkLoop p true r, [])).
  { unfold past_test in Hp. destruct p as [| |k| | | | |]; cbn in Hp; try contradiction; reflexivity. }
  rewrite E. pose proof (late_run logs (logs + 4 + n) (mkLoop p true r) (or_introl Hp)) as H.
  destruct (loop_run logs (mkLoop p true r) _) as [l2 b]. apply H. unfold rank. cbn [l_pc]. destruct p as [| |k| | | | |]; lia.
Qed.

(** However the steps of a daemon that stops and of one that starts interleave: the new one's PID
    file is not removed by the old one. *)
Theorem C99_pid_file : forall n ws, past_pid (two_run (restart n) ws) -> r_pid (two_run (restart n) ws) = Some New.
Proof. intros n ws H. pose proof (turn_run n ws _ (turn_start n)) as HT. unfold Turn in HT. tauto. Qed.

(** When the old daemon has stopped it holds nothing any more. *)
Theorem C99_let_go : forall n ws, n + 4 <= moves Old ws ->
  let s := two_run (restart n) ws in
  r_lock s <> Some Old /\ r_pid s <> Some Old /\ r_port s <> Some Old /\ r_own s <> Some Old /\ forall i, r_held s i <> Some Old.
Proof.
  intros n ws Hm s. pose proof (turn_run n ws _ (turn_start n)) as HT. fold s in HT. unfold Turn in HT.
  assert (E : r_old s = []).
  { unfold s. rewrite old_left. cbn [restart r_old]. apply skipn_all2. unfold stopping.
    rewrite !app_length, map_length, seq_length. cbn [length]. lia. }
  rewrite E in HT. cbn [In] in HT.
  destruct HT as (_ & _ & _ & H1 & H2 & H3 & H4 & H5 & _).
  repeat split; try tauto.
Qed.

(** A daemon that starts when the old one has stopped gets everything. *)
Theorem C99_after : forall n,
  let e := two_run (restart n) (repeat Old (n + 4) ++ repeat New (n + 4)) in
  r_failed e = false /\ r_without e = [] /\ r_logless e = false /\
  r_lock e = Some New /\ r_pid e = Some New /\ r_port e = Some New /\ r_own e = Some New /\
  forall i, i < n -> r_held e i = Some New.
Proof.
  intros n. set (s := two_run (restart n) (repeat Old (n + 4))).
  assert (Hm : moves Old (repeat Old (n + 4)) = n + 4).
  { generalize (n + 4). induction n0 as [|m IH]; [reflexivity|]. cbn. unfold moves in IH. now rewrite IH. }
  pose proof (C99_let_go n (repeat Old (n + 4)) ltac:(lia)) as HL. cbn zeta in HL. fold s in HL.
  assert (HK : forall k t, (forall w, r_lock t = Some w -> w = Old) -> (forall w, r_pid t = Some w -> w = Old) ->
     (forall w, r_port t = Some w -> w = Old) -> (forall w, r_own t = Some w -> w = Old) -> (forall i w, r_held t i = Some w -> w = Old) ->
     let e := two_run t (repeat Old k) in
     (forall w, r_lock e = Some w -> w = Old) /\ (forall w, r_port e = Some w -> w = Old) /\
     (forall w, r_own e = Some w -> w = Old) /\ (forall i w, r_held e i = Some w -> w = Old) /\
     r_new e = r_new t /\ r_failed e = r_failed t /\ r_without e = r_without t /\ r_logless e = r_logless t).
  { induction k as [|k IH]; intros t H1 H2 H3 H4 H5; [cbn; auto 10|].
    cbn [repeat]. unfold two_run in *. cbn [fold_left two_step].
    destruct (IH (old_step t)) as (A1 & A2 & A3 & A4 & A5 & A6 & A7 & A8).
    - unfold old_step. destruct (r_old t) as [|[| | | |] rest]; cbn; auto. intros w Hw. apply H1, without_keeps, Hw.
    - unfold old_step. destruct (r_old t) as [|[| | | |] rest]; cbn; auto. discriminate.
    - unfold old_step. destruct (r_old t) as [|[| | | |] rest]; cbn; auto. intros w Hw. apply H3, without_keeps, Hw.
    - unfold old_step. destruct (r_old t) as [|[| | | |] rest]; cbn; auto. intros w Hw. apply H4, without_keeps, Hw.
    - unfold old_step. destruct (r_old t) as [|[| | |i|] rest]; cbn; auto. intros j w. unfold set_held.
      destruct (j =? i); [intros Hw; apply (H5 i), without_keeps, Hw|apply H5].
    - cbn zeta. rewrite A5, A6, A7, A8. repeat split; auto;
        unfold old_step; destruct (r_old t) as [|[| | | |] rest]; reflexivity. }
  destruct (HK (n + 4) (restart n)) as (B1 & B2 & B3 & B4 & B5 & B6 & B7 & B8); try (cbn; congruence).
  { intros i w. cbn [restart r_held]. destruct (i <? n); congruence. }
  fold s in B1, B2, B3, B4, B5, B6, B7, B8. cbn [restart r_new r_failed r_without r_logless] in B5, B6, B7, B8.
  assert (L : r_lock s = None) by (destruct (r_lock s) as [w|]; [|reflexivity]; rewrite (B1 w eq_refl) in HL; tauto).
  assert (Po : r_port s = None) by (destruct (r_port s) as [w|]; [|reflexivity]; rewrite (B2 w eq_refl) in HL; tauto).
  assert (Ow : r_own s = None) by (destruct (r_own s) as [w|]; [|reflexivity]; rewrite (B3 w eq_refl) in HL; tauto).
  assert (He : forall i, r_held s i = None).
  { intros i. destruct (r_held s i) as [w|] eqn:E; [|reflexivity]. pose proof (B4 i w E) as ->.
    destruct HL as (_ & _ & _ & _ & HL). elim (HL i E). }
  unfold two_run in *. rewrite fold_left_app. fold s. replace (n + 4) with (4 + n) by lia. rewrite repeat_app, fold_left_app.
  set (t := fold_left two_step (repeat New 4) s).
  assert (Et : t = mkTwo (Some New) (Some New) (Some New) (r_held s) (Some New) (r_old s) (map NObj (seq 0 n)) false [] false).
  { unfold t. cbn [repeat fold_left two_step].
    unfold new_step at 4. rewrite B5. cbn [starting app]. rewrite L.
    unfold new_step at 3. cbn [r_new r_lock r_pid r_port r_held r_own r_old r_failed r_without r_logless].
    unfold new_step at 2. cbn [r_new r_lock r_pid r_port r_held r_own r_old r_failed r_without r_logless]. rewrite Po.
    unfold new_step at 1. cbn [r_new r_lock r_pid r_port r_held r_own r_old r_failed r_without r_logless]. rewrite Ow.
    rewrite B6, B7, B8. reflexivity. }
  destruct (take_objs (seq 0 n) t) as (A1 & A2 & A3 & A4 & A5 & A6 & A7 & A8 & A9 & A10).
  - rewrite Et. reflexivity.
  - apply seq_NoDup.
  - intros i _. rewrite Et. cbn [r_held]. apply He.
  - rewrite seq_length in *. unfold two_run in *. rewrite A1, A2, A3, A4, A5, A6, A7, Et.
    cbn [r_lock r_pid r_port r_own r_failed r_without r_logless]. repeat split. intros i Hi. rewrite <- Et. apply A9, in_seq. lia.
Qed.

(** A daemon that starts as soon as it can have the configuration file may fail, because the old
    one still listens; its PID file is left behind. *)
Theorem C99_port_refuted : forall n,
  let e := two_run (restart n) ([Old; Old] ++ [New; New; New]) in r_failed e = true /\ r_pid e = Some New.
Proof. intros n. cbn. auto. Qed.

(** Or it runs, and when the old one has stopped everything is free, but the new one is without
    all of its logs and serial devices, and its own log. *)
Theorem C99_without_refuted : forall n,
  let e := two_run (restart n) (repeat Old 3 ++ repeat New (4 + n) ++ repeat Old (n + 1)) in
  r_failed e = false /\ r_port e = Some New /\ r_without e = seq 0 n /\ r_logless e = true /\
  r_own e = None /\ forall i, r_held e i = None.
Proof.
  intros n. cbn zeta. unfold two_run. rewrite !fold_left_app. rewrite (repeat_app New 4 n), fold_left_app.
  set (s := fold_left two_step (repeat New 4) (fold_left two_step (repeat Old 3) (restart n))).
  assert (Es : s = mkTwo (Some New) (Some New) (Some New) (fun i => if i <? n then Some Old else None) (Some Old)
     (map OObj (seq 0 n) ++ [OExit]) (map NObj (seq 0 n)) false [] true) by reflexivity.
  pose proof (miss_objs (seq 0 n) s) as HM. rewrite seq_length in HM. unfold two_run in HM. rewrite HM.
  2: { rewrite Es. reflexivity. }
  2: { rewrite Es. cbn [r_held]. intros i Hi. apply in_seq in Hi. destruct (Nat.ltb_spec i n); [reflexivity|lia]. }
  rewrite Es. cbn [r_lock r_pid r_port r_held r_own r_old r_failed r_without r_logless app].
  assert (H : forall l f, let e := fold_left two_step (repeat Old (length l + 1))
      (mkTwo (Some New) (Some New) (Some New) f (Some Old) (map OObj l ++ [OExit]) [] false (seq 0 n) true) in
      r_failed e = false /\ r_port e = Some New /\ r_without e = seq 0 n /\ r_logless e = true /\ r_own e = None /\
      forall i, r_held e i = if existsb (Nat.eqb i) l then without (f i) else f i).
  { induction l as [|x l IH]; intros f; [cbn; auto 10|].
    cbn [length Nat.add repeat fold_left two_step map app]. unfold old_step at 1 2 3 4 5 6.
    cbn [r_lock r_pid r_port r_held r_own r_old r_new r_failed r_without r_logless].
    specialize (IH (set_held f x (without (f x)))). cbn zeta in IH. destruct IH as (A1 & A2 & A3 & A4 & A5 & A6).
    cbn zeta. repeat split; auto. intros i. rewrite A6. cbn [existsb]. unfold set_held.
    destruct (Nat.eqb_spec i x) as [->|Hne]; cbn [orb]; [|reflexivity].
    destruct (existsb (Nat.eqb x) l); [|reflexivity]. destruct (f x) as [[|]|]; reflexivity. }
  pose proof (H (seq 0 n) (fun i => if i <? n then Some Old else None)) as (A1 & A2 & A3 & A4 & A5 & A6).
  rewrite seq_length in *. repeat split; auto. intros i. rewrite A6. cbn beta.
  destruct (Nat.ltb_spec i n) as [Hi|Hi].
  - assert (existsb (Nat.eqb i) (seq 0 n) = true) as ->; [|reflexivity].
    apply existsb_exists. exists i. split; [apply in_seq; lia|apply Nat.eqb_refl].
  - destruct (existsb _ _); reflexivity.
Qed.

(** ** C100 *)
(** A daemon that is detached signals the programs that it started for consoles, when it stops:
    all that are in its process group. *)
Theorem C100_programs : forall d g xs c p, Forall (fun x => x <> End d) xs ->
  let ps := prun g [mkProc d g Daemon] xs in
  In p ps -> p_role p = Program c -> In p (signalled true g ps).
Proof.
  intros d g xs c p HF ps Hp Hr.
  assert (HY : Family d g ps).
  { apply family_run; [exact HF|]. split; [now left|]. intros q [<-|[]]. reflexivity. }
  destruct HY as [_ HY]. specialize (HY p Hp). rewrite Hr in HY. apply filter_In. split; [exact Hp|]. now apply Nat.eqb_eq.
Qed.

(** It signals nobody else, but itself. *)
Theorem C100_nobody_else : forall d g xs p, Forall (fun x => x <> End d) xs ->
  In p (signalled true g (prun g [mkProc d g Daemon] xs)) -> p = mkProc d g Daemon \/ exists c, p_role p = Program c.
Proof.
  intros d g xs p HF Hp.
  assert (HY : Family d g (prun g [mkProc d g Daemon] xs)).
  { apply family_run; [exact HF|]. split; [now left|]. intros q [<-|[]]. reflexivity. }
  apply filter_In in Hp. destruct Hp as [Hp Hg]. apply Nat.eqb_eq in Hg. destruct HY as [_ HY]. specialize (HY p Hp).
  destruct (p_role p) eqn:E; [left; exact HY|right; eauto|contradiction|contradiction].
Qed.

(** Reset commands are left running, and nobody enforces their time limit any more. *)
Theorem C100_reset_refuted : forall d g xs c p detached, Forall (fun x => x <> End d) xs ->
  let ps := prun g [mkProc d g Daemon] xs in
  In p ps -> p_role p = ResetCmd c -> ~ In p (signalled detached g ps).
Proof.
  intros d g xs c p detached HF ps Hp Hr Hs. destruct detached; [|exact Hs].
  destruct (C100_nobody_else d g xs p HF Hs) as [->|[c' E]]; [discriminate|congruence].
Qed.

(** In the foreground no program is signalled. *)
Theorem C100_foreground_refuted : forall g ps p, ~ In p (signalled false g ps).
Proof. intros g ps p H. exact H. Qed.

Example C100_example :
  let xs := [Start 101 0; Reset 102 1; Elsewhere 103 103; Elsewhere 104 103; Start 105 2; End 101] in
  let ps := prun 99 [mkProc 100 99 Daemon] xs in
  Forall (fun x => x <> End 100) xs /\
  ps = [mkProc 100 99 Daemon; mkProc 102 102 (ResetCmd 1); mkProc 103 103 Stranger; mkProc 104 103 Stranger; mkProc 105 99 (Program 2)] /\
  signalled true 99 ps = [mkProc 100 99 Daemon; mkProc 105 99 (Program 2)].
Proof. split; [repeat constructor; discriminate|]. vm_compute. auto. Qed.

(** ** C101 *)
(** Stopping lets go of everything exactly once and of nothing else: descriptors are closed once,
    memory is released once, and not used afterwards. *)
Theorem C101_once_partial : forall c others, NoDup (fds c ++ others) -> Forall client_ok (c_objs c) ->
  perform_all (at_work c others) (destroy_server_conf c) (repeat Main (length (destroy_server_conf c)))
  = Ok (mkMem others [] false false, []).
Proof. intros c others H _. exact (all_let_go c others H). Qed.

(** But a thread that serves a new connection at that time uses the released configuration. *)
Theorem C101_thread_refuted : forall c others, NoDup (fds c ++ others) ->
  perform_all (at_work c others) (destroy_server_conf c) (repeat Main (length (destroy_server_conf c)) ++ [Thread]) = UB UseAfterFree.
Proof. intros c others H. eapply main_then_thread; [exact (all_let_go c others H)|reflexivity]. Qed.

Example C101_example :
  let c := mkConf true (Some 3) (Some 6) [mkThing (Some 7) None; mkThing None None; mkThing (Some 9) (Some (Some 9))] (4, 5) in
  NoDup (fds c ++ [0; 1; 2; 8]) /\ Forall client_ok (c_objs c) /\
  destroy_server_conf c = [Unlink; Close 3; Close 6; UseTp; Close 7; FreeObj 0; FreeObj 1; UseTp; Close 9; FreeObj 2; Close 4; Close 5; FreeTp; FreeConf].
Proof.
  split. { repeat (constructor; [cbn; intuition discriminate|]). constructor. }
  split; [|reflexivity]. repeat constructor; unfold client_ok; cbn; congruence.
Qed.

Print Assumptions C98_prompt_partial. Print Assumptions C98_woken_partial. Print Assumptions C98_only.
Print Assumptions C98_lost_refuted. Print Assumptions C98_unnoticed_refuted.
Print Assumptions C99_stops_partial. Print Assumptions C99_stop_unnoticed_refuted. Print Assumptions C99_pid_file. Print Assumptions C99_let_go. Print Assumptions C99_after. Print Assumptions C99_port_refuted.
Print Assumptions C99_without_refuted. Print Assumptions C100_programs. Print Assumptions C100_nobody_else.
Print Assumptions C100_reset_refuted. Print Assumptions C100_foreground_refuted.
Print Assumptions C101_once_partial. Print Assumptions C101_thread_refuted.
