(** C120: a serial break. *)
From Verif Require Import Base BaseProof RingModel RingSpec RingProof LogModel LogSpec LogProof
  TelnetModel TelnetSpec TelnetProof EscModel EscSpec EscProof
  SessModel SessSpec SessInv SessLink SessStep SessWorld SessThread SessFacts SessMux SessMode SessProps
  BrkModel BrkSpec BrkProof.
Set Implicit Arguments.

(** In every reachable state a break of a client reaches every console it writes
    to exactly once, in the console's own way, and no other object; and the log
    tells of a console exactly when the break could not reach it. *)
Theorem C120_break E dev w c o : env_ok E -> reachable E w -> w_heap w c = Some o -> client_b o = true ->
  exists h' tr, perform_serial_break E dev (w_heap w) c = Ok (h', tr) /\
    forall k p, w_heap w k = Some p -> exists p', h' k = Some p' /\
      (feeds (w_heap w) c k ->
         (break_bytes p <> [] -> gets E (break_bytes p) false p p') /\ (break_bytes p = [] -> p' = p) /\
         calls_on k tr = calls_due dev k p /\
         (lost dev k p -> warnings_on k tr = 1) /\ (~ lost dev k p -> warnings_on k tr = 0)) /\
      (~ feeds (w_heap w) c k -> p' = p /\ calls_on k tr = [] /\ warnings_on k tr = 0).
Proof.
  intros HE R Hc CB. pose proof (ww_hok (reach_WWF HE R)) as HK.
  destruct (serial_break_ok HE dev c HK Hc (proj1 (client_b_cls o) CB)) as (h' & tr & A & _ & B).
  exists h', tr. split; [exact A|]. intros k p Hk. destruct (B k p Hk) as (p' & X & Y). exists p'. split; [exact X|].
  destruct (mem k (s_readers o)) eqn:M; split; intros F.
  - destruct Y as (Y1 & Y2 & Y3). destruct (evs_self dev k p) as [Z1 Z2]. rewrite Z1 in Y2. rewrite Z2 in Y3.
    unfold after_break in Y1. split; [|split; [|split; [exact Y2|]]].
    + intros NE. destruct (break_bytes p); [congruence|exact Y1].
    + intros NE. now rewrite NE in Y1.
    + rewrite Y3. clear. unfold lost, break_bytes. destruct (s_type p); split; try tauto; try reflexivity.
      * intros [-> | ->]; [reflexivity|]. now rewrite andb_false_r.
      * intros N. destruct (o_open (s_ring p)), (bd_ok dev k); cbn; tauto.
      * intros [X|X]; [rewrite X; now destruct (s_state p)|]. destruct (s_state p); congruence.
      * intros N. destruct (s_state p) eqn:S; [exfalso; apply N; right; congruence ..|]. destruct (o_open (s_ring p)); [reflexivity|tauto].
      * intros [-> | ->]; [reflexivity|]. now rewrite andb_false_r.
      * intros N. destruct (bd_ctx dev k), (bd_ok dev k); cbn; tauto.
  - exfalso. apply F. exists o. split; [exact Hc|]. now apply mem_In.
  - destruct F as (o2 & A2 & B2). rewrite Hc in A2. injection A2 as <-. apply mem_In in B2. congruence.
  - exact Y.
Qed.
Print Assumptions C120_break.

(** This is the break of the sessions: the buffers change exactly as when a client
    of SessModel types the escape, whatever the devices do. *)
Theorem C120_buffers E dev rst w c o : env_ok E -> reachable E w -> w_heap w c = Some o -> client_b o = true ->
  exists h' tr, perform_serial_break E dev (w_heap w) c = Ok (h', tr) /\ exec_cmd E rst (w_heap w) c SBreak = Ok h'.
Proof.
  intros HE R Hc CB. pose proof (ww_hok (reach_WWF HE R)) as HK.
  destruct (serial_break_ok HE dev c HK Hc (proj1 (client_b_cls o) CB)) as (h' & tr & A & B & _). eauto.
Qed.
Print Assumptions C120_buffers.

(** A client that only watches breaks nothing. *)
Theorem C120_watcher E dev w c o : env_ok E -> reachable E w -> w_heap w c = Some o -> client_b o = true ->
  (forall k, ~ feeds (w_heap w) c k) -> perform_serial_break E dev (w_heap w) c = Ok (w_heap w, []).
Proof.
  intros HE R Hc CB N. unfold perform_serial_break. rewrite (at_ok _ _ Hc). cbn [bind].
  destruct (s_readers o) as [|k l] eqn:RD; [reflexivity|]. exfalso. apply (N k). exists o. split; [exact Hc|].
  rewrite RD. now left.
Qed.
Print Assumptions C120_watcher.

(** The escape typed on its own does this and nothing else. *)
Theorem C120_typed E w c o ro rst : env_ok E -> reachable E w -> w_heap w c = Some o -> client_b o = true -> s_esc o = false ->
  exists w', step E w (EvMux c (Some (RdData [255; 66]%Z)) None ro rst) = Ok (w', []) /\ w_objs w' = w_objs w /\
    forall k p, k <> c -> w_heap w k = Some p -> exists p', w_heap w' k = Some p' /\
      (feeds (w_heap w) c k -> break_bytes p <> [] -> gets E (break_bytes p) false p p') /\
      (~ feeds (w_heap w) c k \/ break_bytes p = [] -> p' = p).
Proof.
  intros HE R Hc CB NE. pose proof (reach_WWF HE R) as W. pose proof (ww_hok W) as HK.
  pose proof (proj1 (client_b_cls o) CB) as Cc. cbn [step].
  assert (IV : In c (w_objs w)) by (apply (ww_live W), live_some; eauto).
  rewrite (proj2 (mem_In _ _) IV). cbn [negb]. unfold read_from_obj. rewrite (at_ok _ _ Hc). cbn [bind].
  rewrite (ww_open W c Hc CB). cbn [negb].
  assert (TB : telnet_b o = false).
  { unfold telnet_b. rewrite console_b_eq, Cc. now rewrite andb_false_r. }
  rewrite TB, CB, NE. cbn [andb]. change (process_client_escapes false [255; 66]%Z) with (Ok (@nil Z, false, [SBreak])). cbn [bind].
  destruct (@modify_sim E (w_heap w) c o (fun o => set_esc o false) HK Hc) as (h1 & A1 & S1 & H1);
    [reflexivity|exact (proj2 HK c o Hc)|reflexivity|].
  rewrite A1. cbn [bind foldr_res].
  assert (O1 : forall j, j <> c -> h1 j = w_heap w j).
  { intros j N. unfold modify in A1. rewrite (at_ok _ _ Hc) in A1. cbn in A1. injection A1 as <-. now rewrite upd_other. }
  destruct (@serial_break_ok E HE (mkBrkDev (fun _ => true) (fun _ => true)) h1 c _ (sim_HOK S1 HK) H1 Cc) as (h' & tr & _ & B & C).
  rewrite (B rst). cbn [bind deliver fst snd]. exists (set_heap w h'). split; [reflexivity|]. split; [reflexivity|].
  intros k p N Hk. destruct (C k p) as (p' & X & Y); [now rewrite O1|]. exists p'. split; [exact X|].
  cbn [s_readers set_esc] in Y. destruct (mem k (s_readers o)) eqn:M.
  - destruct Y as (Y & _). unfold after_break in Y. split.
    + intros _ NZ. destruct (break_bytes p); [congruence|exact Y].
    + intros [F|F]; [|now rewrite F in Y]. exfalso. apply F. exists o. split; [exact Hc|]. now apply mem_In.
  - destruct Y as (Y & _). split; [|auto]. intros (o2 & A2 & B2). rewrite Hc in A2. injection A2 as <-. apply mem_In in B2. congruence.
Qed.
Print Assumptions C120_typed.

(** A client broadcasting to the test, the serial and the process console. *)
Definition brk_events : list event :=
  EvAccept (request CmdConnect false false true false) (fun _ => true) :: alone 0 (repeat opens 8).
Definition all_fine : brk_dev := mkBrkDev (fun _ => true) (fun _ => true).
Example C120_example :
  (exists w, after brk_events = Some w /\ reachable ex_env w) /\
  readers_at (after brk_events) 4 = Some [0; 1; 2] /\
  match after brk_events with
  | Some w => match perform_serial_break ex_env all_fine (w_heap w) 4 with
              | Ok (h, tr) => tr = [BLine 1 true] /\
                  (match h 2 with Some p => iov 64 (s_ring p) | None => Ok [] end) = Ok [38; 66]%Z
              | UB _ => False
              end
  | None => False
  end.
Proof.
  split; [|vm_compute; auto].
  get_after brk_events w R A. exists w. split; [exact A|]. apply R. run_ok.
Qed.

(** A break to a serial line overtakes what was typed before it: the line is
    broken while earlier keystrokes still wait in the console's buffer. *)
Theorem C120_overtakes_refuted : exists E dev w c k p h' tr typed, env_ok E /\ reachable E w /\
  feeds (w_heap w) c k /\ w_heap w k = Some p /\ iov (e_sz E) (s_ring p) = Ok typed /\ typed <> [] /\
  perform_serial_break E dev (w_heap w) c = Ok (h', tr) /\ In (BLine k true) tr /\ h' k = Some p.
Proof.
  set (es := (EvAccept plain_connect (only 1) :: alone 0 (repeat opens 6)) ++ [sends 4 [120]%Z]). get_after es w R A.
  assert (X : match after es with Some w => match w_heap w 1 with
       | Some p => iov 64 (s_ring p) = Ok [120]%Z /\ feeds (w_heap w) 4 1 /\ match perform_serial_break ex_env all_fine (w_heap w) 4 with
          | Ok (h, tr) => tr = [BLine 1 true] /\ h 1 = Some p | UB _ => False end
       | None => False end | None => False end).
  { vm_compute. split; [reflexivity|]. split; [|auto]. eexists. split; [reflexivity|]. now left. }
  rewrite A in X. destruct (w_heap w 1) as [p|] eqn:H1; [|contradiction]. destruct X as (P & F & X).
  destruct (perform_serial_break ex_env all_fine (w_heap w) 4) as [[h tr]|] eqn:B; [|contradiction]. destruct X as (-> & X).
  exists ex_env, all_fine, w, 4, 1, p, h, [BLine 1 true], [120]%Z. split; [exact ex_env_ok|]. split; [apply R; run_ok|].
  split; [exact F|]. split; [exact H1|]. split; [exact P|]. split; [discriminate|]. split; [exact B|]. split; [now left|exact X].
Qed.
Print Assumptions C120_overtakes_refuted.

(** A break to a console of a type that knows no breaks (test, Unix socket) does
    nothing, and neither the user nor the log is told. *)
Theorem C120_silent_refuted : exists E dev w c k o, env_ok E /\ reachable E w /\
  feeds (w_heap w) c k /\ w_heap w c = Some o /\ client_b o = true /\
  perform_serial_break E dev (w_heap w) c = Ok (w_heap w, []).
Proof.
  set (es := connects 0 0). get_after es w R A.
  assert (X : match after es with Some w => match w_heap w 4 with
       | Some o => client_b o = true /\ feeds (w_heap w) 4 0 /\ s_readers o = [0] /\ option_map s_type (w_heap w 0) = Some TyTest
       | None => False end | None => False end).
  { vm_compute. split; [reflexivity|]. split; [|auto]. eexists. split; [reflexivity|]. now left. }
  rewrite A in X. destruct (w_heap w 4) as [o|] eqn:H4; [|contradiction]. destruct X as (C & F & RD & T).
  destruct (w_heap w 0) as [p|] eqn:H0; [|discriminate]. injection T as T.
  exists ex_env, all_fine, w, 4, 0, o. split; [exact ex_env_ok|]. split; [apply R; run_ok|]. split; [exact F|].
  split; [exact H4|]. split; [exact C|]. unfold perform_serial_break. rewrite (at_ok _ _ H4). cbn [bind]. rewrite RD.
  cbn [break_all]. unfold break_dev. rewrite (at_ok _ _ H0). cbn [bind]. rewrite T. reflexivity.
Qed.
Print Assumptions C120_silent_refuted.
