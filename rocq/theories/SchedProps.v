(** C59: periodic timestamps in the console logs. *)
From Coq Require Import String.
From Verif Require Import Base BaseProof Chars Mem StrModel StrSpec StrProof MsgModel MsgSpec MsgProof SchedModel SchedSpec SchedProof.
Local Open Scope Z_scope.

(** The first timestamp is due at the earliest time after the start that lies a multiple
    of the interval after the last local midnight. *)
Theorem C59_first : forall off interval now m, 0 < interval <= INT_MAX - 1440 -> 0 <= now -> midnight off now m ->
  exists t k, schedule_timestamp off interval 0 now = Ok t /\ t = m + k * (interval * 60) /\ now < t /\
  forall j, now < m + j * (interval * 60) -> t <= m + j * (interval * 60).
Proof.
  intros off I now m [I1 I2] N M. destruct (first_ok off I now m I1 I2 N M) as (k & K & S0 & W). exists (m + k * (I * 60)), k.
  split; [exact S0|]. split; [reflexivity|]. split; [lia|]. intros j J.
  assert (X : 0 < I * 60) by lia. set (x := I * 60) in *. clearbody x. assert (KJ : k - 1 < j) by (apply (Z.mul_lt_mono_pos_r x); lia).
  assert (k * x <= j * x) by (apply Z.mul_le_mono_nonneg_r; lia). lia.
Qed.
(** From then on, as long as there are logs, timestamps are due at exactly the interval,
    whatever happens to the clock and the objects and however late the callbacks run; each
    time every log gets one message, and no other object gets any.  (Local time is ahead of
    UTC by whole minutes.)  A change of local time does not matter for when they are due. *)
Theorem C59_interval : forall off interval start m es,
  0 < interval <= INT_MAX - 1440 -> 0 <= start -> midnight off start m -> (forall t, off t mod 60 = 0) ->
  exists first k, first = m + k * (interval * 60) /\ start < first <= start + interval * 60 /\
  ((forall n e, nth_error es n = Some e ->
     first + Z.of_nat n * (interval * 60) <= e_clock e /\ length (e_buf e) = Z.to_nat 1024 /\ chars_ok (e_now e) /\
     objs_ok (e_objs e) /\ logs (e_objs e) <> []) ->
   exists trace, timestamps off interval start es = Ok (trace, Some (first + Z.of_nat (length es) * (interval * 60))) /\ length trace = length es /\
   forall n e, nth_error es n = Some e ->
     nth_error trace n = Some (first + Z.of_nat n * (interval * 60),
       map (fun c => (c, notice_text (Z.to_nat 1024) (message c (e_now e)))) (logs (e_objs e)))).
Proof.
  intros off I start m es [I1 I2] N M OFF. destruct (first_ok off I start m I1 I2 N M) as (k & K & S0 & W). exists (m + k * (I * 60)), k.
  split; [reflexivity|]. split; [lia|]. intros H. unfold timestamps. rewrite S0. cbn [bind]. apply expiries_ok; [exact I1|lia| |exact OFF|lia| |exact H]; [apply Nat.leb_le; reflexivity|].
  destruct M as [M _]. specialize (OFF start).
  assert (M60 : m mod 60 = 0) by (clear - M OFF; revert M OFF; generalize (off start); intros o M OFF; Z.to_euclidean_division_equations; lia).
  rewrite Z.add_mod, M60, Z.mul_assoc, Z.mod_mul by lia. reflexivity.
Qed.
(** If there are no logs when the timer expires, nothing is written and there are no
    timestamps any more, not even for logs that appear later. *)
Theorem C59_no_logs : forall off interval t clock buf now objs, logs objs = [] ->
  timestamp_logfiles off interval t clock buf now objs = Ok ([], None).
Proof.
  intros off I t clock buf now objs H. unfold timestamp_logfiles. assert (S0 : stamp_loop buf now objs [] = Ok []); [|rewrite S0; reflexivity].
  induction objs as [|[c|] objs IH]; cbn [stamp_loop logs flat_map app] in *; [reflexivity|discriminate|auto].
Qed.
(** The message is the whole message unless the name and the time are longer than about
    970 characters together; it always ends a line. *)
Theorem C59_message : forall c now,
  (length c + length now <= Z.to_nat 970 -> notice_text (Z.to_nat 1024) (message c now) = message c now)%nat /\
  line_ended (notice_text (Z.to_nat 1024) (message c now)).
Proof.
  intros c now.
  assert (L : (length (message c now) = 32 + length c + length now)%nat).
  { unfold message. cbn [length app]. rewrite !app_length. change (length (zs "<ConMan> Console [")) with 18%nat. change (length (zs "] log at ")) with 9%nat. cbn [length]. lia. }
  split.
  - intros H. unfold notice_text. destruct (Nat.ltb_spec (length (message c now)) (Z.to_nat 1024 - 3)); [reflexivity|lia].
  - unfold notice_text. destruct (Nat.ltb_spec (length (message c now)) (Z.to_nat 1024 - 3)).
    + exists (CR :: LF :: zs "<ConMan> Console [" ++ c ++ zs "] log at " ++ now ++ [DOT])%list. unfold message. cbn [app]. rewrite <- !app_assoc. reflexivity.
    + eexists. reflexivity.
Qed.
(** An interval close to the largest int, which the configuration file accepts, is not
    handled: the computation overflows, at the start or after the first timestamp. *)
Theorem C59_huge_interval_refuted :
  schedule_timestamp (fun _ => 0) 2147483647 0 86399 = Ok 128849018820 /\
  schedule_timestamp (fun _ => 0) 2147483647 128849018820 128849018820 = UB SignedOverflow.
Proof. split; vm_compute; reflexivity. Qed.
(** After the clock has been put forward the timestamps that were due meanwhile are all
    written at once, with the same time. *)
Definition ex_exp (t : Z) : expiry := mkExp t (repeat 85 (Z.to_nat 1024)) (zs "NOW") [Other; LogOf (zs "n1"); LogOf (zs "n2")].
(** After a jump of the clock the missed timestamps are all written at once. *)
Theorem C59_burst_refuted : exists trace next,
  timestamps (fun _ => 3600) 10 1000000000 [ex_exp 1000003000; ex_exp 1000003000; ex_exp 1000003000] = Ok (trace, Some next) /\
  map fst trace = [1000000200; 1000000800; 1000001400] /\ next = 1000002000.
Proof. eexists _, _. vm_compute. split; [reflexivity|]. split; reflexivity. Qed.
Example C59_example : midnight (fun _ => 3600) 1000000000 999990000 /\ (forall t : Z, (fun _ => 3600) t mod 60 = 0) /\
  1000000200 = 999990000 + 17 * (10 * 60) /\
  (forall n e, nth_error [ex_exp 1000003000; ex_exp 1000003000] n = Some e ->
     1000000200 + Z.of_nat n * (10 * 60) <= e_clock e /\ length (e_buf e) = Z.to_nat 1024 /\ chars_ok (e_now e) /\
     objs_ok (e_objs e) /\ logs (e_objs e) <> []).
Proof.
  split; [split; [reflexivity|lia]|]. split; [reflexivity|]. split; [reflexivity|].
  intros n e H. destruct n as [|[|n]]; cbn [nth_error] in H; [| |destruct n; discriminate]; injection H as <-;
    (split; [vm_compute; discriminate|]); (split; [vm_compute; reflexivity|]); (split; [repeat constructor; discriminate|]); (split; [repeat constructor; discriminate|discriminate]).
Qed.

Print Assumptions C59_first.
Print Assumptions C59_interval.
Print Assumptions C59_no_logs.
Print Assumptions C59_message.
Print Assumptions C59_huge_interval_refuted.
Print Assumptions C59_burst_refuted.
