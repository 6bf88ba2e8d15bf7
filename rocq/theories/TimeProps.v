(** Times in logs and messages. *)
From Coq Require Import String.
From Verif Require Import Base BaseProof Chars Fmt LogModel LogSpec TimeModel TimeSpec TimeProof.
Local Open Scope Z_scope.

(** C113: the stamp of a log line is YYYY-MM-DD HH:MM:SS and a space, for every time up to the
    year 9999; it is written if there is room for it and its NUL, and nothing else is touched. *)
Theorem C113_stamp dbg x pre old post : tm_ok x -> (List.length old > 20)%nat ->
  exists rest, LogModel.write_time_string dbg (stamp x) (pre ++ old ++ post) (List.length pre) (List.length old) =
    Ok (pre ++ (date_text x ++ zs " " ++ [NUL] ++ rest) ++ post, 20%nat) /\ List.length (date_text x ++ zs " ") = 20%nat.
Proof.
  intros T L. assert (LS : List.length (date_text x ++ zs " ") = 20%nat) by reflexivity.
  exists (skipn 21 old). split; [|exact LS]. unfold LogModel.write_time_string. rewrite expand_stamp by exact T.
  remember (date_text x ++ zs " ") as s eqn:ES. destruct (Nat.leb_spec (List.length old) 20); [lia|]. rewrite LS. destruct (Nat.ltb_spec 20 (List.length old)); [|lia].
  assert (LN : List.length (s ++ [0]) = 21%nat) by (rewrite app_length, LS; reflexivity).
  rewrite blit_ok by (rewrite LN, !app_length; lia). cbn [bind]. rewrite LN.
  assert (M : match s with [] => Ok tt | _ :: _ => assert_if dbg (20 =? 20)%nat end = Ok tt) by (destruct s, dbg; reflexivity).
  rewrite M. cbn [bind]. f_equal. f_equal. rewrite firstn_app, Nat.sub_diag, firstn_O, app_nil_r, firstn_all.
  rewrite skipn_app. replace (List.length pre + 21 - List.length pre)%nat with 21%nat by lia.
  rewrite skipn_all2 by lia. cbn [app]. rewrite skipn_app. replace (21 - List.length old)%nat with 0%nat by lia. rewrite skipn_O. generalize (skipn 21 old). intros rest.
  rewrite ES, <- !app_assoc. reflexivity.
Qed.
(** so stamps satisfy what C38 and the others assume of the clock *)
Theorem C113_clock dbg (ts : nat -> tm) : (forall i, tm_ok (ts i)) -> clock_fits dbg (fun i => stamp (ts i)).
Proof. intros T i. rewrite expand_stamp by apply T. change (List.length (date_text (ts i) ++ zs " ")) with 20%nat. split; [lia|auto]. Qed.

Lemma cons_before c d s t : before (c :: s) (d :: t) <-> c < d \/ (c = d /\ before s t).
Proof.
  split.
  - intros X. inversion X; subst; auto.
  - intros [L|[-> B]]; [now apply before_first|now apply before_later].
Qed.
Lemma field_before a b c d s t u v : length a = length b -> (before a b <-> c < d) -> (a = b <-> c = d) -> (before s t <-> before u v) ->
  (before (a ++ s) (b ++ t) <-> before (c :: u) (d :: v)).
Proof.
  intros L H1 H2 H3. rewrite cons_before, <- H1, <- H2, <- H3. split.
  - intros X. apply before_cut in X; [|exact L]. tauto.
  - intros [X|[-> X]]; [now apply before_diff|now apply before_app].
Qed.
Lemma same_before c s t u v : (before s t <-> before u v) -> (before (c :: s) (c :: t) <-> before u v).
Proof. intros H. rewrite cons_before, H. intuition lia. Qed.
Lemma nil_before s : ~ before s [].
Proof. intros H. inversion H. Qed.

(** Stamps sort as texts as the local times they show. *)
Theorem C113_order x y : tm_ok x -> tm_ok y -> (before (stamp x) (stamp y) <-> before (parts x) (parts y)).
Proof.
  intros X Y. rewrite !expand_stamp by assumption. destruct X as (X1 & X2 & X3 & X4 & X5 & X6), Y as (Y1 & Y2 & Y3 & Y4 & Y5 & Y6).
  assert (TI : forall m n, 0 <= m <= 99 -> 0 <= n <= 99 -> (two m = two n <-> m = n)) by (intros m n M N; split; [now apply two_inj|now intros ->]).
  assert (FI : forall m n, 0 <= m <= 9999 -> 0 <= n <= 9999 -> (four m = four n <-> m = n)) by (intros m n M N; split; [now apply four_inj|now intros ->]).
  unfold date_text, parts. rewrite <- !app_assoc.
  apply field_before; [reflexivity|apply four_before; lia|apply FI; lia|]. apply same_before.
  apply field_before; [reflexivity|apply two_before; lia|apply TI; lia|]. apply same_before.
  apply field_before; [reflexivity|apply two_before; lia|apply TI; lia|]. apply same_before.
  apply field_before; [reflexivity|apply two_before; lia|apply TI; lia|]. apply same_before.
  apply field_before; [reflexivity|apply two_before; lia|apply TI; lia|]. apply same_before.
  apply field_before; [reflexivity|apply two_before; lia|apply TI; lia|].
  split; intros B; [exfalso; exact (before_irrefl _ B)|now apply nil_before in B].
Qed.

(** The text of the messages "log opened at ..." and "Log started at ...": the zone follows if
    its name has at most eleven characters. *)
Theorem C113_long x heap junk : tm_ok x -> (List.length (t_zone x) <= 11)%nat -> List.length heap = 32%nat ->
  exists rest, create_long_time_string x heap junk = Ok (date_text x ++ zs " " ++ t_zone x ++ [NUL] ++ rest) /\
    List.length (date_text x ++ zs " " ++ t_zone x ++ [NUL] ++ rest) = 32%nat.
Proof.
  intros T Z L. unfold create_long_time_string. destruct (@strftime_fits heap 32 (zs "%Y-%m-%d %H:%M:%S %Z") x junk) as (b & E & LB); [|exact L|].
  - rewrite expand_long by exact T. rewrite !app_length. change (List.length (date_text x)) with 19%nat. cbn [List.length zs]. change (List.length (zs " ")) with 1%nat. lia.
  - rewrite E. cbn [bind fst snd]. rewrite expand_long in * by exact T. exists b. rewrite <- !app_assoc in LB. rewrite <- !app_assoc. split; [|exact LB].
    destruct (Nat.eqb_spec (List.length (date_text x ++ zs " " ++ t_zone x)) 0) as [X|_]; [rewrite app_length in X; change (List.length (date_text x)) with 19%nat in X; lia|reflexivity].
Qed.
(** With a longer one (TZ may name it at will), the program ends when it opens a log. *)
Theorem C113_long_zone_refuted x heap junk : tm_ok x -> (List.length (t_zone x) > 11)%nat -> List.length heap = 32%nat ->
  create_long_time_string x heap junk = UB Fatal.
Proof.
  intros T Z L. unfold create_long_time_string. destruct (@strftime_too_long heap 32 (zs "%Y-%m-%d %H:%M:%S %Z") x junk) as (b & E); [|lia|].
  - rewrite expand_long by exact T. rewrite !app_length. change (List.length (date_text x)) with 19%nat. change (List.length (zs " ")) with 1%nat. lia.
  - rewrite E. reflexivity.
Qed.
(** The times in the messages about who comes and leaves always fit. *)
Theorem C113_short x heap junk : tm_ok x -> List.length heap = 12%nat -> create_short_time_string x heap junk = Ok (short_text x ++ [NUL]).
Proof.
  intros T L. unfold create_short_time_string. destruct (@strftime_fits heap 12 (zs "%m-%d %H:%M") x junk) as (b & E & LB); [|exact L|].
  - rewrite expand_short by exact T. cbn. lia.
  - rewrite E. cbn [bind fst snd]. rewrite expand_short in * by exact T. rewrite app_length in LB. change (List.length (short_text x)) with 11%nat in *. cbn [List.length] in LB.
    destruct b; [reflexivity|cbn in LB; lia].
Qed.

Definition ex_time (h : Z) (z : string) : tm := mkTm 2026 2 28 h 5 60 (zs z).
Example C113_example : tm_ok (ex_time 9 "CET") /\ tm_ok (ex_time 10 "CET") /\ stamp (ex_time 9 "CET") = zs "2026-02-28 09:05:60 " /\
  before (parts (ex_time 9 "CET")) (parts (ex_time 10 "CET")) /\
  (exists r, create_long_time_string (ex_time 9 "CET") (repeat 7 32) (repeat 8 32) = Ok (zs "2026-02-28 09:05:60 CET" ++ NUL :: r)) /\
  create_short_time_string (ex_time 9 "CET") (repeat 7 12) (repeat 8 12) = Ok (zs "02-28 09:05" ++ [NUL]) /\
  create_long_time_string (ex_time 9 "Middle-Earth") (repeat 7 32) (repeat 8 32) = UB Fatal.
Proof.
  split; [unfold tm_ok; cbn; lia|]. split; [unfold tm_ok; cbn; lia|]. split; [vm_compute; reflexivity|].
  split; [do 3 apply before_later; apply before_first; cbn; lia|]. split; [eexists; vm_compute; reflexivity|]. split; vm_compute; reflexivity.
Qed.
Print Assumptions C113_stamp.
Print Assumptions C113_clock.
Print Assumptions C113_order.
Print Assumptions C113_long.
Print Assumptions C113_long_zone_refuted.
Print Assumptions C113_short.
