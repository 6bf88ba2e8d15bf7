(** C86-C88: one daemon for a configuration, its PID file, its logs. *)
From Verif Require Import Base InstModel InstSpec InstProof.
Local Open Scope Z_scope.

(** * C86: one daemon for a configuration file *)
(** Whatever daemons are started, stopped and killed, however their calls interleave, and
    whatever other programs do to the file, as long as F_GETLK can tell who they are: of the
    daemons that have got past the check at most one belongs to a file. *)
Theorem C86_one f0 pf l p q f : Forall visible l -> running (history (idle f0 pf) l) p f -> running (history (idle f0 pf) l) q f -> p = q.
Proof. intros F. apply (history_all f0 pf l F). Qed.
(** And if the file is not replaced, there is at most one at all. *)
Theorem C86_same_file f0 pf l p q f g : Forall visible l -> Forall kept l -> running (history (idle f0 pf) l) p f -> running (history (idle f0 pf) l) q g -> p = q.
Proof.
  intros F K. destruct (history_pid f0 pf l F K) as (_ & (_ & S) & O). intros R1 R2. pose proof R1 as (s & E1 & _). pose proof R2 as (t & E2 & _).
  apply (O p q f0); [rewrite (S _ _ _ E1) in R1; exact R1|rewrite (S _ _ _ E2) in R2; exact R2].
Qed.
Lemma no_conflicts o f w ls : (forall k, In k ls -> l_file k = f -> l_own k = o) -> conflicts o f w ls = [].
Proof.
  intros H. destruct (conflicts o f w ls) as [|c cs] eqn:E; [reflexivity|]. exfalso. assert (I : In c (conflicts o f w ls)) by (rewrite E; left; reflexivity). apply in_conflicts in I. destruct I as (I & F & O & _). exact (O (H c I F)).
Qed.
(** A daemon starts when nobody has the configuration locked, and its pid is in the PID file. *)
Theorem C86_free w p pick : 0 < p -> ~ alive w p -> (forall k, In k (locks w) -> l_file k <> conf_file w) -> let w' := history w (whole_start p pick) in look p (procs w') = Some (conf_file w, Up) /\ pidfile w' = Some p.
Proof.
  intros P A L. unfold alive in A. assert (A0 : look p (procs w) = None) by (destruct (look p (procs w)); [destruct A; discriminate|reflexivity]). cbv zeta. unfold history, whole_start. cbn [fold_left].
  cbn [step]. rewrite A0. destruct (Z.ltb_spec 0 p); [|lia]. cbn [at_stage procs locks conf_file pidfile]. rewrite look_set, Z.eqb_refl. unfold get_lock.
  rewrite (no_conflicts (Proc p) (conf_file w) false (locks w)) by (intros k I F; destruct (L k I F)). cbn [at_stage procs locks conf_file pidfile]. rewrite look_set, Z.eqb_refl. unfold test_lock.
  rewrite (no_conflicts (Proc p) (conf_file w) true) by (intros k [<- | I] F; [reflexivity|apply in_unlocked in I; destruct (L k (proj1 I) F)]). cbn [Z.ltb at_stage procs locks conf_file pidfile]. change (0 <? 0) with false. cbn [at_stage procs locks conf_file pidfile].
  repeat (rewrite look_set, Z.eqb_refl; cbn [at_stage procs pidfile]). split; reflexivity.
Qed.
(** While one runs, another that starts gives up, and changes nothing: not the PID file, and
    no other daemon. *)
Theorem C86_refused f0 pf l p q pick : Forall visible l -> let w := history (idle f0 pf) l in running w q (conf_file w) -> ~ alive w p -> let w' := history w (whole_start p pick) in
  ~ alive w' p /\ pidfile w' = pidfile w /\ (forall r, look r (procs w') = look r (procs w)) /\ (forall k, l_own k <> Proc p -> In k (locks w') <-> In k (locks w)).
Proof.
  intros F w R A. destruct (history_all f0 pf l F) as (IV & SN & _). fold w in IV, SN. destruct R as (s & E & ST). destruct IV as [IA IB]. destruct (IA q _ s E) as [PQ LQ]. assert (LK : In (mkLock (Proc q) (conf_file w) false) (locks w)) by (apply LQ; unfold locked_stage; destruct ST as [-> | [-> | ->]]; discriminate).
  unfold alive in *. assert (A0 : look p (procs w) = None) by (destruct (look p (procs w)); [destruct A; discriminate|reflexivity]). assert (NQ : q <> p) by congruence.
  assert (NL : forall k, In k (locks w) -> l_own k <> Proc p) by (intros k I O; destruct (IB k p I O) as (t & X); congruence).
  assert (DR : forall r, look r (drop p (procs w)) = look r (procs w)) by (intros r; rewrite look_drop; destruct (Z.eqb_spec r p); [congruence|reflexivity]).
  cbv zeta. unfold history, whole_start. cbn [fold_left]. cbn [step]. rewrite A0. destruct (0 <? p); cycle 1.
  { repeat rewrite A0. repeat split; auto. }
  cbn [at_stage procs locks conf_file pidfile]. rewrite look_set, Z.eqb_refl.
  destruct (get_lock (Proc p) (conf_file w) false (locks w)) as [ls|] eqn:G; cycle 1.
  { cbn [gone at_stage procs locks conf_file pidfile]. assert (X : look p (drop p (set_proc p (conf_file w, Opened) (procs w))) = None) by (rewrite look_drop, Z.eqb_refl; reflexivity).
    repeat (rewrite X; cbn [gone at_stage procs locks conf_file pidfile]). repeat split; auto.
    - intros r. rewrite look_drop, look_set. destruct (Z.eqb_spec r p); [congruence|reflexivity].
    - intros I. apply in_ended in I. apply I.
    - intros I. apply in_ended. split; [exact I|]. auto. }
  destruct (get_lock_ok _ _ _ _ _ G) as [G1 _]. cbn [at_stage procs locks conf_file pidfile]. rewrite look_set, Z.eqb_refl.
  assert (T : (0 <? test_lock (Proc p) (conf_file w) ls pick) = true).
  { assert (IQ : In (mkLock (Proc q) (conf_file w) false) ls) by (apply G1; right; apply in_unlocked; split; [exact LK|]; cbn [l_own]; intros [_ X]; congruence).
    destruct (test_lock_told (Proc p) (conf_file w) ls pick) as [[_ E0] | (c & IC & E0)].
    - exfalso. assert (X : In (mkLock (Proc q) (conf_file w) false) (conflicts (Proc p) (conf_file w) true ls)) by (apply in_conflicts; repeat split; auto; cbn [l_own]; congruence). rewrite E0 in X. exact X.
    - rewrite E0. apply Z.ltb_lt. apply in_conflicts in IC. destruct IC as (IC & _ & OC & _). apply G1 in IC. destruct IC as [-> | IC]; [destruct (OC eq_refl)|]. apply in_unlocked in IC. unfold seen in SN. rewrite Forall_forall in SN. apply SN. apply IC. }
  rewrite T. cbn [gone at_stage procs locks conf_file pidfile]. rewrite look_set, Z.eqb_refl. cbn [gone at_stage procs locks conf_file pidfile]. set (pr := drop p _). assert (X : look p pr = None) by (unfold pr; rewrite look_drop, Z.eqb_refl; reflexivity). rewrite X. cbn [procs locks pidfile].
  split; [intros Y; destruct (Y X)|]. split; [reflexivity|]. split.
  - intros r. cbn [gone at_stage procs]. rewrite look_drop, !look_set. destruct (Z.eqb_spec r p); [congruence|reflexivity].
  - intros k O. cbn [gone at_stage locks]. rewrite in_ended, G1, in_unlocked. split.
    + intros [[-> | [I _]] _]; [destruct (O eq_refl)|exact I].
    + intros I. split; [right; split; [exact I|]; intros [_ Y]; exact (O Y)|exact O].
Qed.
(** `conmand -k', `-q' and `-r' find the daemon, when nobody else has the file locked. *)
Theorem C86_target f0 pf l p q pick wp : let w := history (idle f0 pf) l in running w p (conf_file w) -> q <> p -> (forall k, In k (locks w) -> l_file k = conf_file w -> l_own k = Proc p) -> target w q pick wp = p.
Proof.
  cbv zeta. destruct (history_inv f0 pf l) as [A B]. set (w := history (idle f0 pf) l) in *. intros (s & E & ST) N L. destruct (A p _ s E) as [P LP]. assert (LK : In (mkLock (Proc p) (conf_file w) false) (locks w)) by (apply LP; unfold locked_stage; destruct ST as [-> | [-> | ->]]; discriminate).
  unfold target. destruct (test_lock_told (Proc q) (conf_file w) (locks w) pick) as [[_ E0] | (c & IC & E0)].
  - exfalso. assert (X : In (mkLock (Proc p) (conf_file w) false) (conflicts (Proc q) (conf_file w) true (locks w))) by (apply in_conflicts; repeat split; auto; cbn [l_own]; congruence). rewrite E0 in X. exact X.
  - apply in_conflicts in IC. destruct IC as (IC & FC & _). rewrite E0. unfold told. rewrite (L c IC FC). destruct (Z.eqb_spec p 0); [lia|reflexivity].
Qed.
(** What they find through the lock is always a live conmand, with that very file open. *)
Theorem C86_target_live f0 pf l q pick : Forall alone l -> let w := history (idle f0 pf) l in target w q pick false <> 0 -> exists s, look (target w q pick false) (procs w) = Some (conf_file w, s).
Proof.
  intros F. cbv zeta. destruct (history_inv f0 pf l) as [A B]. pose proof (history_own f0 pf l F) as OW. set (w := history (idle f0 pf) l) in *. unfold target. destruct (test_lock_told (Proc q) (conf_file w) (locks w) pick) as [[E0 _] | (c & IC & E0)].
  - rewrite E0. cbn [Z.eqb andb]. intros X. destruct X. destruct (pidfile w); reflexivity.
  - rewrite E0. apply in_conflicts in IC. destruct IC as (IC & FC & _). rewrite Forall_forall in OW. destruct (OW c IC) as (p & OC). unfold told. rewrite OC. destruct (B c p IC OC) as (s & E). rewrite FC in E. destruct (Z.eqb_spec p 0) as [E1|E1]; [intros _|intros _; exists s; exact E]. subst p. destruct (A 0 _ s E). lia.
Qed.
(** When the file is not locked, what is signalled is what the PID file given with -P names,
    unless that is no process other than init; without it, or without -P, nothing is. *)
Theorem C86_target_pidfile w p pick : (forall k, In k (locks w) -> l_file k <> conf_file w) ->
  target w p pick false = 0 /\
  (forall q, pidfile w = Some q -> target w p pick true = if Z_lt_dec 1 q then q else 0) /\
  (pidfile w = None -> target w p pick true = 0).
Proof.
  intros N. unfold target. destruct (test_lock_told (Proc p) (conf_file w) (locks w) pick) as [[E0 _] | (c & IC & E0)].
  - rewrite E0. cbn [Z.eqb andb]. split; [destruct (pidfile w); reflexivity|]. split.
    + intros q ->. destruct (Z_lt_dec 1 q), (Z.ltb_spec 1 q); try reflexivity; lia.
    + intros ->. reflexivity.
  - apply in_conflicts in IC. destruct IC as (IC & FC & _). destruct (N c IC FC).
Qed.
(** No signal ever goes to a group of processes, when no hidden lock is in the way. *)
Theorem C86_target_single f0 pf l q pick wp : Forall visible l -> 0 <= target (history (idle f0 pf) l) q pick wp.
Proof.
  intros F. destruct (history_inv f0 pf l) as [A B]. destruct (history_all f0 pf l F) as (_ & T & _). unfold seen in T. rewrite Forall_forall in T. set (w := history (idle f0 pf) l) in *. unfold target.
  destruct (test_lock_told (Proc q) (conf_file w) (locks w) pick) as [[E0 _] | (c & IC & E0)].
  - rewrite E0. cbn [Z.eqb]. destruct (pidfile w) as [z|]; [|lia]. destruct wp; cbn [andb]; [|lia]. destruct (Z.ltb_spec 1 z); lia.
  - rewrite E0. apply in_conflicts in IC. destruct IC as (IC & _). pose proof (T c IC). destruct (Z.eqb_spec (told c) 0); lia.
Qed.
Example C86_example :
  let l := whole_start 7 0 ++ whole_start 8 0 ++ [Foreign 1 30 5 false; Start 9; Lock_ 9; Die 9; Release 1 30 5] in let w := history (idle 5 (Some 3)) l in
  Forall visible l /\ Forall kept l /\ running w 7 5 /\ ~ alive w 8 /\ pidfile w = Some 7 /\ target w 20 0 false = 7 /\ (forall k, In k (locks w) -> l_file k = conf_file w -> l_own k = Proc 7).
Proof. vm_compute. repeat split; repeat constructor. - exists Up. auto. - intros X. apply X. reflexivity. - intros k [<- | []] _. reflexivity. Qed.
Example C86_pidfile_example :
  let w := history (idle 5 None) (whole_start 7 0 ++ [Replace 6]) in
  (forall k, In k (locks w) -> l_file k <> conf_file w) /\ target w 9 0 true = 7 /\ target w 9 0 false = 0 /\
  target (idle 5 (Some 1)) 9 0 true = 0 /\ Forall visible (whole_start 7 0 ++ [Replace 6]).
Proof. vm_compute. repeat split; repeat constructor. intros k [<- | []] X. discriminate X. Qed.

(** ** What C86 does not give *)
(** Two daemons that start together can each see the other and both give up. *)
Theorem C86_both_refused_refuted : let w := history (idle 5 None) [Start 1; Start 2; Lock_ 1; Lock_ 2; Test 1 0; Test 2 0; GiveUp 1; GiveUp 2] in (forall p, ~ alive w p) /\ locks w = [].
Proof. split; [intros p X; apply X; reflexivity|reflexivity]. Qed.
(** If another program has an open-file-description lock on the configuration, F_GETLK gives
    -1 for it, or may, although a daemon has its lock there too: the check is `> 0', so a
    second daemon of the same file starts. *)
Theorem C86_two_refuted : let w := history (idle 5 None) ([Foreign 1 (-1) 5 false] ++ whole_start 7 0 ++ [Start 8; Lock_ 8; Test 8 1; Write 8]) in running w 7 5 /\ running w 8 5.
Proof. split; exists Up; split; try reflexivity; auto. Qed.
(** With such a lock there `conmand -k' sends its SIGTERM to the pid -1, that is, to every
    process it may signal. *)
Theorem C86_kill_all_refuted : let w := history (idle 5 None) [Foreign 1 (-1) 5 false] in target w 9 0 false = -1.
Proof. reflexivity. Qed.
(** What `conmand -k' signals may be a daemon that is only starting and about to give up,
    although one runs. *)
Theorem C86_contender_refuted : let w := history (idle 5 None) (whole_start 7 0 ++ [Start 8; Lock_ 8]) in running w 7 5 /\ target w 9 0 false = 8 /\ ~ alive (history w [Test 8 0; GiveUp 8]) 8.
Proof. split; [exists Up; split; [reflexivity|auto]|]. split; [reflexivity|]. intros X. apply X. reflexivity. Qed.
(** Once the file has been replaced, as editors do when they save, a second daemon starts, and
    `conmand -k' no longer finds the first. *)
Theorem C86_replace_refuted : let w := history (idle 5 None) (whole_start 7 0 ++ [Replace 6]) in target w 9 0 false = 0 /\ (let w2 := history w (whole_start 8 0) in up w2 7 /\ up w2 8).
Proof. split; [reflexivity|]. split; [exists 5%nat|exists 6%nat]; reflexivity. Qed.

(** * C87: the PID file *)
(** While a daemon is up the PID file has its pid; once it is leaving there is none. *)
Theorem C87_pidfile f0 pf l p f : Forall visible l -> Forall kept l -> let w := history (idle f0 pf) l in (look p (procs w) = Some (f, Up) -> pidfile w = Some p) /\ (look p (procs w) = Some (f, Leaving) -> pidfile w = None).
Proof. intros F K. destruct (history_pid f0 pf l F K) as ([A B] & _). split; [apply A|apply B]. Qed.
(** If no daemon dies without cleaning up, a PID file always means a daemon that is up,
    whatever else happens. *)
Theorem C87_clean f0 l p : Forall orderly l -> pidfile (history (idle f0 None) l) = Some p -> up (history (idle f0 None) l) p.
Proof.
  intros F. unfold history. assert (G : forall l w, Forall orderly l -> (forall p, pidfile w = Some p -> up w p) -> forall p, pidfile (fold_left step l w) = Some p -> up (fold_left step l w) p).
  { clear. induction l as [|o l IH]; intros w F H; [exact H|]. inversion F as [|? ? F1 F2]; subst. cbn [fold_left]. apply IH; [exact F2|]. apply step_clean; assumption. }
  apply (G l (idle f0 None) F). intros q X. discriminate X.
Qed.
Example C87_example :
  let l := whole_start 7 0 ++ [Start 8; Unlink 7; Lock_ 8; Close 7; Test 8 0; Write 8] in Forall visible l /\ Forall kept l /\ Forall orderly l /\ up (history (idle 5 None) l) 8 /\ pidfile (history (idle 5 None) (firstn 7 l)) = None.
Proof. vm_compute. repeat split; repeat constructor. exists 5%nat. reflexivity. Qed.
(** A daemon that dies, be it by a fatal error of its own, leaves its PID file, and with -P
    `conmand -k' then signals whatever process has that pid. *)
Theorem C87_stale_refuted : let w := history (idle 5 None) (whole_start 7 0 ++ [Die 7]) in pidfile w = Some 7 /\ ~ alive w 7 /\ forall q pick, target w q pick true = 7.
Proof. split; [reflexivity|]. split; [intros X; apply X; reflexivity|]. intros q pick. reflexivity. Qed.
(** After the file is replaced a second daemon takes the PID file over although the first is
    up; if it then fails, as it must if it wants the same port, the file names nobody. *)
Theorem C87_replace_refuted : let w := history (idle 5 None) (whole_start 7 0 ++ [Replace 6] ++ whole_start 8 0 ++ [Die 8]) in up w 7 /\ ~ alive w 8 /\ pidfile w = Some 8.
Proof. split; [exists 5%nat; reflexivity|]. split; [intros X; apply X; reflexivity|reflexivity]. Qed.

(** * C88: a log belongs to one daemon *)
(** However daemons open, reopen and close their logs, no two of them, and no two logs of one
    of them, have the same file. *)
Theorem C88_one t l p q o o' f : all_apart (no_logs t) l -> let s := log_history (no_logs t) l in has_log s p o f -> has_log s q o' f -> p = q /\ o = o'.
Proof. intros A s. apply log_inv_one. apply log_history_inv; [apply no_logs_inv|exact A]. Qed.
(** Nothing that other daemons do changes the contents of a log that a daemon has, unless they
    empty files at start, with -z; nor do they take it away. *)
Theorem C88_untouched t l l2 p o f : all_apart (no_logs t) (l ++ l2) -> let s := log_history (no_logs t) l in has_log s p o f -> Forall (harmless p) l2 -> g_text (log_history s l2) f = g_text s f /\ has_log (log_history s l2) p o f.
Proof.
  intros A s H N. assert (S : forall l s0, all_apart s0 (l ++ l2) -> all_apart s0 l /\ all_apart (log_history s0 l) l2).
  { clear. unfold log_history. induction l as [|x l IH]; intros s0 A; [split; [exact I|exact A]|]. cbn [app all_apart fold_left] in *. destruct (IH _ (proj2 A)). tauto. }
  destruct (S l _ A) as [A1 A2]. eapply harmless_history; [apply log_history_inv; [apply no_logs_inv|exact A1]|exact A2|exact H|exact N].
Qed.
(** A daemon gets a file that nobody has, empty if it was told to. *)
Theorem C88_free s p i f z : (forall k, In k (g_locks s) -> l_file k = f -> l_own k = Proc p) -> let s' := log_step s (Console p i (Some f) z true) in has_log s' p (S i) f /\ (forall g, g_text s' g = if z && (g =? f)%nat then [] else g_text s g).
Proof.
  intros L. cbn [log_step]. unfold open_logfile_obj. cbv zeta. assert (T : g_text (close_log p (S i) s) = g_text s) by (unfold close_log; destruct (fd_of _ _ _); reflexivity). unfold get_lock. rewrite no_conflicts.
  - split; [left; reflexivity|]. intros g. cbn [g_text]. rewrite T. destruct z; reflexivity.
  - unfold close_log. destruct (fd_of p (S i) (g_fds s)); cbn [g_locks]; [|exact L]. intros k I. apply in_unlocked in I. apply L. apply I.
Qed.
Example C88_example :
  let l := [Console 7 0 (Some 3%nat) false true; Daemon 7 (Some 4%nat) false; Writes 7 1 [65]; Console 8 0 (Some 3%nat) false true; Daemon 8 (Some 4%nat) false; Writes 8 1 [66]; Writes 7 1 [67]; Console 7 0 (Some 3%nat) false true] in
  let s := log_history (no_logs (fun _ => [])) l in all_apart (no_logs (fun _ => [])) l /\ has_log s 7 1 3 /\ has_log s 7 0 4 /\ g_text s 3 = [65; 67] /\ g_fds s = [(7, 1%nat, 3%nat); (7, 0%nat, 4%nat)].
Proof. vm_compute. repeat split; auto; try (intros j []; congruence); try (intros j X; repeat (destruct X as [X | X]; [congruence|]); destruct X). Qed.
(** When the daemon reopens its own log and it is the same file, as on a SIGHUP without log
    rotation, it loses its lock on it: the lock is taken through the new descriptor, and
    closing the old one then drops it.  Another daemon can then have the file too. *)
Theorem C88_daemon_refuted t : let s := log_history (no_logs t) [Daemon 7 (Some 4%nat) false; Daemon 7 (Some 4%nat) false; Daemon 8 (Some 4%nat) false] in has_log s 7 0 4 /\ has_log s 8 0 4.
Proof. split; vm_compute; auto. Qed.
(** With -z a daemon empties a log before it finds that another has it locked. *)
Theorem C88_truncate_refuted : let s := log_history (no_logs (fun _ => [])) [Console 7 0 (Some 3%nat) false true; Writes 7 1 [65; 66]] in g_text s 3 = [65; 66] /\ (let s2 := log_step s (Console 8 0 (Some 3%nat) true true) in g_text s2 3 = [] /\ has_log s2 7 1 3 /\ ~ has_log s2 8 1 3).
Proof. split; [reflexivity|]. split; [reflexivity|]. split; [vm_compute; auto|]. vm_compute. intros [X | []]. discriminate X. Qed.

Print Assumptions C86_one.
Print Assumptions C86_same_file.
Print Assumptions C86_free.
Print Assumptions C86_refused.
Print Assumptions C86_target.
Print Assumptions C86_target_live.
Print Assumptions C86_target_pidfile.
Print Assumptions C86_target_single.
Print Assumptions C87_pidfile.
Print Assumptions C87_clean.
Print Assumptions C88_one.
Print Assumptions C88_untouched.
Print Assumptions C88_free.
