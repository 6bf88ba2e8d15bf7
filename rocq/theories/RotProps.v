(** C96, C97: a console's log while its file is renamed, opened again, or can not be written. *)
From Coq Require Import Lia.
From Verif Require Import Base RingModel RingSpec RingProof RotModel RotSpec RotProof.

(** ** C96 *)
(** Whatever happens to the files, and whatever the outcome of writing and opening: no access
    outside the buffer and no failing assertion. *)
Theorem C96_safe : forall SZ d junk zero xs, 1 < SZ -> length junk = SZ -> exists w, run SZ (start d junk zero) xs = Ok w.
Proof.
  intros SZ d junk zero xs HSZ Hj. destruct (@run_ok SZ HSZ _ xs (@start_good SZ HSZ d junk zero Hj)) as (w & H & _). eauto.
Qed.

(** Nothing is lost as long as no write fails, the log can be opened, and writing keeps up: what
    has been written, to whatever file, and what waits, are the text for the log. *)
Theorem C96_nothing_lost : forall SZ d junk zero xs w, 1 < SZ -> length junk = SZ ->
  run SZ (start d junk zero) xs = Ok w -> Forall untroubled xs -> keeps_up SZ (start d junk zero) xs ->
  written (w_writes w) ++ waiting SZ w = text xs.
Proof.
  intros SZ d junk zero xs w HSZ Hj Hr HU HK. pose proof (@start_good SZ HSZ d junk zero Hj) as HG.
  destruct (@run_ok SZ HSZ _ xs HG) as (w' & Hr' & HGw). rewrite Hr in Hr'. injection Hr' as <-.
  rewrite (@good_waiting SZ w HGw).
  exact (@run_kept SZ HSZ _ xs w HG eq_refl (@start_empty SZ HSZ d junk zero Hj) Hr HU HK).
Qed.

(** Always: nothing is written twice, out of order, or that was not for the log. *)
Theorem C96_order : forall SZ d junk zero xs w, 1 < SZ -> length junk = SZ ->
  run SZ (start d junk zero) xs = Ok w -> subseq (written (w_writes w) ++ waiting SZ w) (text xs).
Proof.
  intros SZ d junk zero xs w HSZ Hj Hr. pose proof (@start_good SZ HSZ d junk zero Hj) as HG.
  destruct (@run_ok SZ HSZ _ xs HG) as (w' & Hr' & HGw). rewrite Hr in Hr'. injection Hr' as <-.
  rewrite (@good_waiting SZ w HGw).
  exact (@run_order SZ HSZ _ xs w HG eq_refl (@start_empty SZ HSZ d junk zero Hj) Hr).
Qed.

(** Where it goes: from the time the log is opened (again), all that is written goes to the file
    that the name stood for at that time, whatever is done to the name afterwards; if it can not
    be opened, nothing is written. *)
Theorem C96_where : forall SZ d junk zero xs n r msg ys w1 w2 w3, 1 < SZ -> length junk = SZ ->
  run SZ (start d junk zero) xs = Ok w1 -> step SZ w1 (Hup n r msg) = Ok w2 ->
  Forall no_hup ys -> run SZ w2 ys = Ok w3 ->
  exists ws, w_writes w3 = w_writes w1 ++ ws /\
    (r = Fine -> exists f, d_name (w_disk w2) n = Some f /\ Forall (fun y => fst y = f) ws) /\
    (r <> Fine -> ws = []).
Proof.
  intros SZ d junk zero xs n r msg ys w1 w2 w3 HSZ Hj R1 S2 Hy R3.
  destruct (@run_ok SZ HSZ _ xs (@start_good SZ HSZ d junk zero Hj)) as (w' & R1' & HG1).
  rewrite R1 in R1'. injection R1' as <-.
  destruct (@step_ok SZ HSZ w1 (Hup n r msg) HG1) as (w' & S2' & HG2 & _). rewrite S2 in S2'. injection S2' as <-.
  destruct (hup_file _ _ _ _ _ _ S2) as [W2 F2].
  destruct (@run_where SZ HSZ ys w2 w3 Hy HG2 R3) as (ws & W3 & FW & _).
  exists ws. rewrite W3, W2. split; [reflexivity|]. destruct r.
  1,2: rewrite F2 in FW; split; [discriminate|]; intros _; destruct ws; [reflexivity|]; inversion FW; discriminate.
  destruct F2 as (f & F2 & N2). split; [|congruence]. intros _. exists f. split; [exact N2|].
  rewrite F2 in FW. eapply Forall_impl; [|exact FW]. intros y Hy2. congruence.
Qed.

(** What the files contain, unless others empty them: what they contained, and what was written
    to them.  Opening a log again does not empty its file. *)
Theorem C96_content : forall SZ d junk xs w f, 1 < SZ -> length junk = SZ -> proper d ->
  run SZ (start d junk false) xs = Ok w -> Forall not_emptied xs ->
  contents (w_disk w) f = contents d f ++ written_to f (w_writes w).
Proof.
  intros SZ d junk xs w f HSZ Hj Hp Hr HE. destruct (@start_files SZ HSZ d junk false Hp) as [HF HZ].
  destruct (@run_files SZ HSZ d xs _ _ w HF HZ (@start_good SZ HSZ d junk false Hj) HE Hr) as (z & HFw & Hz).
  rewrite (Hz eq_refl) in HFw. exact (@files_contents SZ HSZ d None w f HFw).
Qed.

(** With ZeroLogs at most one file is emptied, before anything is written to it. *)
Theorem C96_emptied_once : forall SZ d junk xs w, 1 < SZ -> length junk = SZ -> proper d ->
  run SZ (start d junk true) xs = Ok w -> Forall not_emptied xs ->
  exists z, forall f, contents (w_disk w) f = (if z =? f then [] else contents d f) ++ written_to f (w_writes w).
Proof.
  intros SZ d junk xs w HSZ Hj Hp Hr HE. destruct (@start_files SZ HSZ d junk true Hp) as [HF HZ].
  destruct (@run_files SZ HSZ d xs _ _ w HF HZ (@start_good SZ HSZ d junk true Hj) HE Hr) as (z & HFw & _).
  destruct z as [z|].
  - exists z. intros f. exact (@files_contents SZ HSZ d (Some z) w f HFw).
  - exists (d_next d). intros f. rewrite (@files_contents SZ HSZ d None w f HFw).
    destruct (Nat.eqb_spec (d_next d) f) as [<-|_]; [|reflexivity]. unfold contents. now rewrite Nat.ltb_irrefl.
Qed.

(** Rotation: the log's file is renamed, and some time later the daemon gets SIGHUP.  Then the
    renamed file, the new file, and what waits are together, in this order, what the file
    contained before and the text for the log: no byte is missing, none is in both. *)
Theorem C96_rotation : forall SZ d junk n m m1 m2 ys zs us w, 1 < SZ -> length junk = SZ -> proper d -> n <> m ->
  Forall daemon's ys -> Forall daemon's zs -> Forall daemon's us ->
  let xs := Hup n Fine m1 :: ys ++ Rename n m :: zs ++ Hup n Fine m2 :: us in
  run SZ (start d junk false) xs = Ok w -> Forall untroubled xs -> keeps_up SZ (start d junk false) xs ->
  exists f1 f2, d_name (w_disk w) m = Some f1 /\ d_name (w_disk w) n = Some f2 /\ f1 <> f2 /\
    exists a, contents (w_disk w) f1 = match d_name d n with Some f => contents d f | None => [] end ++ a /\
      a ++ contents (w_disk w) f2 ++ waiting SZ w = text xs.
Proof. exact rotation. Qed.

(** A write that fails once, because the disk is full for a moment, ends logging: however much
    text follows and however often the log could be written, nothing is written until the daemon
    gets SIGHUP. *)
Theorem C96_disk_full_refuted : forall SZ d junk zero n msg xs w, 1 < SZ -> length junk = SZ -> msg <> [] ->
  Forall no_hup xs -> run SZ (start d junk zero) (Hup n Fine msg :: Flush [WErr] :: xs) = Ok w ->
  w_writes w = [].
Proof.
  intros SZ d junk zero n msg xs w HSZ Hj Hm Hx Hr. pose proof (@start_good SZ HSZ d junk zero Hj) as HG0.
  pose proof (@start_empty SZ HSZ d junk zero Hj) as HQ0.
  rewrite !run_cons in Hr. destruct (@step_ok SZ HSZ _ (Hup n Fine msg) HG0) as (w1 & S1 & HG1 & He1).
  rewrite S1 in Hr. cbn [bind] in Hr. rewrite run_cons in Hr.
  destruct (hup_fine _ _ _ _ _ S1) as (f & d1 & _ & _ & F1 & W1 & _).
  destruct He1 as (_ & HQ1 & _). rewrite HQ0 in HQ1.
  assert (Hne : pending SZ (g_obj (w_log w1)) <> []).
  { intros E. apply Hm. apply length_zero_iff_nil. rewrite E in HQ1. apply (f_equal (@length Z)) in HQ1.
    unfold enqueue in HQ1. cbn [app] in HQ1. unfold lastn in HQ1.
    rewrite skipn_length, firstn_length in HQ1. cbn [length] in HQ1. clear - HQ1 HSZ. lia. }
  destruct HG1 as [HB1 HO1].
  destruct (@flush_ok SZ HSZ _ [WErr] HB1) as (k & dead & o & Hf & HB & Ho & _ & _ & Hd & Hdead).
  rewrite F1 in HO1. specialize (Hdead HO1 Hne eq_refl). destruct (Hd Hdead) as [-> _]. subst dead.
  cbn [step] in Hr. unfold flush_log in Hr. rewrite Hf in Hr. cbn [bind firstn] in Hr.
  rewrite F1, Ho, HO1 in Hr. cbn [andb bind] in Hr.
  match type of Hr with run SZ ?v xs = _ => set (w2 := v) in Hr end.
  assert (HG2 : Good SZ w2).
  { destruct (@step_ok SZ HSZ w1 (Flush [WErr])) as (v & S2 & HGv & _).
    - split; [exact HB1|]. rewrite F1. exact HO1.
    - cbn [step] in S2. unfold flush_log in S2. rewrite Hf in S2. cbn [bind firstn] in S2.
      rewrite F1, Ho, HO1 in S2. cbn [andb] in S2. injection S2 as <-. exact HGv. }
  destruct (@run_where SZ HSZ xs w2 w Hx HG2 Hr) as (ws & E & FW & _).
  rewrite E. unfold w2 in *. cbn [w_writes w_log g_file] in *. rewrite W1. cbn [start w_writes app].
  destruct ws; [reflexivity|]. inversion FW; discriminate.
Qed.

(** Also when the log can not be opened again, even if only because the disk was full or another
    process held a lock at that moment: nothing is written until the next SIGHUP. *)
Theorem C96_not_retried_refuted : forall SZ d junk zero xs n r msg ys w1 w2 w3, 1 < SZ -> length junk = SZ ->
  run SZ (start d junk zero) xs = Ok w1 -> step SZ w1 (Hup n r msg) = Ok w2 -> r <> Fine ->
  Forall no_hup ys -> run SZ w2 ys = Ok w3 -> w_writes w3 = w_writes w1.
Proof.
  intros SZ d junk zero xs n r msg ys w1 w2 w3 HSZ Hj R1 S2 Hne Hy R3.
  destruct (C96_where SZ d junk zero xs n r msg ys w1 w2 w3 HSZ Hj R1 S2 Hy R3) as (ws & E & _ & H).
  rewrite E, (H Hne). apply app_nil_r.
Qed.

(** ** C97 *)
(** Every byte is accounted for: it has been written, it waits, or it is counted in a message
    about bytes that were lost. *)
Theorem C97_accounted : forall SZ d junk zero xs w, 1 < SZ -> length junk = SZ ->
  run SZ (start d junk zero) xs = Ok w -> Forall (moderate SZ) xs ->
  length (text xs) = length (written (w_writes w)) + length (waiting SZ w) + total (w_said w).
Proof.
  intros SZ d junk zero xs w HSZ Hj Hr HM. pose proof (@start_good SZ HSZ d junk zero Hj) as HG.
  destruct (@run_ok SZ HSZ _ xs HG) as (w' & Hr' & HGw). rewrite Hr in Hr'. injection Hr' as <-.
  rewrite (@good_waiting SZ w HGw).
  exact (@run_accounted SZ HSZ _ xs w HG eq_refl (@start_empty SZ HSZ d junk zero Hj) eq_refl Hr HM).
Qed.

(** When the daemon has stopped nothing waits: every byte has been written, or it was said that
    it was lost. *)
Theorem C97_stopped : forall SZ d junk zero xs w, 1 < SZ -> length junk = SZ ->
  run SZ (start d junk zero) xs = Ok w -> Forall (moderate SZ) xs ->
  let e := stop SZ w in
  w_disk e = w_disk w /\ g_file (w_log e) = None /\
  length (text xs) = length (written (w_writes e)) + total (w_said e).
Proof.
  intros SZ d junk zero xs w HSZ Hj Hr HM e. split; [reflexivity|]. split; [reflexivity|].
  rewrite (C97_accounted SZ d junk zero xs w HSZ Hj Hr HM).
  destruct (@run_ok SZ HSZ _ xs (@start_good SZ HSZ d junk zero Hj)) as (w' & Hr' & HGw).
  rewrite Hr in Hr'. injection Hr' as <-. rewrite (@good_waiting SZ w HGw).
  destruct HGw as [(HI & _) _]. rewrite (@pending_length SZ _ HI). unfold e, stop. cbn [w_writes w_said].
  destruct (Nat.ltb_spec 0 (num_bytes_buffered SZ (g_obj (w_log w)))).
  - rewrite (@total_app SZ HSZ). unfold total at 3. cbn [fold_right]. lia.
  - lia.
Qed.

(** Stopping the daemon loses what waits, although the log could be written: whatever comes
    between the last time the log was written and the signal is not in the file. *)
Theorem C97_stop_loses_refuted : forall SZ d junk zero xs w t i, 1 < SZ -> length junk = SZ ->
  run SZ (start d junk zero) xs = Ok w ->
  exists w', run SZ (start d junk zero) (xs ++ [Put t i]) = Ok w' /\ w_disk (stop SZ w') = w_disk w.
Proof.
  intros SZ d junk zero xs w t i HSZ Hj Hr.
  destruct (@run_ok SZ HSZ _ xs (@start_good SZ HSZ d junk zero Hj)) as (v & Hr' & HGw).
  rewrite Hr in Hr'. injection Hr' as <-.
  rewrite run_app, Hr. cbn [bind run]. cbn [step].
  destruct HGw as [HB _]. destruct (@put_ok SZ HSZ _ t i HB) as (o & s & -> & _). cbn [bind].
  eexists. split; reflexivity.
Qed.

(** ** Concrete cases *)
Definition disk0 : disk := mkDisk (fun n => if n =? 0 then Some 0 else None) (fun f => if f =? 0 then [1; 2]%Z else []) 1.
Definition junk8 : list Z := repeat 0%Z 8.
Definition rotated : list op :=
  [Hup 0 Fine [10]%Z; Put [11; 12]%Z false; Flush [WAccept 2]] ++ Rename 0 1 :: [Put [13]%Z false; Flush [WIntr; WAccept 1]]
  ++ Hup 0 Fine [14]%Z :: [Put [15]%Z true; Flush [WAgain]; Flush [WAccept 2]].

Example C96_example :
  proper disk0 /\ Forall untroubled rotated /\ Forall not_emptied rotated /\ Forall (moderate 8) rotated /\
  keeps_up 8 (start disk0 junk8 false) rotated /\
  match run 8 (start disk0 junk8 false) rotated with
  | Ok w => d_name (w_disk w) 1 = Some 0 /\ d_name (w_disk w) 0 = Some 1 /\
            contents (w_disk w) 0 = [1; 2; 10; 11; 12]%Z /\ contents (w_disk w) 1 = [13; 14]%Z /\
            waiting 8 w = [15]%Z /\ w_said (stop 8 w) = [1]
  | UB _ => False
  end.
Proof.
  split. { intros n f. cbn. destruct (n =? 0); [|discriminate]. intros [= <-]. lia. }
  split. { repeat constructor. }
  split. { repeat constructor. }
  split. { unfold rotated. cbn [app]. repeat (apply Forall_cons; [unfold moderate; cbn; lia|]). apply Forall_nil. }
  split; [|vm_compute; auto 10].
  intros ys zs w' E Hr.
  assert (Hl : ys = firstn (length ys) rotated) by (rewrite E, firstn_app, Nat.sub_diag, firstn_all, app_nil_r; reflexivity).
  assert (Hn : length ys <= 10) by (apply (f_equal (@length op)) in E; rewrite app_length in E; cbn in E; lia).
  rewrite Hl in Hr |- *. revert Hr. clear - Hn. generalize (length ys) as n, Hn. intros n Hn'.
  do 11 (destruct n as [|n]; [vm_compute; intros [= <-]; vm_compute; lia|]). lia.
Qed.

(** a write error; ZeroLogs *)
Example C96_example_trouble :
  match run 8 (start disk0 junk8 true) [Hup 0 Fine [10; 11]%Z; Flush [WErr]; Put [12]%Z false; Flush [WAccept 9]] with
  | Ok w => contents (w_disk w) 0 = [] /\ w_writes w = [] /\ waiting 8 w = [12]%Z /\ w_said w = [2]
  | UB _ => False
  end /\
  match run 8 (start disk0 junk8 false) [Hup 0 NoLock [10]%Z; Put [3;4;5;6;7]%Z false; Flush [WAccept 9]; Put [8;9;10;11]%Z false; Hup 0 Fine []; Flush [WAccept 9]] with
  | Ok w => contents (w_disk w) 0 = [1;2;5;6;7;8;9;10;11]%Z /\ w_said w = [2]
  | UB _ => False
  end.
Proof. vm_compute. auto 10. Qed.

Print Assumptions C96_safe. Print Assumptions C96_nothing_lost. Print Assumptions C96_order. Print Assumptions C96_where.
Print Assumptions C96_content. Print Assumptions C96_emptied_once. Print Assumptions C96_rotation.
Print Assumptions C96_disk_full_refuted. Print Assumptions C96_not_retried_refuted.
Print Assumptions C97_accounted. Print Assumptions C97_stopped. Print Assumptions C97_stop_loses_refuted.
