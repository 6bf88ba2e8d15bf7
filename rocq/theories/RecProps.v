(** A console's log holds what the console said, whatever else the daemon does. *)
From Verif Require Import Base BaseProof RingModel RingSpec RingProof LogModel LogSpec LogProof LogProps EscModel EscSpec TelnetModel TelnetSpec
  SessModel SessSpec SessInv SessWorld SessThread SessProps FlowSpec FlowProof FlowProps RecSpec RecProof.
Set Implicit Arguments.

(** C111: each configured log is, for ever and whatever happens, fed by one console
    and nothing else: no client's input and no other console's output gets into it.
    That holds even when writing to its file has failed or it could not be opened. *)
Theorem C111_fed E cs w0 x o : env_ok E -> boot E cs = Ok w0 -> w_heap w0 x = Some o -> log_b o = true ->
  exists k, is_console_id (w_heap w0) k /\ forall es w, Forall event_ok es -> run E w0 es = Ok w ->
    exists ox ok, w_heap w x = Some ox /\ log_b ox = true /\ w_heap w k = Some ok /\ fed_only_by (w_heap w) x k.
Proof.
  intros HE B Hx LB. destruct (boot_J HE cs B x Hx LB) as (k & ok & Hk & CB & JJ). exists k. split; [exists ok; auto|].
  intros es w EV X. destruct (boot_ok HE cs) as (w1 & B1 & W). rewrite B in B1. injection B1 as <-.
  pose proof (run_J HE W JJ EV X) as J2. destruct (j_log J2) as (ox & A1 & A2). destruct (j_k J2) as (q & A3 & _).
  exists ox, q. split; [exact A1|]. split; [exact A2|]. split; [exact A3|]. exact (J_feeds (run_WWF HE W EV X) J2).
Qed.

(** C111: from any state the daemon can be in, for every history in which the file
    of a console's log is only written to (clients connect, steal, join, monitor,
    type, send commands, disconnect; consoles are read, fail, are reset, closed and
    reopened; other logs are reopened), the log is given exactly what the console
    said in the history, in that order and nothing else of what anybody said, with
    messages of the daemon about that console in between. *)
Theorem C111_given E w es w' l x k ox ok : env_ok E -> reachable E w -> Forall event_ok es -> Forall (undisturbed x) es ->
  w_heap w x = Some ox -> w_heap w k = Some ok -> log_b ox = true -> fed_only_by (w_heap w) x k -> o_eof (s_ring ox) = false ->
  outputs E w es = Ok (w', l) ->
  exists evs ox', w_heap w' x = Some ox' /\ s_lopt ox' = s_lopt ox /\ 
    o_open (s_ring ox') = o_open (s_ring ox) /\ o_eof (s_ring ox') = false /\
    flat_map lop_bytes (lops evs) = said E k w es /\ flushes evs = writes_to x es /\
    (forall m, In (VOp (LogModel.LInfo m)) evs -> m <> [] /\ remark E k x es m) /\
    log_hist (e_sz E) (e_dbg E) (e_clock E x) (s_lopt ox) (fun _ => e_wbuf E) (s_ring ox) (s_stamps ox) evs = Ok (s_ring ox', s_stamps ox', sent_to x l).
Proof.
  intros HE R EV UN Hx Hk LB FO EO X. pose proof (reach_WWF HE R) as W.
  assert (Y : L E x (remark E k x es) (said E k w es) (writes_to x es) (sent_to x l) (w_heap w) (w_heap w')).
  { eapply history_T; eauto.
    - intros c b. left. eauto.
    - intros c. right. left. eauto.
    - exact (J_start W Hx LB Hk FO).
    - intros e m I M. right. right. exists e. split; [exact I|exact M]. }
  destruct (Y ox Hx) as (ox' & evs & A1 & A2 & A3 & A4 & A5 & A6 & A7 & A8).
  exists evs, ox'. rewrite A4. auto 12.
Qed.
Lemma says_bytes w k e : event_ok e -> bytes_ok (says w k e).
Proof.
  intros H. destruct e as [| |i [[| | |d]|] wr ro rst| | |]; try constructor. cbn in *. destruct (i =? k); [|constructor].
  destruct (w_heap w k) as [o|]; [|constructor]. destruct (_ && _); [|constructor]. unfold meant. apply (decode_bytes ex_env). exact H.
Qed.
Lemma said_bytes E k : forall es w, Forall event_ok es -> bytes_ok (said E k w es).
Proof.
  induction es as [|e es IH]; intros w H; [constructor|]. inversion H as [|? ? H1 H2]; subst. cbn [said]. apply Forall_app.
  split; [exact (says_bytes w k e H1)|]. destruct (step E w e); [exact (IH _ H2)|constructor].
Qed.
Lemma run_plain SZ dbg clock p junk : got_processing p = false -> MINBUF <= SZ - 1 -> forall xs ls n, 
  exists ms ls', log_run SZ dbg clock p junk ls n xs = Ok (ms, ls', n) /\ concat ms = plain xs.
Proof.
  intros GP HM. induction xs as [|x xs IH]; intros ls n; [exists [], ls; auto|]. destruct x as [d|m]; cbn [log_run].
  - unfold log_format. rewrite GP. rewrite (proj2 (Nat.leb_le _ _) HM). cbn [assert_ bind negb].
    destruct (IH ls n) as (ms & ls' & A & B). rewrite A. cbn [bind]. exists ([d] ++ ms), ls'. split; [reflexivity|]. cbn. now rewrite B.
  - destruct (IH LineInit n) as (ms & ls' & A & B). rewrite A. cbn [bind]. exists (m :: ms), ls'. split; [reflexivity|]. cbn. now rewrite B.
Qed.

(** ... and if the log is open and at the start of a line, its buffer is never
    overrun (for instance because all the text fits into it), then what is written
    to the file, with what is still waiting to be written, is the text of the log:
    each line of what the console said, sanitized and stamped according to the
    options of the log, with the messages in between. *)
Theorem C111_log E w es w' l x k ox ok pend : env_ok E -> reachable E w -> Forall event_ok es -> Forall (undisturbed x) es ->
  w_heap w x = Some ox -> w_heap w k = Some ok -> log_b ox = true -> fed_only_by (w_heap w) x k ->
  o_kind (s_ring ox) = KLogfile LineInit -> o_eof (s_ring ox) = false -> o_open (s_ring ox) = true -> iov (e_sz E) (s_ring ox) = Ok pend ->
  outputs E w es = Ok (w', l) ->
  exists evs text ox', w_heap w' x = Some ox' /\ s_lopt ox' = s_lopt ox /\ o_open (s_ring ox') = true /\ o_eof (s_ring ox') = false /\
    flat_map lop_bytes (lops evs) = said E k w es /\ flushes evs = writes_to x es /\
    (forall m, In (VOp (LogModel.LInfo m)) evs -> m <> [] /\ remark E k x es m) /\
    log_text (s_lopt ox) (e_clock E x) (s_stamps ox) (lops evs) text /\
    (length pend + length text <= e_sz E - 1 \/
     roomy (e_sz E) (e_dbg E) (e_clock E x) (s_lopt ox) (fun _ => e_wbuf E) pend LineInit (s_stamps ox) evs ->
     exists rest, iov (e_sz E) (s_ring ox') = Ok rest /\ sent_to x l ++ rest = pend ++ text).
Proof.
  intros HE R EV UN Hx Hk LB FO KI EO OP IP X.
  destruct (C111_given HE R EV UN Hx Hk LB FO EO X) as (evs & ox' & A1 & A2 & A3 & A4 & A5 & A6 & A7 & A8).
  pose proof HE as (_ & HM & _ & HW & _ & HC & _).
  pose proof (proj2 (ww_hok (reach_WWF HE R)) x ox Hx) as (I1 & _). rewrite iov_pending in IP by assumption. injection IP as <-.
  assert (TX : exists ms ls' n, log_run (e_sz E) (e_dbg E) (e_clock E x) (s_lopt ox) (fun _ => e_wbuf E) LineInit (s_stamps ox) (lops evs) = Ok (ms, ls', n) /\
    log_text (s_lopt ox) (e_clock E x) (s_stamps ox) (lops evs) (concat ms)).
  { unfold log_text. fold (got_processing (s_lopt ox)). destruct (got_processing (s_lopt ox)) eqn:GP.
    - eapply C36_lines_stamped; eauto. rewrite A5. now apply said_bytes.
    - destruct (@run_plain (e_sz E) (e_dbg E) (e_clock E x) (s_lopt ox) (fun _ => e_wbuf E) GP HM (lops evs) LineInit (s_stamps ox)) as (ms & ls' & B & C).
      exists ms, ls', (s_stamps ox). auto. }
  destruct TX as (ms & ls' & n & B & C). exists evs, (concat ms), ox'.
  split; [exact A1|]. split; [exact A2|]. split; [congruence|]. split; [exact A4|]. split; [exact A5|]. split; [exact A6|]. split; [exact A7|]. split; [exact C|].
  intros RO.
  assert (RR : roomy (e_sz E) (e_dbg E) (e_clock E x) (s_lopt ox) (fun _ => e_wbuf E) (pending (e_sz E) (s_ring ox)) LineInit (s_stamps ox) evs).
  { destruct RO as [RO|RO]; [|exact RO]. eapply roomy_small; [exact B|exact RO]. }
  destruct (@hist_ok (e_sz E) (e_dbg E) (e_clock E x) (s_lopt ox) (fun _ => e_wbuf E) ltac:(unfold MINBUF in HM; lia) evs (s_ring ox) (s_stamps ox) LineInit)
    as (r' & sent & ms2 & ls2 & k2 & H1 & H2 & H3 & _ & _ & H6); auto.
  { intros m H. now apply A7. }
  rewrite A8 in H1. injection H1 as <- <- <-. rewrite B in H2. injection H2 as <- <- _.
  exists (pending (e_sz E) (s_ring ox')). split; [now apply iov_pending|exact H6].
Qed.

(** A console with a log that is sanitized and stamped.  The console says "a" and
    CR; a client connects; the console says LF and "b"; a second client takes the
    console over; it types, and gives up writing; the log file takes some bytes; the console fails and is reopened, with a
    message; the console says "c". *)
Definition ex_says (d : list Z) : event := sends 0 d.
Definition ex_life : list event :=
  [ex_says [97; 13]%Z; EvMux 1 None (Some [WAccept 7]) no_reopen (fun _ => [])] ++ connects 0 0 ++ [ex_says [10; 98]%Z; EvMux 1 None (Some [WAccept 30]) no_reopen (fun _ => [])] ++
  (EvAccept (request CmdConnect true false false false) (only 0) :: turns 1 6) ++
  [sends 3 [120]%Z; sends 3 [ESC_CHAR; ESC_FORCE]%Z; EvMux 1 None (Some [WAccept 30]) no_reopen (fun _ => []);
   EvMux 0 (Some RdErr) None (mkReopen true true StUp [[77; 13; 10]%Z] []) (fun _ => []); ex_says [99]%Z].
Lemma ex_life_calm : Forall (undisturbed 1) ex_life.
Proof.
  apply Forall_forall. intros e H. unfold ex_life in H. cbn in H.
  repeat (destruct H as [<-|H]; [first [exact I|intros q; discriminate q|intros _; split; [reflexivity|]; intros rs q; injection q as <-; intros [q|[]]; discriminate q]|]).
  destruct H.
Qed.
Example C111_example : exists w ox ok w' l, ex_log = Some w /\ reachable ex_env w /\ w_heap w 1 = Some ox /\ w_heap w 0 = Some ok /\
  log_b ox = true /\ fed_only_by (w_heap w) 1 0 /\ o_kind (s_ring ox) = KLogfile LineInit /\ o_open (s_ring ox) = true /\ o_eof (s_ring ox) = false /\
  Forall event_ok ex_life /\ Forall (undisturbed 1) ex_life /\ outputs ex_env w ex_life = Ok (w', l) /\ said ex_env 0 w ex_life = [97; 13; 10; 98; 99]%Z /\
  writers_at (Some w') 0 = Some [] /\
  sent_to 1 l ++ match pending_at (Some w') 1 with Some p => p | None => [] end =
    repeat 48%Z 20 ++ [97; 33]%Z ++ repeat 48%Z 20 ++ [13; 10]%Z ++ repeat 48%Z 20 ++ [98; 33; 33; 33; 77; 13; 10]%Z ++ repeat 48%Z 20 ++ [99]%Z.
Proof.
  unfold ex_log. set (es := [_; _; _]). set (cf := [(TyProcess, Some (mkLopts true true))]). destruct (boot ex_env cf) as [w0|] eqn:B; [|vm_compute in B; discriminate].
  destruct (run ex_env w0 es) as [w|] eqn:R.
  2:{ exfalso. assert (X : match boot ex_env cf with
        | Ok w0 => match run ex_env w0 es with Ok _ => true | UB _ => false end | UB _ => false end = true)
        by (vm_compute; reflexivity). rewrite B, R in X. discriminate. }
  assert (EV : Forall event_ok es) by run_ok.
  assert (RE : reachable ex_env w).
  { exists cf, w0, es. auto. }
  assert (FO : fed_only_by (w_heap w) 1 0).
  { assert (X : exists o, w_heap w0 1 = Some o /\ log_b o = true).
    { pose proof B as B2. vm_compute in B2. injection B2 as <-. eexists. split; vm_compute; reflexivity. }
    destruct X as (o & X1 & X2). destruct (C111_fed _ _ ex_env_ok B X1 X2) as (k & (q & Q1 & Q2) & F).
    destruct (F es w EV R) as (_ & _ & _ & _ & _ & F2). assert (k = 0); [|subst; exact F2].
    pose proof B as B2. vm_compute in B2. injection B2 as <-. destruct k as [|[|k]]; [reflexivity| |discriminate]. injection Q1 as <-. discriminate. }
  destruct (outputs ex_env w ex_life) as [[w' l]|] eqn:O.
  2:{ exfalso. vm_compute in B. injection B as <-. vm_compute in R. injection R as <-. vm_compute in O. discriminate. }
  vm_compute in B. injection B as <-. vm_compute in R. injection R as <-.
  do 3 eexists. exists w', l. split; [reflexivity|]. split; [exact RE|]. split; [vm_compute; reflexivity|]. split; [vm_compute; reflexivity|].
  split; [vm_compute; reflexivity|]. split; [exact FO|]. do 3 (split; [vm_compute; reflexivity|]). split; [run_ok|].
  split; [exact ex_life_calm|].
  split; [exact O|]. split; [vm_compute; reflexivity|]. vm_compute in O. injection O as <- <-. split; vm_compute; reflexivity.
Qed.
Print Assumptions C111_fed.
Print Assumptions C111_given.
Print Assumptions C111_log.
