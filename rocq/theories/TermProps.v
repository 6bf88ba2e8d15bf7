(** C83-C85: what a user of the client sees of a session. *)
From Coq Require Import String.
From Verif Require Import Base BaseProof Mem Chars Fmt StrModel StrProof MsgModel MsgSpec EscModel EscSpec EscProof TermModel TermSpec TermProof TermRun.
From Coq Require Import ZifyNat.
Local Open Scope Z_scope.
Local Open Scope list_scope.

(** a session for the examples: one console, a terminal with the usual settings *)
Definition tty0 : termios := mkTerm (BRKINT + ICRNL + IXON) OPOST (48 + 128) (ECHO + ECHOCTL + ICANON + IEXTEN + ISIG) 1 0 [].
Definition c0 : cfg := mkCfg [zs "web1"] (zs "localhost") 7890 38 [7; 7; 7; 7] (repeat 7 1024) (repeat 7 4096).
Definition s0 : st := mkSt tty0 tty0 (start true true true false false) [] (Some []) [] false [].
Lemma c0_ok : cfg_ok c0.
Proof. unfold cfg_ok. split; [discriminate|]. split; [repeat constructor; cbn; unfold char_ok; lia|]. split; [reflexivity|]. split; apply Nat.leb_le; reflexivity. Qed.
Lemma s0_ok : starts c0 s0. Proof. repeat split. Qed.

(** C83: whatever is typed, whatever the server sends, in any order and with any failures, the
    terminal and the log get exactly the server's bytes, in order: all of those that arrived
    while the session lasts or until it ended; a beginning of them if it ends by an error. *)
Theorem C83_output : forall dbg c s rs1 l rs2, cfg_ok c -> starts c s ->
  exists s' ph, connect_console dbg true true c s rs1 l rs2 = Ok (s', ph) /\
  match ph with
  | Waiting => from_server (out s') = data l /\ log_ s' = logged (log_ s) (data l)
  | Over rem => exists u, l = u ++ rem /\ from_server (out s') = data u /\ log_ s' = logged (log_ s) (data u)
  | Dead => exists p q p' q', data l = p ++ q /\ p = p' ++ q' /\ from_server (out s') = p /\ log_ s' = logged (log_ s) p'
  end.
Proof.
  intros dbg c s rs1 l rs2 CO ST. destruct (session dbg c s rs1 l rs2 CO ST) as (s' & ph & E & _ & R). exists s', ph. split; [exact E|]. assert (O : out s = []) by apply ST.
  destruct ph as [|rem|].
  - destruct R as [[R1 R2] _]. rewrite O in R1. auto.
  - destruct R as (_ & u & -> & R1 & R2). rewrite O in R1. exists u. auto.
  - destruct R as (p & q & p' & q' & A & B & C & D). rewrite O in C. exists p, q, p', q'. auto.
Qed.
Example C83_output_case : exists s', connect_console true true true c0 s0 [] [Ready (Some (Byte 108, [])) (Some (Bytes (zs "login"), [])) false; Interrupted false; Ready None (Some (Bytes (zs ": "), [])) false; Ready None (Some (SEof, [])) false] [] = Ok (s', Over []) /\
  from_server (out s') = zs "login: " /\ log_ s' = Some (zs "login: ").
Proof. eexists. split; [vm_compute; reflexivity|]. split; vm_compute; reflexivity. Qed.

(** C83: a log that existed is continued; it gets a line with the time at which it was
    started, what the server sent, and, once the session is over, a line with the time at
    which it was finished. *)
Theorem C83_log : forall dbg c s t1 rs1 l rs2 t2, cfg_ok c -> starts c s ->
  exists s' ph, whole_session dbg true true c s t1 rs1 l rs2 t2 = Ok (s', ph) /\
  match ph with
  | Waiting => log_ s' = logged (log_ s) (log_line (zs "started") t1 ++ data l)
  | Over rem => exists u, l = u ++ rem /\ log_ s' = logged (log_ s) (log_line (zs "started") t1 ++ data u ++ log_line (zs "finished") t2)
  | Dead => exists p q, data l = p ++ q /\ log_ s' = logged (log_ s) (log_line (zs "started") t1 ++ p)
  end.
Proof.
  intros dbg c s t1 rs1 l rs2 t2 CO ST. unfold whole_session.
  assert (ST' : starts c (add_log s (log_started t1))) by exact ST.
  destruct (C83_output dbg c (add_log s (log_started t1)) rs1 l rs2 CO ST') as (s' & ph & -> & R). cbn [bind].
  assert (E1 : log_started t1 = log_line (zs "started") t1) by reflexivity.
  assert (E2 : log_finished t2 = log_line (zs "finished") t2) by reflexivity.
  assert (A : forall x, log_ (add_log x (log_finished t2)) = logged (log_ x) (log_finished t2)) by (intros x; unfold add_log; cbn [do_act log_]; destruct (log_ x); reflexivity).
  assert (B : log_ (add_log s (log_started t1)) = logged (log_ s) (log_started t1)) by (unfold add_log; cbn [do_act log_]; destruct (log_ s); reflexivity).
  rewrite <- E1, <- E2. destruct ph as [|rem|].
  - eexists _, _. split; [reflexivity|]. destruct R as [_ R]. rewrite R, B, logged_app. reflexivity.
  - eexists _, _. split; [reflexivity|]. destruct R as (u & X & _ & R). exists u. split; [exact X|]. rewrite A, R, B, !logged_app, <- ?app_assoc. reflexivity.
  - eexists _, _. split; [reflexivity|]. destruct R as (p & q & p' & q' & X & Y & _ & R). exists p', (q' ++ q). split; [rewrite X, Y, app_assoc; reflexivity|]. rewrite R, B, logged_app. reflexivity.
Qed.
Example C83_log_case : exists s', whole_session true true true c0 s0 (zs "noon") [] [Ready None (Some (Bytes (zs "login"), [])) false; Ready None (Some (SEof, [])) false] [] (zs "one") = Ok (s', Over []) /\
  log_ s' = Some ([13; 10] ++ zs "<ConMan> Log started at noon." ++ [13; 10] ++ zs "login" ++ [13; 10] ++ zs "<ConMan> Log finished at one." ++ [13; 10]).
Proof. eexists. split; vm_compute; reflexivity. Qed.

(** C83: while nothing fails the session never ends by an error, and unless the user closes
    it the server gets exactly what the keys read so far mean. *)
Theorem C83_keys : forall dbg c s rs1 l rs2, cfg_ok c -> starts c s -> 0 <= escape c < 128 -> Forall fine_result rs1 -> Forall fine_result rs2 -> Forall fine l ->
  exists s' ph u, connect_console dbg true true c s rs1 l rs2 = Ok (s', ph) /\ used l ph u /\
  (~ In (Escaped 46) (keys_of (escape c) (keys_typed u)) ->
   parse (sent s') = keys_meaning (escape c) (mkS (t_connect (ses s)) (negb (length (names c) =? 1)%nat && t_bcast (ses s)) (t_reset (ses s))) (keys_of (escape c) (keys_typed u))).
Proof.
  intros dbg c s rs1 l rs2 CO ST EB F1 F2 F3. destruct (session_fine dbg c s rs1 l rs2 CO ST F1 F2 F3) as (s' & ph & u & E & U & t2 & snt & lc & T & Q). exists s', ph, u. split; [exact E|]. split; [exact U|].
  intros NI. destruct (ses s) as [m con bc ec qu re cl] eqn:SE. destruct ST as (S1 & S2 & S3 & _). rewrite SE in S1, S2, S3. cbn [t_mode t_closed t_echo t_connect t_bcast t_reset] in *. subst m cl ec.
  assert (S0 : ses0 c (mkTty MEol con bc false qu re false) = start con (negb (List.length (names c) =? 1)%nat && bc) re false qu) by (unfold ses0, single, start; destruct (List.length (names c) =? 1)%nat; reflexivity).
  rewrite S0 in T. destruct (keyboard_spec (escape c) (key_buf c) con (negb (List.length (names c) =? 1)%nat && bc) re false qu (keys_typed u)) as (t3 & s3 & l3 & T3 & P & _ & rest & L & NR); [apply CO|exact EB|].
  assert (SC : signed_char (escape c) = escape c) by (unfold signed_char; destruct (Z.ltb_spec (escape c) 128); [reflexivity|lia]). rewrite SC, T in T3. injection T3 as <- <- <-.
  assert (UC : forall ks, ~ In (Escaped 46) ks -> until_close ks = ks).
  { intros ks. induction ks as [|[k|k] ks IH]; intros N; [reflexivity| |].
    - cbn [until_close]. rewrite IH; [reflexivity|]. intros I. apply N. right. exact I.
    - assert (NK : k <> 46) by (intros ->; apply N; left; reflexivity). assert (IK : until_close ks = ks) by (apply IH; intros I; apply N; right; exact I).
      transitivity (Escaped k :: until_close ks); [|rewrite IK; reflexivity]. destruct k as [|p|p]; try reflexivity. do 6 (destruct p as [p|p|]; try reflexivity). congruence. }
  rewrite (UC _ NI) in P, L. rewrite <- P. f_equal. apply Q. rewrite (NR NI), app_nil_r in L. rewrite L.
  assert (KL : forall ks se, ~ In (Escaped 46) ks -> ~ In LClose (keys_local (escape c) se ks)).
  { clear. induction ks as [|k ks IH]; intros se N; cbn [keys_local]; [auto|]. rewrite in_app_iff. intros [H | H]; [|apply (IH _ (fun I => N (or_intror I)) H)].
    destruct k as [k|k]; cbn [key_local] in H; [contradiction|]. assert (NK : k <> 46) by (intros ->; apply N; left; reflexivity).
    destruct k as [|p|p]; try contradiction H. repeat (match goal with q : positive |- _ => destruct q end; try contradiction H); try (destruct (s_write se)); cbn [In] in H; intuition (try discriminate; try congruence). }
  apply KL. exact NI.
Qed.
Example C83_keys_case : exists s', connect_console true true true c0 s0 [] [Ready (Some (Byte 97, [])) None false; Ready (Some (Byte 38, [])) None false; Ready (Some (Byte 66, [])) None false; Ready (Some (Byte 255, [])) None false] [] = Ok (s', Waiting) /\
  parse (sent s') = [Data 97; Cmd 66; Data 255].
Proof. eexists. split; vm_compute; reflexivity. Qed.

(** C83: the messages about the session are complete lines, shorter than the buffer, and cut
    only if they do not fit. *)
Theorem C83_status : forall c msg, cfg_ok c -> chars_ok msg ->
  status c msg = Ok (shown (length (line_buf c)) (status_text c msg)) /\
  line_ended (shown (length (line_buf c)) (status_text c msg)) /\ (length (shown (length (line_buf c)) (status_text c msg)) < length (line_buf c))%nat.
Proof.
  intros c msg CO M. split; [apply status_ok; assumption|]. apply shown_ended; [apply CO|]. unfold status_text, MSG_SUFFIX.
  assert (G : forall x : list Z, exists a, x ++ [DOT; CR; LF] = a ++ [CR; LF]) by (intros x; exists (x ++ [DOT]); rewrite <- app_assoc; reflexivity).
  destruct (names c) as [|n [|m l]]; rewrite ?app_assoc; apply G.
Qed.
Example C83_status_case : status c0 (zs "opened") = Ok (CR :: LF :: zs "<ConMan> Connection to console [web1] opened." ++ [CR; LF]).
Proof. vm_compute. reflexivity. Qed.

(** C83: at any time in a session, the escape for information shows the access, the console
    or the number of consoles, and the server: and this is all it does. *)
Theorem C83_info : forall dbg c s rs1 l rs2 s1, cfg_ok c -> connect_console dbg true true c s rs1 l rs2 = Ok (s1, Waiting) ->
  t_mode (ses s1) <> MEsc -> done s1 = false ->
  exists s', connect_console dbg true true c s rs1 (l ++ [Ready (Some (Byte (escape c), [])) None false; Ready (Some (Byte 73, [])) None false]) rs2 = Ok (s', Waiting) /\
    out s' = out s1 ++ [(false, info_text c (t_connect (ses s1)))] /\ sent s' = sent s1 /\ now s' = now s1 /\ log_ s' = log_ s1 /\
    ses s' = with_mode (ses s1) MEol.
Proof.
  intros dbg c s rs1 l rs2 s1 CO E M D. rewrite (session_app dbg c s rs1 l _ rs2 rs2 s1 CO E).
  assert (K1 : keystroke (escape c) (key_buf c) (ses s1) (escape c) = Ok (with_mode (ses s1) MEsc, [], [])).
  { unfold keystroke. destruct (t_mode (ses s1)); try congruence; now rewrite Z.eqb_refl. }
  assert (K2 : keystroke (escape c) (key_buf c) (with_mode (ses s1) MEsc) 73 = Ok (with_mode (ses s1) MEol, [], [LInfo])) by reflexivity.
  assert (I : info c (with_mode (ses s1) MEol) = Ok (info_text c (t_connect (ses s1)))).
  { unfold info, info_text, single, first_name. cbn [with_mode t_connect]. destruct CO as (NN & _). destruct (names c) as [|n [|n2 ns]]; [congruence| |]; cbn [length Nat.eqb bind].
    - f_equal. unfold put_name. change (COLON :: fmt_d (port c) ++ zs ">" ++ MSG_SUFFIX) with (zs ":" ++ fmt_d (port c) ++ zs ">" ++ MSG_SUFFIX).
      change (zs " to console [") with (zs " to console " ++ zs "["). replace (if t_connect (ses s1) then zs "R/W" else zs "R/O") with (zs "R/" ++ (if t_connect (ses s1) then zs "W" else zs "O")) by (destruct (t_connect (ses s1)); reflexivity).
      change (zs "Connected R/") with (zs "Connected " ++ zs "R/"). rewrite <- !app_assoc. reflexivity.
    - f_equal. change (COLON :: fmt_d (port c) ++ zs ">" ++ MSG_SUFFIX) with (zs ":" ++ fmt_d (port c) ++ zs ">" ++ MSG_SUFFIX).
      change (zs " consoles on <") with (zs " consoles" ++ zs " on <"). rewrite <- !app_assoc. reflexivity. }
  cbn [loop read_from_stdin]. rewrite K1. cbn [bind key_acts]. cbn [exec bind snd fst done set_ses]. rewrite D.
  cbn [loop read_from_stdin ses set_ses]. rewrite K2. cbn [bind key_acts]. rewrite I. cbn [bind exec hd do_act snd fst done set_ses now saved ses out log_ sent stops]. rewrite D.
  cbn [loop]. eexists. split; [reflexivity|]. cbn. auto 6.
Qed.
Example C83_info_case : exists s', connect_console true true true c0 s0 [] [Ready (Some (Byte 38, [])) None false; Ready (Some (Byte 73, [])) None false] [] = Ok (s', Waiting) /\
  last (out s') (true, []) = (false, CR :: LF :: zs "<ConMan> Connected R/W to console [web1] on <localhost:7890>." ++ [CR; LF]).
Proof. eexists. split; [vm_compute; reflexivity|]. vm_compute. reflexivity. Qed.

(** C83: a query prints each name the server has given on a line of its own ... *)
Theorem C83_query : forall l buf, Forall (fun n => (length n + 1 < length buf)%nat) l -> display_consoles buf l = Ok (concat (map (fun n => n ++ [LF]) l)).
Proof.
  induction l as [|n l IH]; intros buf F; [reflexivity|]. inversion F as [|? ? F1 F2]; subst. cbn [display_consoles]. unfold vsnprintf. destruct (Nat.eqb_spec (List.length buf) 0); [lia|].
  assert (LN : List.length (n ++ [LF]) = (List.length n + 1)%nat) by (rewrite app_length; reflexivity).
  assert (FN : firstn (List.length buf - 1) (n ++ [LF]) = n ++ [LF]) by (apply firstn_all2; lia). rewrite FN.
  destruct (split_block buf 0 (List.length n + 2)) as ([|] & a & b & EB & LP & LA); [lia| |discriminate LP]. cbn [app] in EB.
  assert (BL : blit buf 0 ((n ++ [LF]) ++ [NUL]) = Ok (((n ++ [LF]) ++ [NUL]) ++ b)) by (rewrite EB; exact (blit_eq [] a b ((n ++ [LF]) ++ [NUL]) 0 eq_refl ltac:(rewrite LA, app_length, LN; cbn; lia))).
  rewrite BL. cbn [bind fst snd]. destruct (Nat.leb_spec (List.length buf) (List.length (n ++ [LF]))); [lia|].
  assert (SL : slice (((n ++ [LF]) ++ [NUL]) ++ b) 0 (List.length (n ++ [LF])) = Ok (n ++ [LF])) by (rewrite <- app_assoc; exact (slice_eq [] (n ++ [LF]) ([NUL] ++ b) 0 _ eq_refl eq_refl)).
  rewrite SL. cbn [bind]. rewrite IH; [reflexivity|]. assert (LB : List.length (((n ++ [LF]) ++ [NUL]) ++ b) = List.length buf) by (rewrite EB, !app_length, LA; cbn; lia). rewrite LB. exact F2.
Qed.
Example C83_query_case : display_consoles (repeat 7 1024) [zs "db1"; zs "web1"] = Ok (zs "db1" ++ [LF] ++ zs "web1" ++ [LF]).
Proof. vm_compute. reflexivity. Qed.

(** C83, finding: ... but the client gives up at the first name that does not fit its buffer,
    although the server accepts and lists such names. *)
Theorem C83_query_refuted : forall buf l n l', Forall (fun n => (length n + 1 < length buf)%nat) l -> (0 < length buf <= length n + 1)%nat -> display_consoles buf (l ++ n :: l') = UB Fatal.
Proof.
  intros buf l n l' F H. revert buf F H. induction l as [|m l IH]; intros buf F H; cbn [app display_consoles]; unfold vsnprintf; (destruct (Nat.eqb_spec (List.length buf) 0); [lia|]).
  - assert (LN : List.length (n ++ [LF]) = (List.length n + 1)%nat) by (rewrite app_length; reflexivity).
    rewrite blit_ok by (rewrite app_length, firstn_length; cbn [List.length]; lia). cbn [bind fst snd]. destruct (Nat.leb_spec (List.length buf) (List.length (n ++ [LF]))) as [Q|Q]; [reflexivity|lia].
  - inversion F as [|? ? F1 F2]; subst. assert (LM : List.length (m ++ [LF]) = (List.length m + 1)%nat) by (rewrite app_length; reflexivity).
    assert (LF1 : (List.length (firstn (List.length buf - 1) (m ++ [LF]) ++ [NUL]) <= List.length buf)%nat) by (rewrite app_length, firstn_length; cbn [List.length]; lia).
    rewrite blit_ok by lia. cbn [bind fst snd Nat.add]. set (b := firstn 0 buf ++ _). assert (LB : List.length b = List.length buf) by (unfold b; cbn [firstn app]; rewrite app_length, skipn_length; lia).
    destruct (Nat.leb_spec (List.length buf) (List.length (m ++ [LF]))); [lia|]. rewrite slice_ok by lia. cbn [bind]. rewrite IH; [reflexivity| |lia]. rewrite LB. exact F2.
Qed.

(** C83, finding: the session is said to be terminated by the server when it is not: e.g. at
    the end of the input (the terminal has gone, or Ctrl-D where it is not raw), or on SIGTERM. *)
Theorem C83_blame_refuted : exists c s, cfg_ok c /\ starts c s /\
  forall e, In e [Ready (Some (InEof, [])) None false; Interrupted true] ->
  exists s', connect_console true true true c s [] [e] [] = Ok (s', Over []) /\ t_closed (ses s') = false /\
  exists o, out s' = o ++ [(false, CR :: LF :: zs "<ConMan> Connection to console [web1] terminated by server." ++ [CR; LF])].
Proof.
  exists c0, s0. split; [exact c0_ok|]. split; [exact s0_ok|]. intros e [<- | [<- | []]]; (eexists; split; [vm_compute; reflexivity|]; split; [reflexivity|]; eexists [_]; reflexivity).
Qed.

(** C84: the terminal.  While the session waits it is raw; when the session is over it is as
    it was at the start, also if the server closed it or a signal ended it; and it is as it
    was at the start whenever the client is stopped.  For every history, with any failures. *)
Theorem C84_terminal : forall dbg c s rs1 l rs2 s' ph, cfg_ok c -> starts c s -> connect_console dbg true true c s rs1 l rs2 = Ok (s', ph) ->
  Forall (fun t => t = now s) (stops s') /\ (ph = Waiting -> raw_mode (now s')) /\ (forall rem, ph = Over rem -> now s' = now s).
Proof.
  intros dbg c s rs1 l rs2 s' ph CO ST E. destruct (session dbg c s rs1 l rs2 CO ST) as (s2 & ph2 & E2 & F & R). rewrite E in E2. injection E2 as <- <-. split; [exact F|]. split; [intros ->; apply R|intros rem ->; apply R].
Qed.
Example C84_terminal_case : exists s', connect_console true true true c0 s0 [] [Ready (Some (Byte 38, [])) None false; Ready (Some (Byte 90, [])) None false; Ready None (Some (SEof, [])) false] [] = Ok (s', Over []) /\
  stops s' = [tty0] /\ now s' = tty0 /\ ~ raw_mode tty0.
Proof. eexists. split; [vm_compute; reflexivity|]. split; [reflexivity|]. split; [reflexivity|]. intros (H & _). discriminate H. Qed.

(** C84: without a terminal on both its input and its output the client does nothing to
    either, and sends nothing. *)
Theorem C84_no_terminal : forall dbg isin isout c s rs1 l rs2, isin = false \/ isout = false ->
  connect_console dbg isin isout c s rs1 l rs2 = Ok (s, Dead).
Proof. intros dbg isin isout c s rs1 l rs2 [-> | ->]; [reflexivity|]. unfold connect_console. rewrite orb_true_r. reflexivity. Qed.
(** C84: the end of the server's data, and SIGTERM while the client waits, always end the
    session; the terminal is then as it was. *)
Theorem C84_ends : forall dbg c s rs1 l rs2 s1 e rs3, cfg_ok c -> starts c s -> connect_console dbg true true c s rs1 l rs2 = Ok (s1, Waiting) ->
  e = Interrupted true \/ e = Ready None (Some (SEof, [])) false -> Forall fine_result rs3 ->
  exists s', connect_console dbg true true c s rs1 (l ++ [e]) rs3 = Ok (s', Over []) /\ now s' = now s.
Proof.
  intros dbg c s rs1 l rs2 s1 e rs3 CO ST E EE F. rewrite (session_app dbg c s rs1 l [e] rs2 rs3 s1 CO E).
  assert (L1 : loop dbg c s1 [e] = Ok (set_done s1, Over [])) by (destruct EE as [-> | ->]; reflexivity). rewrite L1. cbn [bind].
  set (ms := if t_closed (ses (set_done s1)) then [] else _). assert (SQ : Forall still ms /\ Forall quiet ms) by (unfold ms; destruct (t_closed _); split; repeat constructor).
  destruct (exec_fine (AClose :: ms ++ [ARestore]) (set_done s1) rs3 F) as (s3 & E3 & _). rewrite E3. exists s3. split; [reflexivity|].
  destruct (close_exec _ _ _ _ _ (proj1 SQ) (proj2 SQ) E3) as (_ & _ & _ & _ & _ & _ & H). rewrite (H eq_refl). cbn [set_done saved].
  rewrite connect_ok in E by assumption. set (x0 := mkSt _ _ _ _ _ _ _ _) in E. destruct (exec x0 rs1 _) as [x1 [| |]] eqn:EX; try discriminate E. destruct (open_exec _ _ _ _ _ EX) as (A & B & C & _ & _ & _ & _ & K). destruct (K eq_refl) as [K1 _].
  assert (I1 : inv (now s) x1). { split; [split; [exact B|rewrite A; unfold x0; cbn [stops]; rewrite (proj2 (proj2 (proj2 (proj2 (proj2 (proj2 ST)))))); constructor]|]. rewrite K1. split; [apply raw_ok|]. intros _. rewrite (proj2 (raw_ok _)), C. unfold x0, ses0. cbn [ses]. destruct ST as (_ & _ & S3 & _). destruct (single c); cbn [t_echo]; auto. }
  destruct (loop_inv dbg c (now s) CO l x1 I1) as (x2 & ph & EL & W & R). rewrite EL in E. cbn [bind] in E. destruct ph as [|rem|]; try discriminate E; [injection E as <-; apply W|]. destruct (exec x2 rs2 _) as [? [| |]]; discriminate E.
Qed.
Example C84_ends_case : exists s1, connect_console true true true c0 s0 [] [Ready (Some (Byte 97, [])) None false] [] = Ok (s1, Waiting).
Proof. eexists. vm_compute. reflexivity. Qed.

(** C84, finding: ... but a signal that arrives just before the client waits is not acted
    upon: the session goes on until something else happens. *)
Theorem C84_early_refuted : forall dbg c s rs1 l rs2 s1, cfg_ok c -> connect_console dbg true true c s rs1 l rs2 = Ok (s1, Waiting) ->
  exists s', connect_console dbg true true c s rs1 (l ++ [Early]) rs2 = Ok (s', Waiting) /\ done s' = true.
Proof. intros dbg c s rs1 l rs2 s1 CO E. rewrite (session_app dbg c s rs1 l [Early] rs2 rs2 s1 CO E). exists (set_done s1). split; reflexivity. Qed.

(** C84, finding: any error on the way (e.g. a reset of the connection by the server's host)
    leaves the user with a raw terminal: at any time in any session. *)
Theorem C84_fatal_refuted : forall dbg c s rs1 l rs2 s1 rs, cfg_ok c -> starts c s -> connect_console dbg true true c s rs1 l rs2 = Ok (s1, Waiting) ->
  exists s', connect_console dbg true true c s rs1 (l ++ [Ready None (Some (SErr, rs)) false]) rs2 = Ok (s', Dead) /\ raw_mode (now s').
Proof.
  intros dbg c s rs1 l rs2 s1 rs CO ST E. rewrite (session_app dbg c s rs1 l _ rs2 rs2 s1 CO E). exists s1. split; [reflexivity|]. apply (C84_terminal dbg c s rs1 l rs2 s1 Waiting CO ST E). reflexivity.
Qed.

(** C84: while the client has not been stopped, the terminal echoes the keys exactly if the
    session's echo is on ... *)
Theorem C84_echo : forall dbg c s rs1 l rs2 s', cfg_ok c -> starts c s -> connect_console dbg true true c s rs1 l rs2 = Ok (s', Waiting) -> stops s' = [] -> echoing (now s') = t_echo (ses s').
Proof.
  intros dbg c s rs1 l rs2 s' CO ST E. destruct (session dbg c s rs1 l rs2 CO ST) as (s2 & ph2 & E2 & F & R). rewrite E in E2. injection E2 as <- <-. apply R.
Qed.
Example C84_echo_case : exists s', connect_console true true true c0 s0 [] [Ready (Some (Byte 38, [])) None false; Ready (Some (Byte 69, [])) None false] [] = Ok (s', Waiting) /\ stops s' = [] /\ echoing (now s') = true.
Proof. eexists. split; [vm_compute; reflexivity|]. split; reflexivity. Qed.

(** C84, finding: ... but after a stop the echo is off while the session says it is on; the
    next use of the echo sequence then turns it on and says it is off. *)
Theorem C84_echo_refuted : exists c s l s', cfg_ok c /\ starts c s /\ Forall fine l /\ connect_console true true true c s [] l [] = Ok (s', Waiting) /\ t_echo (ses s') = true /\ echoing (now s') = false.
Proof.
  exists c0, s0, [Ready (Some (Byte 38, [])) None false; Ready (Some (Byte 69, [])) None false; Ready (Some (Byte 38, [])) None false; Ready (Some (Byte 90, [])) None false]. eexists.
  split; [exact c0_ok|]. split; [exact s0_ok|]. split; [repeat constructor; discriminate|]. split; [vm_compute; reflexivity|]. split; reflexivity.
Qed.

(** C85: the help is never cut; it lists the sequences, each with its text, and among the
    command letters exactly those that do something in the present state of the session. *)
Theorem C85_help : forall dbg c t, (1100 <= length (help_buf c))%nat -> length (key_buf c) = 4%nat ->
  exists items, help dbg c t = Ok (help_text c items) /\
  (forall k, is_command k = true -> k <> escape c -> (In k (map fst items) <-> acts c t k)) /\
  (forall k, In k (map fst items) -> is_command k = true \/ k = escape c).
Proof.
  intros dbg c t L J.
  exists (flat_map (fun x : bool * Z * list Z => match x with (true, k, s) => [(k, s)] | _ => [] end) (help_items c t)).
  split.
  { rewrite help_ok by assumption. unfold helped, help_text. cbn [concat]. do 2 f_equal.
    generalize (help_items c t). intros l. induction l as [|[[[|] k] s] l IH]; cbn [flat_map map concat app fst snd]; [reflexivity| |exact IH]. f_equal. exact IH. }
  assert (KE : forall k, is_command k = true -> exists t' sn ls, perform_esc (with_mode t MEol) k = Some (t', sn, ls) /\ keystroke (escape c) (key_buf c) (with_mode t MEsc) k = Ok (t', sn, ls)).
  { intros k K. assert (P : exists r, perform_esc (with_mode t MEol) k = Some r). { unfold is_command, letters in K. cbn [existsb] in K. unfold perform_esc, ESC_BREAK, ESC_CLOSE, ESC_DEL, ESC_ECHO, ESC_FORCE, ESC_HELP, ESC_INFO, ESC_JOIN, ESC_REPLAY, ESC_MONITOR, ESC_QUIET, ESC_RESET, ESC_SUSPEND.
      repeat match goal with |- context [if ?a =? ?b then Some _ else _] => destruct (a =? b); [eexists; reflexivity|] end. discriminate K. }
    destruct P as ([[t' sn] ls] & P). exists t', sn, ls. split; [exact P|]. unfold keystroke. cbn [with_mode t_mode]. cbv zeta. change (with_mode (with_mode t MEsc) MEol) with (with_mode t MEol). rewrite P. reflexivity. }
  assert (IN : forall k, In k (map fst (flat_map (fun x : bool * Z * list Z => match x with (true, k, s) => [(k, s)] | _ => [] end) (help_items c t))) <-> In (true, k) (map fst (help_items c t))).
  { intros k. generalize (help_items c t). intros l. induction l as [|[[[|] k'] s'] l IH]; cbn [flat_map map app fst In]; [tauto| |]; rewrite IH.
    - split; [intros [-> | X]; auto|intros [X | X]; [injection X as ->; auto|auto]].
    - split; [auto|intros [X | X]; [discriminate X|exact X]]. }
  assert (FL : map fst (help_items c t) = [(true, 63); (true, 46); (true, escape c); (t_connect t, 66); (t_connect t, 68); (t_connect t, 69); (negb (t_connect t), 70); (true, 73); (negb (t_connect t), 74);
    (negb (t_bcast t), 76); (t_connect t && negb (t_bcast t), 77); (true, 81); (t_connect t && t_reset t, 82); (true, 90)]) by reflexivity.
  split.
  - intros k K NE. destruct (KE k K) as (t' & sn & ls & P & S). unfold acts.
    assert (AK : (exists t' sn ls, keystroke (escape c) (key_buf c) (with_mode t MEsc) k = Ok (t', sn, ls) /\ (ls <> [] \/ exists x, In (Cmd x) (parse sn))) <-> (ls <> [] \/ exists x, In (Cmd x) (parse sn))).
    { split; [intros (a & b & d & Q & R); rewrite S in Q; injection Q as <- <- <-; exact R|intros R; exists t', sn, ls; auto]. }
    rewrite AK. clear AK S KE.
    rewrite IN, FL.
    assert (CASES : In k letters) by (unfold is_command in K; apply existsb_exists in K; destruct K as (x & I & Q); apply Z.eqb_eq in Q; subst; exact I).
    clear IN FL K L J dbg. generalize dependent (escape c). intros esc NE. destruct t as [m [|] [|] ec qu [|] cl]; cbn [t_connect t_bcast t_reset negb andb];
      unfold letters in CASES; cbn [In] in CASES;
      repeat (destruct CASES as [<- | CASES]; [vm_compute in P; injection P as <- <- <-; cbn [In];
        (split;
         [intros X; first [left; discriminate|right; eexists; left; reflexivity|exfalso; repeat (destruct X as [X | X]; [congruence|]); exact X]
         |intros X; first [repeat (first [left; reflexivity|right]); fail|exfalso; destruct X as [X | (x & X)]; [congruence|exact X]]])|]); contradiction CASES.
  - intros k I. rewrite IN, FL in I. cbn [In] in I. repeat (destruct I as [I | I]; [apply (f_equal snd) in I; cbn [snd] in I; rewrite <- I; first [left; reflexivity|right; reflexivity]|]). contradiction I.
Qed.
Example C85_help_case : exists x, help true c0 (ses s0) = Ok x /\ acts c0 (ses s0) 66 /\ ~ acts c0 (with_mode (start false true true false false) MEol) 66.
Proof.
  eexists. split; [vm_compute; reflexivity|]. split; [eexists _, _, _; split; [vm_compute; reflexivity|]; right; exists 66; left; reflexivity|].
  intros (t' & sn & ls & E & R). vm_compute in E. injection E as <- <- <-. destruct R as [R | (x & [])]. congruence.
Qed.

(** C85: in a buffer of any size, a help that does not fit is cut, marked and ended properly. *)
Theorem C85_help_cut : forall dbg c big t x, (4 <= length (help_buf c))%nat -> (1100 <= length big)%nat ->
  help dbg (mkCfg (names c) (host c) (port c) (escape c) (key_buf c) (line_buf c) big) t = Ok x ->
  help dbg c t = Ok (if (length x <? length (help_buf c))%nat then x else firstn (length (help_buf c) - 4) x ++ zs "+" ++ [CR; LF]).
Proof.
  intros dbg c big t x L B H. rewrite help_ok in H by exact B. injection H as <-. rewrite help_any by exact L. reflexivity.
Qed.
Example C85_help_cut_case : help true (mkCfg [zs "web1"] (zs "localhost") 7890 38 [7; 7; 7; 7] (repeat 7 1024) (repeat 7 20)) (ses s0) =
  Ok (CR :: LF :: zs "Supported ConM+" ++ [CR; LF]).
Proof. vm_compute. reflexivity. Qed.

(** C85, finding: the help says that the doubled escape character sends it, in a read-only
    session too, where nothing is sent; and if the escape character is a command letter, what
    it lists twice performs the command. *)
Theorem C85_double_refuted : exists c t c' t' x, cfg_ok c /\ cfg_ok c' /\ help true c t = Ok x /\
  (exists a b, x = a ++ help_line (escape c) (escape c) (zs "Send the escape character.") ++ b) /\
  keystroke (escape c) (key_buf c) (with_mode t MEsc) (escape c) = Ok (with_mode t MChr, [], []) /\
  (exists x' a b, help true c' t' = Ok x' /\ x' = a ++ help_line (escape c') (escape c') (zs "Send the escape character.") ++ b) /\
  exists t2, keystroke (escape c') (key_buf c') (with_mode t' MEsc) (escape c') = Ok (t2, [], [LClose]).
Proof.
  set (c1 := mkCfg [zs "web1"] (zs "localhost") 7890 46 [7; 7; 7; 7] (repeat 7 1024) (repeat 7 4096)).
  assert (C1 : cfg_ok c1). { unfold cfg_ok. split; [discriminate|]. split; [repeat constructor; cbn; unfold char_ok; lia|]. split; [reflexivity|]. split; apply Nat.leb_le; reflexivity. }
  assert (G : forall c t, cfg_ok c -> exists x a b, help true c t = Ok x /\ x = a ++ help_line (escape c) (escape c) (zs "Send the escape character.") ++ b).
  { assert (CC : forall (h a b x : list Z) r, concat (h :: a :: b :: x :: r) = (h ++ a ++ b) ++ x ++ concat r) by (intros; cbn [concat]; rewrite <- !app_assoc; reflexivity).
    intros c t CO. eexists _, _, _. split; [apply help_ok; apply CO|]. unfold helped, help_items. cbn [flat_map app]. apply CC. }
  exists c0, (start false true true false false), c1, (start true true true false false).
  destruct (G c0 (start false true true false false) c0_ok) as (x & a & b & E & X). exists x. split; [exact c0_ok|]. split; [exact C1|]. split; [exact E|]. split; [eauto|]. split; [vm_compute; reflexivity|].
  split; [apply G; exact C1|]. eexists. vm_compute. reflexivity.
Qed.

Print Assumptions C83_output.
Print Assumptions C83_log.
Print Assumptions C84_no_terminal.
Print Assumptions C83_keys.
Print Assumptions C83_status.
Print Assumptions C83_info.
Print Assumptions C83_query.
Print Assumptions C83_query_refuted.
Print Assumptions C83_blame_refuted.
Print Assumptions C84_terminal.
Print Assumptions C84_ends.
Print Assumptions C84_early_refuted.
Print Assumptions C84_fatal_refuted.
Print Assumptions C84_echo.
Print Assumptions C84_echo_refuted.
Print Assumptions C85_help.
Print Assumptions C85_help_cut.
Print Assumptions C85_double_refuted.
