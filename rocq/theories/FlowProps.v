(** Stretches of ordinary traffic: what is typed and what is printed gets through. *)
From Verif Require Import Base BaseProof RingModel RingSpec RingProof LogModel LogSpec LogProof LogProps EscModel EscSpec EscProof TelnetModel TelnetSpec TelnetProof
  SessModel SessSpec SessInv SessLink SessStep SessWorld SessProps FlowSpec FlowProof.
Set Implicit Arguments.

(** C110: from any state the daemon can be in, whatever reads and writes follow on
    any number of clients and consoles, as long as nothing fails and no client
    sends a command: the daemon goes on, nobody's links, modes or connection state
    change, and what each client and each console is sent, and what is left waiting
    for it, is exactly what a bounded queue gives that gets the decoded input of the
    objects that feed it, in the order in which it was read. *)
Theorem C110_relay E w es : env_ok E -> reachable E w -> Forall (traffic w) es -> no_commands w es ->
  exists w' l, outputs E w es = Ok (w', l) /\
    (forall x, w_heap w x = None -> w_heap w' x = None) /\
    forall x o, w_heap w x = Some o -> exists o', w_heap w' x = Some o' /\
      s_readers o' = s_readers o /\ s_writers o' = s_writers o /\ s_req o' = s_req o /\ s_state o' = s_state o /\
      o_open (s_ring o') = o_open (s_ring o) /\ o_eof (s_ring o') = o_eof (s_ring o) /\
      is_quiet (s_ring o') = is_quiet (s_ring o) /\ is_suspended (s_ring o') = is_suspended (s_ring o) /\
      (log_b o = false -> exists p p', iov (e_sz E) (s_ring o) = Ok p /\ iov (e_sz E) (s_ring o') = Ok p' /\
         qrun (e_sz E - 1) (queue_of o p) (ops_of w x es) = (queue_of o' p', sent_to x l)).
Proof.
  intros HE R T NC. destruct (flow HE (reach_WWF HE R) T NC) as (w' & l & A & B & C). exists w', l. split; [exact A|].
  split; [exact C|]. intros x o Hx. destruct (B x o Hx) as (o' & H' & F & Q & _). exists o'. split; [exact H'|].
  destruct F as (_ & F1 & F2 & _ & F3 & F4 & _ & _ & F5 & F6 & F7 & F8). auto 20.
Qed.

(** C110: if the queue of [x] never overflows, every byte for it is sent or still
    waiting, once, in order, and nothing else is. *)
Theorem C110_nothing_lost E w es w' l x o o' p p' : env_ok E -> reachable E w -> Forall (traffic w) es -> no_commands w es ->
  outputs E w es = Ok (w', l) -> w_heap w x = Some o -> w_heap w' x = Some o' ->
  log_b o = false -> o_eof (s_ring o) = false -> iov (e_sz E) (s_ring o) = Ok p -> iov (e_sz E) (s_ring o') = Ok p' ->
  fits (e_sz E - 1) (queue_of o p) (ops_of w x es) ->
  sent_to x l ++ p' = p ++ messages (ops_of w x es).
Proof.
  intros HE R T NC A Hx H' LB EO IP IP' F. destruct (flow HE (reach_WWF HE R) T NC) as (w2 & l2 & A2 & B & _).
  rewrite A in A2. injection A2 as <- <-. destruct (B x o Hx) as (o2 & H2 & _ & Q & _). rewrite H' in H2. injection H2 as <-.
  destruct (Q LB) as (q & q' & I1 & I2 & QR). rewrite IP in I1. rewrite IP' in I2. injection I1 as <-. injection I2 as <-.
  eapply flow_arrives; [exact IP|exact (proj2 (ww_hok (reach_WWF HE R)) x o Hx)|exact EO|exact QR|exact F].
Qed.

(** It does not overflow if all of it fits behind what is waiting. *)
Theorem C110_room E w x es o p : length p + length (messages (ops_of w x es)) <= e_sz E - 1 ->
  fits (e_sz E - 1) (queue_of o p) (ops_of w x es).
Proof. intros L. apply fits_small; [apply ops_relayed|exact L]. Qed.

(** C110: what is for [x], if [x] is fed by [k] alone: what [k]'s stream stands for,
    however it was cut into reads (and, for a telnet console [x], if nothing in its
    own stream calls for an answer). *)
Theorem C110_one_source E w es x k ox ok : env_ok E -> reachable E w -> w_heap w x = Some ox -> w_heap w k = Some ok ->
  fed_only_by (w_heap w) x k -> (telnet_b ox = true -> answers ox (heard x es) = []) ->
  messages (ops_of w x es) = meant ok (heard k es).
Proof.
  intros HE R Hx Hk F T. unfold ops_of, meant. rewrite (@one_source (w_heap w) x k ok); auto.
  - now rewrite Hk.
  - exact (fed_mem (reach_WWF HE R) F).
  - intros o H. rewrite H. rewrite Hx in H. injection H as <-. destruct (telnet_b ox) eqn:TB; [now apply T|now apply not_telnet_own].
Qed.
(** ... which is the bytes themselves for a console without protocol, the data of
    the telnet stream (RFC 854) for a telnet console, which is answered with the
    refusals due, and the data of the escaped
    stream for a client. *)
Theorem C110_meant o d : 
  (client_b o = true -> meant o d = stream_data (pre (s_esc o) d)) /\
  (console_b o = true -> telnet_b o = false -> meant o d = d) /\
  (telnet_b o = true -> s_iac o = (-1)%Z -> plain_subs RData d ->
     meant o d = rfc_data d /\
     answers o d = flat_map ev_reply (rfc_events d)).
Proof.
  unfold meant, answers, decode. split; [|split].
  - intros ->. reflexivity.
  - intros CB TB. rewrite client_b_eq. rewrite console_b_eq in CB. rewrite TB. destruct (cls_of o); try discriminate. reflexivity.
  - intros TB IA PS. assert (client_b o = false) as ->.
    { unfold telnet_b in TB. apply andb_prop in TB. destruct TB as [_ TB]. rewrite console_b_eq in TB. rewrite client_b_eq.
      destruct (cls_of o); try discriminate; reflexivity. }
    rewrite TB. unfold dstate_of. cbn [fst snd]. rewrite IA.
    destruct (run_rel d (-1)%Z RData eq_refl PS) as (i & T & _). rewrite T. split; reflexivity.
Qed.

Lemma session E w es c k oc ok pc pk esc junk bcast reset echo quiet keys t' s acts :
  env_ok E -> reachable E w -> w_heap w c = Some oc -> w_heap w k = Some ok ->
  client_b oc = true -> console_b ok = true -> (telnet_b ok = true -> answers ok (heard k es) = []) ->
  fed_only_by (w_heap w) k c -> fed_only_by (w_heap w) c k ->
  o_eof (s_ring oc) = false -> o_eof (s_ring ok) = false -> s_esc oc = false ->
  iov (e_sz E) (s_ring oc) = Ok pc -> iov (e_sz E) (s_ring ok) = Ok pk ->
  length junk = 4 -> (0 <= esc < 128)%Z -> ~ In esc keys ->
  type_keys (signed_char esc) junk (start true bcast reset echo quiet) keys = Ok (t', s, acts) ->
  Forall (traffic w) es -> heard c es = s ->
  (forall i o, i <> c -> w_heap w i = Some o -> client_b o = true -> stream_cmds (pre (s_esc o) (heard i es)) = []) ->
  fits (e_sz E - 1) (queue_of oc pc) (ops_of w c es) -> fits (e_sz E - 1) (queue_of ok pk) (ops_of w k es) ->
  exists w' l oc' ok' pc' pk', outputs E w es = Ok (w', l) /\ w_heap w' c = Some oc' /\ w_heap w' k = Some ok' /\
    iov (e_sz E) (s_ring oc') = Ok pc' /\ iov (e_sz E) (s_ring ok') = Ok pk' /\
    sent_to k l ++ pk' = pk ++ keys /\
    sent_to c l ++ pc' = pc ++ meant ok (heard k es).
Proof.
  intros HE R Hc Hk CB KB TB Fk Fc Ec Ek SE Ic Ik J EB NE TK T HS NO Rc Rk.
  destruct (keyboard_spec esc junk true bcast reset echo quiet keys J EB) as (t2 & s2 & l2 & T2 & P & D & _).
  rewrite TK in T2. injection T2 as <- <- <-.
  assert (K : keys_meaning esc (EscSpec.mkS true bcast reset) (until_close (keys_of esc keys)) = map Data keys).
  { clear - NE. induction keys as [|z ks IH]; [reflexivity|].
    cbn [keys_of]. destruct (Z.eqb_spec z esc) as [->|N]; [exfalso; apply NE; left; reflexivity|].
    cbn [until_close keys_meaning key_meaning s_write map app]. rewrite IH; auto.
    intros H. apply NE. now right. }
  rewrite K in P.
  assert (SD : stream_data s = keys).
  { unfold stream_data. rewrite P. clear. induction keys as [|b l IH]; [reflexivity|]. cbn in *. now rewrite IH. }
  assert (SC : stream_cmds s = []).
  { unfold stream_cmds. rewrite P. clear. induction keys as [|b l IH]; [reflexivity|]. exact IH. }
  assert (NC : no_commands w es).
  { intros i o Hi CI. destruct (Nat.eq_dec i c) as [->|N]; [|exact (NO i o N Hi CI)].
    rewrite Hc in Hi. injection Hi as <-. rewrite SE, HS. exact SC. }
  assert (LC : log_b oc = false) by (rewrite client_b_eq in CB; rewrite log_b_eq; destruct (cls_of oc); congruence).
  assert (LK : log_b ok = false) by (rewrite console_b_eq in KB; rewrite log_b_eq; destruct (cls_of ok); congruence).
  assert (TC : telnet_b oc = false).
  { unfold telnet_b. rewrite client_b_eq in CB. rewrite console_b_eq. destruct (cls_of oc); try discriminate. apply andb_false_r. }
  destruct (C110_relay HE R T NC) as (w' & l & A & _ & B).
  destruct (B c oc Hc) as (oc' & Hc' & _ & _ & _ & _ & _ & _ & _ & _ & Qc). destruct (Qc LC) as (pc2 & pc' & X1 & X2 & _).
  destruct (B k ok Hk) as (ok' & Hk' & _ & _ & _ & _ & _ & _ & _ & _ & Qk). destruct (Qk LK) as (pk2 & pk' & Y1 & Y2 & _).
  exists w', l, oc', ok', pc', pk'. split; [exact A|]. split; [exact Hc'|]. split; [exact Hk'|]. split; [exact X2|]. split; [exact Y2|].
  split.
  - rewrite (C110_nothing_lost k HE R T NC A Hk Hk' LK Ek Ik Y2 Rk), (C110_one_source es HE R Hk Hc Fk TB).
    rewrite (proj1 (C110_meant oc _) CB), SE, HS. cbn [pre]. now rewrite SD.
  - rewrite (C110_nothing_lost c HE R T NC A Hc Hc' LC Ec Ic X2 Rc), (C110_one_source es HE R Hc Hk Fc (fun e => False_ind _ (diff_false_true (eq_trans (eq_sym TC) e)))).
    reflexivity.
Qed.

(** C110, from end to end: a client connected to a console without protocol, both
    ways and alone, its decoder at rest.  Whatever the user types (without the
    escape character), once the daemon has read what the client made of it, and
    whatever else goes on meanwhile: the console gets just these keys, and the
    client just what the console said, after what was already waiting. *)
Theorem C110_session E w es c k oc ok pc pk esc junk bcast reset echo quiet keys t' s acts :
  env_ok E -> reachable E w -> w_heap w c = Some oc -> w_heap w k = Some ok ->
  client_b oc = true -> console_b ok = true -> telnet_b ok = false ->
  fed_only_by (w_heap w) k c -> fed_only_by (w_heap w) c k ->
  o_eof (s_ring oc) = false -> o_eof (s_ring ok) = false -> s_esc oc = false ->
  iov (e_sz E) (s_ring oc) = Ok pc -> iov (e_sz E) (s_ring ok) = Ok pk ->
  length junk = 4 -> (0 <= esc < 128)%Z -> ~ In esc keys ->
  type_keys (signed_char esc) junk (start true bcast reset echo quiet) keys = Ok (t', s, acts) ->
  Forall (traffic w) es -> heard c es = s ->
  (forall i o, i <> c -> w_heap w i = Some o -> client_b o = true -> stream_cmds (pre (s_esc o) (heard i es)) = []) ->
  fits (e_sz E - 1) (queue_of oc pc) (ops_of w c es) -> fits (e_sz E - 1) (queue_of ok pk) (ops_of w k es) ->
  exists w' l oc' ok' pc' pk', outputs E w es = Ok (w', l) /\ w_heap w' c = Some oc' /\ w_heap w' k = Some ok' /\
    iov (e_sz E) (s_ring oc') = Ok pc' /\ iov (e_sz E) (s_ring ok') = Ok pk' /\
    sent_to k l ++ pk' = pk ++ keys /\
    sent_to c l ++ pc' = pc ++ heard k es.
Proof.
  intros HE R Hc Hk CB KB TB Fk Fc Ec Ek SE Ic Ik J EB NE TK T HS NO Rc Rk.
  rewrite <- (proj1 (proj2 (C110_meant ok (heard k es))) KB TB).
  eapply session; eauto; congruence.
Qed.

(** C110: the same with a telnet console at rest, that says nothing that must be
    answered: the client gets the data of its stream. *)
Theorem C110_telnet_session E w es c k oc ok pc pk esc junk bcast reset echo quiet keys t' s acts :
  env_ok E -> reachable E w -> w_heap w c = Some oc -> w_heap w k = Some ok ->
  client_b oc = true -> telnet_b ok = true -> s_iac ok = (-1)%Z -> plain_subs RData (heard k es) ->
  flat_map ev_reply (rfc_events (heard k es)) = [] ->
  fed_only_by (w_heap w) k c -> fed_only_by (w_heap w) c k ->
  o_eof (s_ring oc) = false -> o_eof (s_ring ok) = false -> s_esc oc = false ->
  iov (e_sz E) (s_ring oc) = Ok pc -> iov (e_sz E) (s_ring ok) = Ok pk ->
  length junk = 4 -> (0 <= esc < 128)%Z -> ~ In esc keys ->
  type_keys (signed_char esc) junk (start true bcast reset echo quiet) keys = Ok (t', s, acts) ->
  Forall (traffic w) es -> heard c es = s ->
  (forall i o, i <> c -> w_heap w i = Some o -> client_b o = true -> stream_cmds (pre (s_esc o) (heard i es)) = []) ->
  fits (e_sz E - 1) (queue_of oc pc) (ops_of w c es) -> fits (e_sz E - 1) (queue_of ok pk) (ops_of w k es) ->
  exists w' l oc' ok' pc' pk', outputs E w es = Ok (w', l) /\ w_heap w' c = Some oc' /\ w_heap w' k = Some ok' /\
    iov (e_sz E) (s_ring oc') = Ok pc' /\ iov (e_sz E) (s_ring ok') = Ok pk' /\
    sent_to k l ++ pk' = pk ++ keys /\
    sent_to c l ++ pc' = pc ++ rfc_data (heard k es).
Proof.
  intros HE R Hc Hk CB TB IA PS NR Fk Fc Ec Ek SE Ic Ik J EB NE TK T HS NO Rc Rk.
  destruct (proj2 (proj2 (C110_meant ok (heard k es))) TB IA PS) as [M A]. rewrite <- M.
  assert (KB : console_b ok = true) by (unfold telnet_b in TB; now apply andb_prop in TB).
  eapply session; eauto; congruence.
Qed.

(** C110, the log: the log file [x] of console [k], open.  What is written to it and
    still waiting after a stretch of traffic is what was waiting before, followed by
    the formatted text of all the console said, as if it had been read in one piece,
    if its queue never overflows. *)
Theorem C110_logged E w es x k ox ok pend ls : env_ok E -> reachable E w -> Forall (traffic w) es -> no_commands w es ->
  w_heap w x = Some ox -> w_heap w k = Some ok -> log_b ox = true -> fed_only_by (w_heap w) x k ->
  o_kind (s_ring ox) = KLogfile ls -> o_eof (s_ring ox) = false -> o_open (s_ring ox) = true -> iov (e_sz E) (s_ring ox) = Ok pend ->
  roomy (e_sz E) (e_dbg E) (e_clock E x) (s_lopt ox) (fun _ => e_wbuf E) pend ls (s_stamps ox) (log_evs (ops_of w x es)) ->
  exists w' l ox' rest ms ls' n, outputs E w es = Ok (w', l) /\ w_heap w' x = Some ox' /\ iov (e_sz E) (s_ring ox') = Ok rest /\
    log_run (e_sz E) (e_dbg E) (e_clock E x) (s_lopt ox) (fun _ => e_wbuf E) ls (s_stamps ox) [LData (meant ok (heard k es))] = Ok (ms, ls', n) /\
    o_kind (s_ring ox') = KLogfile ls' /\ sent_to x l ++ rest = pend ++ concat ms.
Proof.
  intros HE R T NC Hx Hk LB FO KI EO OP IP RO.
  destruct (log_flow HE (reach_WWF HE R) T NC Hx Hk LB FO KI EO OP IP RO) as (w' & l & ox' & rest & cs & ms & ls' & A & B & C & D & F & G & H & I).
  destruct HE as (_ & HM & _ & HW & _ & HC & _).
  assert (BB : Forall bytes_ok [meant ok (heard k es)]).
  { constructor; [|constructor]. rewrite <- D. clear - F. induction F; cbn; [constructor|]. apply Forall_app. auto. }
  destruct (@C37_chunk_independence (e_sz E) (e_dbg E) (e_clock E x) (s_lopt ox) (fun _ => e_wbuf E) (fun _ => e_wbuf E) cs [meant ok (heard k es)]
    ls (s_stamps ox) (HC x) HM (fun _ => HW) (fun _ => HW) F BB) as (m1 & m2 & s & k1 & k2 & X & Y & Z & _).
  { cbn. now rewrite app_nil_r. }
  rewrite G in X. injection X as <- <- <-.
  exists w', l, ox', rest, m2, ls', k2. rewrite <- Z. split; [exact A|]. split; [exact B|]. split; [exact C|]. split; [exact Y|]. split; [exact H|exact I].
Qed.

(** C110, the log: in the file's own terms.  With sanitizing or timestamps, if the
    log is at the start of a line, the text is the lines of what the console said,
    each with its timestamp; without either it is just the bytes. *)
Theorem C110_log E w es x k ox ok pend lines last : env_ok E -> reachable E w -> Forall (traffic w) es -> no_commands w es ->
  w_heap w x = Some ox -> w_heap w k = Some ok -> log_b ox = true -> fed_only_by (w_heap w) x k ->
  o_kind (s_ring ox) = KLogfile LineInit -> o_eof (s_ring ox) = false -> o_open (s_ring ox) = true -> iov (e_sz E) (s_ring ox) = Ok pend ->
  splits (meant ok (heard k es)) lines last ->
  let p := s_lopt ox in
  let text := if lo_sanitize p || lo_timestamp p
              then render (show_of p) (stamp_of p (e_clock E x)) (s_stamps ox) lines last
              else meant ok (heard k es) in
  roomy (e_sz E) (e_dbg E) (e_clock E x) p (fun _ => e_wbuf E) pend LineInit (s_stamps ox) (log_evs (ops_of w x es)) ->
  exists w' l ox' rest, outputs E w es = Ok (w', l) /\ w_heap w' x = Some ox' /\ iov (e_sz E) (s_ring ox') = Ok rest /\
    sent_to x l ++ rest = pend ++ text.
Proof.
  intros HE R T NC Hx Hk LB FO KI EO OP IP SP p text RO.
  destruct (C110_logged HE R T NC Hx Hk LB FO KI EO OP IP RO) as (w' & l & ox' & rest & ms & ls' & n & A & B & C & D & _ & G).
  exists w', l, ox', rest. split; [exact A|]. split; [exact B|]. split; [exact C|]. rewrite G. f_equal. clear G.
  destruct HE as (_ & HM & _ & HW & _ & HC & _). unfold text. fold (got_processing p). fold p in D.
  destruct (got_processing p) eqn:GP.
  - assert (BB : bytes_ok (flat_map lop_bytes [LData (meant ok (heard k es))])).
    { cbn. rewrite app_nil_r. unfold meant. apply (decode_bytes E). exact (heard_bytes k T). }
    destruct (@C36_lines_stamped (e_sz E) (e_dbg E) (e_clock E x) p (fun _ => e_wbuf E) [LData (meant ok (heard k es))] (s_stamps ox)
      (HC x) HM GP (fun _ => HW) BB) as (m2 & s2 & k2 & D2 & LO).
    rewrite D in D2. injection D2 as <- <- <-.
    remember [LData (meant ok (heard k es))] as xs eqn:XS. remember (concat ms) as cms eqn:CM.
    destruct LO as [k0 cs ls la S2|k0 cs ls la m rs ot S2 S3].
    + destruct cs as [|c [|c2 cs]]; try discriminate. injection XS as ->. cbn [concat] in S2. rewrite app_nil_r in S2.
      destruct (splits_unique SP S2) as [<- <-]. reflexivity.
    + exfalso. destruct cs as [|c [|c2 cs]]; discriminate.
  - cbn [log_run] in D. apply bind_ok in D. destruct D as ([[m1 s1] k1] & D & D2). unfold log_format in D. rewrite GP in D. cbn [negb] in D.
    apply bind_ok in D. destruct D as (u & _ & D). injection D as <- <- <-. cbn in D2. injection D2 as <- _ _. cbn. now rewrite app_nil_r.
Qed.

(** It does not overflow if all of it fits behind what is waiting. *)
Theorem C110_log_room E w x k ox ok pend ls es ms ls' n : env_ok E -> reachable E w -> Forall (traffic w) es ->
  w_heap w x = Some ox -> w_heap w k = Some ok -> log_b ox = true -> fed_only_by (w_heap w) x k ->
  log_run (e_sz E) (e_dbg E) (e_clock E x) (s_lopt ox) (fun _ => e_wbuf E) ls (s_stamps ox) [LData (meant ok (heard k es))] = Ok (ms, ls', n) ->
  length pend + length (concat ms) <= e_sz E - 1 ->
  roomy (e_sz E) (e_dbg E) (e_clock E x) (s_lopt ox) (fun _ => e_wbuf E) pend ls (s_stamps ox) (log_evs (ops_of w x es)).
Proof.
  intros HE R T Hx Hk LB FO LR L.
  assert (TB : telnet_b ox = false).
  { unfold telnet_b. rewrite log_b_eq in LB. rewrite console_b_eq. destruct (cls_of ox); try discriminate. apply andb_false_r. }
  pose proof (C110_one_source es HE R Hx Hk FO (fun e => False_ind _ (diff_false_true (eq_trans (eq_sym TB) e)))) as M.
  rewrite <- concat_chunks in M.
  destruct HE as (_ & HM & _ & HW & _ & HC & _).
  assert (BM : bytes_ok (meant ok (heard k es))) by (unfold meant; apply (decode_bytes E); exact (heard_bytes k T)).
  assert (BB : Forall bytes_ok [meant ok (heard k es)]) by (constructor; [exact BM|constructor]).
  assert (BC : Forall bytes_ok (chunks (ops_of w x es))).
  { rewrite <- M in BM. clear - BM. induction (chunks (ops_of w x es)) as [|c cs IH]; [constructor|]. cbn in BM. apply Forall_app in BM.
    destruct BM. constructor; auto. }
  destruct (@C37_chunk_independence (e_sz E) (e_dbg E) (e_clock E x) (s_lopt ox) (fun _ => e_wbuf E) (fun _ => e_wbuf E)
    (chunks (ops_of w x es)) [meant ok (heard k es)] ls (s_stamps ox) (HC x) HM (fun _ => HW) (fun _ => HW) BC BB)
    as (m1 & m2 & s & k1 & k2 & X & Y & Z & _).
  { cbn. now rewrite app_nil_r. }
  cbn [map] in Y. rewrite LR in Y. injection Y as <- <- <-. eapply roomy_small; [rewrite lops_evs; exact X|]. rewrite Z. exact L.
Qed.

(** C110: once its sources fall silent, whatever waits for a client, a console or a
    log file is sent, all of it and in order, within as many writes as there are
    bytes, if each write takes at least one. *)
Theorem C110_drains E w es x o p : env_ok E -> reachable E w -> Forall (traffic w) es -> no_commands w es ->
  w_heap w x = Some o -> iov (e_sz E) (s_ring o) = Ok p -> o_open (s_ring o) = true ->
  (forall i, feeds (w_heap w) i x -> heard i es = []) -> (telnet_b o = true -> heard x es = []) ->
  Forall takes_some (writes_to x es) -> length p <= length (writes_to x es) ->
  exists w' l o', outputs E w es = Ok (w', l) /\ w_heap w' x = Some o' /\ iov (e_sz E) (s_ring o') = Ok [] /\ sent_to x l = p.
Proof. intros HE R. exact (drained HE (reach_WWF HE R)). Qed.

(** The hypotheses are met: console 2 (a process) has been opened, client 4 is
    connected to it; it sends "h" and 0xFF, doubled and cut in two; the console says
    "ab"; the console takes one byte, the client all. *)
Definition ex_before : list event := EvConsole 2 opens :: connects 0 2.
Definition ex_traffic : list event :=
  [sends 4 [104; 255]%Z; sends 2 [97; 98]%Z; sends 4 [255]%Z;
   EvMux 2 None (Some [WIntr; WAccept 1]) no_reopen (fun _ => []);
   EvMux 4 (Some RdAgain) (Some [WAccept 100]) no_reopen (fun _ => [])].
Definition ex_world : world := match after ex_before with Some w => w | None => mkW (fun _ => None) 0 [] [] end.
Lemma ex_fed x k : option_map s_writers (w_heap ex_world x) = Some [k] -> reachable ex_env ex_world ->
  fed_only_by (w_heap ex_world) x k.
Proof.
  intros H R i. destruct (C28_links_consistent ex_env_ok R) as (S & _). rewrite (S i x). unfold fed_by. split.
  - intros (o & A & B). rewrite A in H. injection H as H. rewrite H in B. destruct B as [B|[]]. congruence.
  - intros ->. destruct (w_heap ex_world x) as [o|]; [|discriminate]. injection H as H. exists o. split; [reflexivity|].
    rewrite H. now left.
Qed.
Example C110_example :
  reachable ex_env ex_world /\ Forall (traffic ex_world) ex_traffic /\ no_commands ex_world ex_traffic /\
  fed_only_by (w_heap ex_world) 2 4 /\ fed_only_by (w_heap ex_world) 4 2 /\
  (exists t' acts, type_keys (signed_char 38) [0; 0; 0; 0]%Z (start true false false false false) [104; 255]%Z
     = Ok (t', heard 4 ex_traffic, acts)) /\
  match outputs ex_env ex_world ex_traffic with
  | Ok (w', l) => sent_to 2 l = [104]%Z /\ pending_at (Some w') 2 = Some [255]%Z /\
                  sent_to 4 l = [97; 98]%Z /\ pending_at (Some w') 4 = Some []
  | UB _ => False
  end.
Proof.
  assert (R : reachable ex_env ex_world).
  { get_after ex_before w R A. unfold ex_world. rewrite A. apply R. run_ok. }
  split; [exact R|]. split; [|split; [|split; [|split; [|split]]]].
  - unfold ex_traffic. repeat (apply Forall_cons; [|]); [| | | | |apply Forall_nil].
    all: unfold sends, traffic; eexists; split; [vm_compute; reflexivity|]; split; [reflexivity|]; split; [reflexivity|].
    all: split; [vm_compute; discriminate|]; split.
    all: try (intros rs Q; try discriminate; injection Q as <-; intros H; repeat (destruct H as [H|H]; try discriminate); destruct H; fail).
    4, 5: auto.
    all: right; right; eexists; split; [reflexivity|]; repeat (apply Forall_cons; [unfold byte_ok; lia|]); apply Forall_nil.
  - intros i o Hi CB. destruct (Nat.eq_dec i 4) as [->|N].
    + vm_compute in Hi. injection Hi as <-. vm_compute. reflexivity.
    + assert (i <> 2) as N2 by (intros ->; vm_compute in Hi; injection Hi as <-; discriminate).
      assert (heard i ex_traffic = []) as ->; [|destruct (s_esc o); reflexivity].
      unfold heard, ex_traffic, sends. cbn [flat_map]. rewrite (proj2 (Nat.eqb_neq 4 i)), (proj2 (Nat.eqb_neq 2 i)) by congruence. reflexivity.
  - apply ex_fed; [vm_compute; reflexivity|exact R].
  - apply ex_fed; [vm_compute; reflexivity|exact R].
  - do 2 eexists. vm_compute. reflexivity.
  - vm_compute. auto.
Qed.

(** Console 2 says "ab" and falls silent; the client takes a byte at a time. *)
Definition ex_waiting : list event := ex_before ++ [EvMux 4 None (Some [WAccept 100]) no_reopen (fun _ => []); sends 2 [97; 98]%Z].
Definition ex_sending : list event := repeat (EvMux 4 None (Some [WIntr; WAccept 1]) no_reopen (fun _ => [])) 2.
Example C110_drains_example : exists w o, after ex_waiting = Some w /\ reachable ex_env w /\ w_heap w 4 = Some o /\
  iov 64 (s_ring o) = Ok [97; 98]%Z /\ o_open (s_ring o) = true /\ Forall (traffic w) ex_sending /\ no_commands w ex_sending /\
  (forall i, heard i ex_sending = []) /\ Forall takes_some (writes_to 4 ex_sending) /\ length (writes_to 4 ex_sending) = 2.
Proof.
  get_after ex_waiting w R A. assert (RR : reachable ex_env w) by (apply R; run_ok).
  assert (AA := A). vm_compute in AA. injection AA as <-. do 2 eexists. split; [exact A|]. split; [exact RR|].
  split; [vm_compute; reflexivity|]. split; [vm_compute; reflexivity|]. split; [vm_compute; reflexivity|].
  assert (HN : forall i, heard i ex_sending = []) by (intros i; reflexivity).
  split; [|split; [|split; [exact HN|split; [|reflexivity]]]].
  - unfold ex_sending. cbn [repeat]. apply Forall_cons; [|apply Forall_cons; [|apply Forall_nil]].
    all: eexists; split; [vm_compute; reflexivity|]; split; [reflexivity|]; split; [reflexivity|];
    split; [vm_compute; discriminate|]; split; [now left|]; intros rs Q; injection Q as <-; intros [H|[H|[]]]; discriminate.
  - intros i o _ _. rewrite HN. destruct (s_esc o); reflexivity.
  - change (writes_to 4 ex_sending) with [[WIntr; WAccept 1]; [WIntr; WAccept 1]].
    assert (T : takes_some [WIntr; WAccept 1]) by (exists 1, 1, []; split; [reflexivity|lia]).
    apply Forall_cons; [exact T|]. apply Forall_cons; [exact T|apply Forall_nil].
Qed.

(** A telnet console that is up, alone with its client: what [C110_telnet_session]
    asks for can be had. *)
Definition ex_tel : option world :=
  match boot ex_env [(TyTelnet, None)] with
  | Ok w0 => match run ex_env w0 (EvConsole 0 opens :: connects 0 0) with Ok w => Some w | UB _ => None end
  | UB _ => None
  end.
Example C110_telnet_example : exists w oc ok, ex_tel = Some w /\ reachable ex_env w /\ w_heap w 1 = Some oc /\ w_heap w 0 = Some ok /\
  client_b oc = true /\ telnet_b ok = true /\ s_state ok = StUp /\ s_iac ok = (-1)%Z /\ o_open (s_ring ok) = true /\
  s_readers ok = [1] /\ s_writers ok = [1] /\ s_readers oc = [0] /\ s_writers oc = [0] /\
  plain_subs RData [104; 255; 255; 255; 251; 1; 105]%Z /\
  flat_map ev_reply (rfc_events [104; 255; 255; 255; 251; 1; 105]%Z) = [] /\
  match outputs ex_env w [EvMux 0 (Some (RdData [104; 255; 255; 255; 251; 1; 105]%Z)) None no_reopen (fun _ => []);
                          EvMux 1 None (Some [WAccept 9]) no_reopen (fun _ => [])] with
  | Ok (_, l) => sent_to 1 l = [104; 255; 105]%Z
  | UB _ => False
  end.
Proof.
  unfold ex_tel. destruct (boot ex_env [(TyTelnet, None)]) as [w0|] eqn:B; [|vm_compute in B; discriminate].
  destruct (run ex_env w0 (EvConsole 0 opens :: connects 0 0)) as [w|] eqn:R.
  2:{ exfalso. assert (X : match boot ex_env [(TyTelnet, None)] with
        | Ok w0 => match run ex_env w0 (EvConsole 0 opens :: connects 0 0) with Ok _ => true | UB _ => false end | UB _ => false end = true)
        by (vm_compute; reflexivity). rewrite B, R in X. discriminate. }
  assert (RE : reachable ex_env w).
  { exists [(TyTelnet, None)], w0, (EvConsole 0 opens :: connects 0 0). split; [exact B|]. split; [run_ok|exact R]. }
  vm_compute in B. injection B as <-. vm_compute in R. injection R as <-.
  do 3 eexists. split; [reflexivity|]. split; [exact RE|]. split; [vm_compute; reflexivity|]. split; [vm_compute; reflexivity|].
  do 9 (split; [vm_compute; reflexivity|]). split; [cbn; repeat split; discriminate|]. split; [vm_compute; reflexivity|]. vm_compute. reflexivity.
Qed.

(** A console with a log, sanitized and stamped, that has been opened: it says
    "a", CR, LF, "b", BEL, in two pieces; the log file takes what has come by then. *)
Definition ex_log : option world :=
  match boot ex_env [(TyProcess, Some (mkLopts true true))] with
  | Ok w0 => match run ex_env w0 [EvLogOpen 1 true []; EvMux 1 None (Some [WAccept 99]) no_reopen (fun _ => []); EvConsole 0 opens] with Ok w => Some w | UB _ => None end
  | UB _ => None
  end.
Definition ex_said : list event :=
  [sends 0 [97; 13]%Z; EvMux 1 None (Some [WAccept 22]) no_reopen (fun _ => []); sends 0 [10; 98; 7]%Z].
Example C110_log_example : exists w ox ok, ex_log = Some w /\ reachable ex_env w /\ w_heap w 1 = Some ox /\ w_heap w 0 = Some ok /\
  log_b ox = true /\ console_b ok = true /\ s_readers ok = [1] /\ s_writers ox = [0] /\ s_lopt ox = mkLopts true true /\
  o_kind (s_ring ox) = KLogfile LineInit /\ o_open (s_ring ox) = true /\ o_eof (s_ring ox) = false /\
  splits [97; 13; 10; 98; 7]%Z [[97]%Z] (Some [98; 7]%Z) /\
  match outputs ex_env w ex_said with
  | Ok (w', l) => sent_to 1 l ++ match pending_at (Some w') 1 with Some p => p | None => [] end =
      (match pending_at (Some w) 1 with Some p => p | None => [] end) ++
      repeat 48%Z 20 ++ [97; 13; 10]%Z ++ repeat 48%Z 20 ++ [98; 94; 71]%Z
  | UB _ => False
  end.
Proof.
  unfold ex_log. set (es := [_; _; _]). set (cf := [(TyProcess, Some (mkLopts true true))]). destruct (boot ex_env cf) as [w0|] eqn:B; [|vm_compute in B; discriminate].
  destruct (run ex_env w0 es) as [w|] eqn:R.
  2:{ exfalso. assert (X : match boot ex_env cf with
        | Ok w0 => match run ex_env w0 es with Ok _ => true | UB _ => false end | UB _ => false end = true)
        by (vm_compute; reflexivity). rewrite B, R in X. discriminate. }
  assert (RE : reachable ex_env w).
  { exists cf, w0, es. split; [exact B|]. split; [run_ok|exact R]. }
  vm_compute in B. injection B as <-. vm_compute in R. injection R as <-.
  do 3 eexists. split; [reflexivity|]. split; [exact RE|]. split; [vm_compute; reflexivity|]. split; [vm_compute; reflexivity|].
  do 8 (split; [vm_compute; reflexivity|]). split; [|vm_compute; reflexivity].
  refine (@sp_lf [97]%Z [13]%Z [] [98; 7]%Z [] (Some [98; 7]%Z) _ _ _ _ _).
  - apply Forall_cons; [lia|apply Forall_nil].
  - right. exists []. split; [reflexivity|apply Forall_nil].
  - apply Forall_nil.
  - cbn. lia.
  - apply sp_open; [|discriminate]. apply Forall_cons; [lia|]. apply Forall_cons; [lia|apply Forall_nil].
Qed.

Print Assumptions C110_relay.
Print Assumptions C110_nothing_lost.
Print Assumptions C110_room.
Print Assumptions C110_one_source.
Print Assumptions C110_meant.
Print Assumptions C110_session.
Print Assumptions C110_telnet_session.
Print Assumptions C110_logged.
Print Assumptions C110_log.
Print Assumptions C110_log_room.
Print Assumptions C110_drains.
