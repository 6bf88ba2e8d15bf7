(** Properties C09-C12: telnet consoles.  [TelnetSpec] describes the protocol:
    what a peer may send ([seg], [wire]), a receiver ([rfc_run]), and which
    refusals are due ([refusal]). *)
From Verif Require Import Base TelnetModel TelnetSpec TelnetProof.
Local Open Scope Z_scope.

(** C09: nothing depends on packet boundaries; no input is fatal. *)
Theorem C09_chunk_independent_partial : forall c1 c2 iac, iac_ok iac -> concat c1 = concat c2 ->
  tel_read_all iac c1 = tel_read_all iac c2 /\ exists x, tel_read_all iac c1 = Ok x.
Proof. exact chunks_irrelevant. Qed.

(** C09: whatever a peer says, cut in whatever way, the data passed on is the data
    it meant and the replies are those due (subnegotiations without 0xFF). *)
Theorem C09_data_and_replies : forall gs chunks, Forall seg_ok gs -> Forall plain_sub_seg gs ->
  concat chunks = flat_map wire gs ->
  tel_read_all iac_init chunks = Ok (iac_init, flat_map seg_data gs, flat_map seg_reply gs).
Proof. exact telnet_segments. Qed.

Example C09_case :
  let gs := [GData [104; 255]; GNeg 253 24; GSub [24; 1]; GNeg 251 1; GCmd 241; GData [105]] in
  Forall seg_ok gs /\ Forall plain_sub_seg gs /\
  flat_map wire gs = [104;255;255; 255;253;24; 255;250;24;1;255;240; 255;251;1; 255;241; 105] /\
  flat_map seg_data gs = [104; 255; 105] /\ flat_map seg_reply gs = [[255; 252; 24]].
Proof.
  cbn. repeat split; try (repeat constructor; cbn; lia).
Qed.

(** C09: the same for arbitrary streams, complete or not, against a receiver
    written from the RFC. *)
Theorem C09_any_stream : forall chunks, plain_subs RData (concat chunks) ->
  exists i, tel_read_all iac_init chunks =
    Ok (i, rfc_data (concat chunks), flat_map ev_reply (rfc_events (concat chunks))).
Proof. exact telnet_rx. Qed.

(** C09, finding: the protocol state survives a disconnection in the middle of a
    sequence: the first byte of the new connection is lost. *)
Theorem C09_reconnect_refuted : exists old new i d,
  tel_read_all iac_init [old] = Ok (i, d, []) /\ d = [97] /\
  tel_read_all (iac_reconnect i) [new] = Ok (-1, [105], [[255; 252; 104]]) /\
  rfc_data new = [104; 105].
Proof.
  exists [97; 255; 253], [104; 105]. do 2 eexists.
  split; [vm_compute; reflexivity|]. split; [reflexivity|].
  split; [vm_compute; reflexivity|]. reflexivity.
Qed.

(** C10: every byte causes at most one reply, only the option byte of DO or WILL
    does, and replies are refusals (WONT or DONT). *)
Theorem C10_one_refusal_at_most : forall iac c i d rs, iac_ok iac ->
  process_telnet_escapes iac [c] = Ok (d, i, rs) ->
  (length rs <= 1)%nat /\ (rs <> [] -> iac = DO \/ iac = WILL) /\
  Forall (fun r => exists o, r = [IAC; WONT; o] \/ r = [IAC; DONT; o]) rs.
Proof.
  intros iac c i d rs V E. rewrite pte_ok in E by auto. cbn [trun] in E.
  pose proof (tstep_reply iac c) as (A & B & C).
  destruct (tstep iac c) as [[i1 d1] r1]. rewrite app_nil_r in E. injection E as <- <- <-. cbn [snd] in *.
  rewrite app_nil_r. auto.
Qed.

(** C10: the exact reply for each of the 4 x 256 requests. *)
Theorem C10_reply_is_correct : forall c o, 251 <= c <= 254 ->
  tel_read_all iac_init [[255; c; o]] = Ok (iac_init, [], refusal c o).
Proof.
  intros c o H. rewrite (telnet_segments [GNeg c o] [[255; c; o]]).
  - cbn [flat_map seg_data seg_reply]. rewrite (app_nil_r (refusal c o)). reflexivity.
  - repeat constructor; cbn; lia.
  - repeat constructor.
  - reflexivity.
Qed.

(** C10: a peer following the same rules stays silent on our replies, so any
    exchange ends after one round. *)
Theorem C10_replies_are_not_answered : forall iac chunks chunks' i d rs, iac_ok iac ->
  tel_read_all iac chunks = Ok (i, d, rs) -> concat chunks' = concat rs ->
  tel_read_all iac_init chunks' = Ok (iac_init, [], []).
Proof. exact no_answer_to_answers. Qed.

(** C10: on connection only options that are supported are announced, and
    answering the announcement with agreement draws no further reply. *)
Theorem C10_announcements : Forall (fun r =>
    (exists o, r = [IAC; WILL; o] /\ we_support o = true /\ refusal 253 o = []) \/
    (exists o, r = [IAC; DO; o] /\ peer_may o = true /\ refusal 251 o = [])) connect_cmds.
Proof.
  repeat (apply Forall_cons;
    [first [left; eexists; split; [reflexivity|split; reflexivity]
           |right; eexists; split; [reflexivity|split; reflexivity]]|]).
  constructor.
Qed.

(** C11: nothing between IAC SB and IAC SE reaches the user if the payload has
    no 0xFF ... *)
Theorem C11_subnegotiation_hidden_partial : forall before payload after chunks,
  ~ In 255 payload -> Forall seg_ok before -> Forall plain_sub_seg before ->
  Forall seg_ok after -> Forall plain_sub_seg after ->
  concat chunks = flat_map wire (before ++ GSub payload :: after) ->
  exists i rs, tel_read_all iac_init chunks =
    Ok (i, flat_map seg_data before ++ flat_map seg_data after, rs).
Proof.
  intros before payload after chunks P A B C D E.
  erewrite telnet_segments; [| | |exact E].
  - rewrite !flat_map_app. cbn [flat_map seg_data app]. eauto.
  - apply Forall_app; split; auto. constructor; cbn; auto.
  - apply Forall_app; split; auto.
Qed.

(** ... finding: a payload with an (escaped) 0xFF leaks: the 0xFF and everything
    after it is shown and logged as console output. *)
Theorem C11_escaped_iac_refuted : exists payload i d rs,
  tel_read_all iac_init [wire (GSub payload)] = Ok (i, d, rs) /\
  rfc_data (wire (GSub payload)) = [] /\ d = [255; 7; 8].
Proof.
  exists [31; 255; 7; 8]. do 3 eexists. split; [vm_compute; reflexivity|]. split; reflexivity.
Qed.

(** C12: bytes other than 0xFF are received as sent ... *)
Theorem C12_bytes_sent_partial : forall d, ~ In 255 d -> rfc_data (data_to_telnet d) = d.
Proof. exact sent_without_iac. Qed.

Example C12_case : ~ In 255 [0; 13; 254; 104].
Proof. cbn. lia. Qed.

(** ... finding: 0xFF is not doubled, so the peer takes it and what follows for a
    telnet command. *)
Theorem C12_not_encoded_refuted : exists d, rfc_data (data_to_telnet d) <> d /\
  rfc_events (data_to_telnet d) = [TCmd 244].      (* interrupt process *)
Proof. exists [255; 244]. split; [vm_compute; discriminate|reflexivity]. Qed.

(** C12: a serial break is sent as IAC BREAK while connected, as nothing
    otherwise. *)
Theorem C12_break : break_to_telnet true = [255; 243] /\ break_to_telnet false = [] /\
  rfc_events (break_to_telnet true) = [TCmd 243].
Proof. repeat split; reflexivity. Qed.

Print Assumptions C09_chunk_independent_partial.
Print Assumptions C09_data_and_replies.
Print Assumptions C09_any_stream.
Print Assumptions C09_reconnect_refuted.
Print Assumptions C10_one_refusal_at_most.
Print Assumptions C10_reply_is_correct.
Print Assumptions C10_replies_are_not_answered.
Print Assumptions C10_announcements.
Print Assumptions C11_subnegotiation_hidden_partial.
Print Assumptions C11_escaped_iac_refuted.
Print Assumptions C12_bytes_sent_partial.
Print Assumptions C12_not_encoded_refuted.
Print Assumptions C12_break.
