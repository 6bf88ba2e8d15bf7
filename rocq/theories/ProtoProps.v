(** C20, C21, C22: the protocol between client and daemon.  The character tests are those
    of the C library in practice ([iso] = false), see C16. *)
From Coq Require Import String.
From Verif Require Import Base BaseProof Mem Chars Fmt LexModel LexSpec LexProof StrModel StrSpec StrProof
  FileModel FileSpec FileProof ProtoModel ProtoSpec ProtoProof.
Local Open Scope Z_scope.
Local Notation len := (@List.length Z).

(** ** C20 *)
(** Every request with sendable, non-empty patterns that fits: whatever partial writes and
    interruptions there are on either side, whatever the client sends next and whatever was
    in the server's buffer, the server gets the request, and has read nothing more. *)
Theorem C20_request_partial : forall dbg q ws out,
  q_cmd q <> CmdNone -> Forall name_ok (q_cons q) -> (len (request_line q) < MAX_SOCK_LINE)%nat -> ~ In Fail ws ->
  exists wire ws1, send_req dbg ws out q = Ok (out ++ wire, 0, ws1, set_cons q []) /\
    forall rs more junk server, ~ In Fail rs -> len junk = MAX_SOCK_LINE -> fresh server ->
      exists rs1, recv_req false rs (wire ++ more) junk server = Ok (understood q server, 0, rs1, more).
Proof.
  intros dbg q ws out NC F L NF.
  destruct (send_req_ok dbg ws out q NC) as (out' & rv & s1 & E & _ & S).
  { eapply Forall_impl; [|exact F]. intros a [A _]. apply sendable_can. auto. }
  exists (request_line q), s1. rewrite E. split.
  - destruct S as [(-> & -> & _)|[(_ & _ & X)|(_ & X & _)]]; [reflexivity|lia|tauto].
  - intros rs more junk server NR LJ (H1 & H2 & H3 & H4 & H5 & H6).
    destruct (recv_req_ok rs q server more junk NC F L LJ NR H1 H2 H3 H4 H5 H6) as (rs1 & ER & _). eauto.
Qed.

(** What is sent for any request is the line of the protocol or, if it does not fit,
    nothing; a failing write leaves a proper prefix. *)
Theorem C20_sends : forall dbg q ws out,
  q_cmd q <> CmdNone -> Forall (fun s => chars_ok s /\ (dbg = true -> Forall (fun c => c < 128) s)) (q_cons q) ->
  exists out' rv ws1, send_req dbg ws out q = Ok (out', rv, ws1, set_cons q []) /\
   (rv = 0 /\ out' = out ++ request_line q /\ (len (request_line q) < MAX_SOCK_LINE)%nat \/
    rv = -1 /\ out' = out /\ (MAX_SOCK_LINE <= len (request_line q))%nat \/
    rv = -1 /\ In Fail ws /\ exists k, (k < len (request_line q))%nat /\ out' = out ++ firstn k (request_line q)).
Proof.
  intros dbg q ws out NC F. destruct (send_req_ok dbg ws out q NC F) as (out' & rv & s1 & E & _ & S). eauto 6.
Qed.

(** Whatever arrives, the server survives it, reads less than a buffer, and all it keeps are
    short strings of 7-bit characters. *)
Theorem C20_any_input : forall rs stream junk server, bytes_ok stream -> len junk = MAX_SOCK_LINE -> req_ok server ->
  exists q rv rs1 k, recv_req false rs stream junk server = Ok (q, rv, rs1, skipn k stream) /\ (k < MAX_SOCK_LINE)%nat /\
    (rv = 0 \/ rv = -1 /\ q = server) /\ req_ok q.
Proof.
  intros rs stream junk sv B LJ I. unfold recv_req.
  destruct (read_any rs stream junk B LJ) as (buf & n & s1 & k & -> & K & S1 & X). cbn [bind].
  destruct (Z.leb_spec n 0) as [N|N].
  - eexists _, _, _, k. split; [reflexivity|]. auto.
  - destruct X as [X|(_ & r & A)]; [lia|].
    destruct (loop_total req_ok never (req_body false) req_total _ _ _ sv A (lat_fuel _ _ A) I) as [(l' & st' & r' & E & _ & _ & I1)|(e & _ & [])].
    rewrite E. cbn [bind snd]. eexists _, _, _, k. split; [reflexivity|]. auto.
Qed.

Definition ask (c : cmd) (l : list (list Z)) : req := mkReq None None c false true false true false false l.
Example C20_example : name_ok (zs "a'b""[0-9]*") /\
  exists s1 s2, send_req true [Chunk 5; Intr] [] (ask CmdConnect [zs "a'b""[0-9]*"; zs "x"]) =
    Ok (zs "CONNECT OPTION=QUIET OPTION=FORCE CONSOLE='a" ++ [167] ++ zs "b" ++ [162] ++ zs "[0-9]*' CONSOLE='x'" ++ [LF], 0, s1,
        ask CmdConnect []) /\
  recv_req false [Intr; Chunk 3] (zs "CONNECT OPTION=QUIET OPTION=FORCE CONSOLE='a" ++ [167] ++ zs "b" ++ [162] ++ zs "[0-9]*' CONSOLE='x'" ++ [LF] ++ zs "ls") (repeat 1 MAX_SOCK_LINE) create_req =
    Ok (ask CmdConnect [zs "a'b""[0-9]*"; zs "x"], 0, s2, zs "ls").
Proof.
  split.
  - split; [|discriminate]. split.
    + assert (H : forallb (fun c => (1 <=? c) && (c <? 128) && negb (c =? CR) && negb (c =? LF)) (zs "a'b""[0-9]*") = true) by (vm_compute; reflexivity).
      apply Forall_forall. intros x X. rewrite forallb_forall in H. specialize (H x X). unfold CR, LF in *. lia.
    + rewrite <- ML_eq. assert (len (zs "a'b""[0-9]*") <= 300)%nat by (vm_compute; lia). pose proof ML_300. lia.
  - exists [], []. split; vm_compute; reflexivity.
Qed.

(** Without those conditions the client sends requests that mean something else: a pattern
    of more than 1023 characters is cut, one with a character above 127 changed, an empty
    one forgotten; after a line end the rest of the request is left over, as input for the
    console. *)
Theorem C20_conditions_refuted :
  (exists c, recv_req false [] (request_line (ask CmdConnect [repeat 97 (Z.to_nat 1024)])) (repeat 1 MAX_SOCK_LINE) create_req =
     Ok (ask CmdConnect [c], 0, [], []) /\ c = repeat 97 (Z.to_nat 1023)) /\
  recv_req false [] (request_line (ask CmdConnect [[195; 169]])) (repeat 1 MAX_SOCK_LINE) create_req =
     Ok (ask CmdConnect [[67; 41]], 0, [], []) /\
  recv_req false [] (request_line (ask CmdQuery [[]; zs "x"])) (repeat 1 MAX_SOCK_LINE) create_req =
     Ok (mkReq None None CmdQuery false false false true false false [zs "x"], 0, [], []) /\
  recv_req false [] (request_line (ask CmdConnect [zs "x"; [LF] ++ zs "reboot" ])) (repeat 1 MAX_SOCK_LINE) create_req =
     Ok (ask CmdConnect [zs "x"], 0, [], zs "reboot'" ++ [LF]).
Proof.
  split; [eexists; split; [vm_compute; reflexivity|vm_compute; reflexivity]|].
  split; [vm_compute; reflexivity|]. split; vm_compute; reflexivity.
Qed.

(** ** C21 *)
(** The names of the consoles and whether they can be reset: sent whole or not at all. *)
Theorem C21_ok : forall dbg ws out reset names msg,
  Forall sendable names -> (len (ok_line reset names) < MAX_SOCK_LINE)%nat -> ~ In Fail ws ->
  exists wire ws1, send_rsp dbg ws out reset names 0 msg = Ok (out ++ wire, 0, ws1) /\
    forall rs more junk k, ~ In Fail rs -> len junk = MAX_SOCK_LINE ->
      exists rs1, recv_rsp false rs (wire ++ more) junk k =
        Ok (mkClient (k_cons k ++ names) (k_reset k || (reset && negb (match names with [] => true | _ => false end)))
                     (k_err k) (k_msg k), 0, rs1, more).
Proof.
  intros dbg ws out reset names msg F L NF.
  destruct (send_rsp_ok dbg ws out reset names msg) as (out' & rv & s1 & E & _ & S).
  { eapply Forall_impl; [|exact F]. intros a A. apply sendable_can. auto. }
  exists (ok_line reset names), s1. rewrite E. split.
  - destruct S as [(-> & -> & _)|[(_ & _ & X)|(_ & X & _)]]; [reflexivity| |tauto].
    exfalso. destruct X as [X|(n & I & X)]; [lia|]. rewrite Forall_forall in F. destruct (F n I) as [_ Y]. rewrite ML_eq in X. lia.
  - intros rs more junk k NR LJ. destruct (recv_ok rs reset names more junk k F L LJ NR) as (rs1 & ER & _). exists rs1.
    rewrite ER. destruct names; reflexivity.
Qed.
Theorem C21_error : forall dbg ws out reset names code msg,
  0 < code <= INT_MAX -> sendable msg -> ~ In Fail ws ->
  exists wire ws1, send_rsp dbg ws out reset names code (Some msg) = Ok (out ++ wire, 0, ws1) /\
    forall rs more junk k, ~ In Fail rs -> len junk = MAX_SOCK_LINE ->
      exists rs1, recv_rsp false rs (wire ++ more) junk k =
        Ok (mkClient (k_cons k) (k_reset k) code (match msg with [] => k_msg k | _ => Text msg end), -1, rs1, more).
Proof.
  intros dbg ws out reset names code msg R SM NF.
  destruct (send_err_ok dbg ws out reset names code (Some msg) msg R (sendable_can dbg msg SM) eq_refl) as (out' & rv & s1 & E & _ & S).
  exists (error_line code msg), s1. rewrite E. split.
  - destruct S as [(-> & -> & _)|[(_ & _ & X)|(_ & X & _)]]; [reflexivity| |tauto].
    exfalso. destruct SM as [_ Y]. rewrite ML_eq in X. lia.
  - intros rs more junk k NR LJ. destruct (recv_err rs code msg more junk k R SM LJ NR) as (rs1 & ER & _). eauto.
Qed.
(** A response is the whole line or, if it or a part does not fit, nothing. *)
Theorem C21_sends : forall dbg ws out reset names msg,
  Forall (fun s => chars_ok s /\ (dbg = true -> Forall (fun c => c < 128) s)) names ->
  exists out' rv ws1, send_rsp dbg ws out reset names 0 msg = Ok (out', rv, ws1) /\
   (rv = 0 /\ out' = out ++ ok_line reset names \/
    rv = -1 /\ out' = out /\ ((MAX_SOCK_LINE <= len (ok_line reset names))%nat \/ exists n, In n names /\ (MAX_LINE <= len n)%nat) \/
    rv = -1 /\ In Fail ws /\ exists k, (k < len (ok_line reset names))%nat /\ out' = out ++ firstn k (ok_line reset names)).
Proof.
  intros dbg ws out reset names msg F. destruct (send_rsp_ok dbg ws out reset names msg F) as (out' & rv & s1 & E & _ & S).
  exists out', rv, s1. split; auto. destruct S as [(A & B & _)|S]; auto.
Qed.
Theorem C21_sends_error : forall dbg ws out reset names code msg,
  0 < code <= INT_MAX -> chars_ok msg -> (dbg = true -> Forall (fun c => c < 128) msg) ->
  exists out' rv ws1, send_rsp dbg ws out reset names code (Some msg) = Ok (out', rv, ws1) /\
   (rv = 0 /\ out' = out ++ error_line code msg \/
    rv = -1 /\ out' = out /\ (MAX_LINE <= len msg)%nat \/
    rv = -1 /\ In Fail ws /\ exists k, (k < len (error_line code msg))%nat /\ out' = out ++ firstn k (error_line code msg)).
Proof.
  intros dbg ws out reset names code msg R C D.
  destruct (send_err_ok dbg ws out reset names code (Some msg) msg R (conj C D) eq_refl) as (out' & rv & s1 & E & _ & S).
  exists out', rv, s1. split; auto. destruct S as [(A & B & _)|S]; auto.
Qed.
(** Whatever arrives, the client survives it, with one exception: a number after CODE= that
    is no int. *)
Theorem C21_any_input : forall rs stream junk k, bytes_ok stream -> len junk = MAX_SOCK_LINE -> client_ok k ->
  recv_rsp false rs stream junk k = UB SignedOverflow \/
  exists k1 rv rs1 i, recv_rsp false rs stream junk k = Ok (k1, rv, rs1, skipn i stream) /\ (i < MAX_SOCK_LINE)%nat /\
    (rv = 0 \/ rv = -1 /\ k_err k1 <> 0) /\ client_ok k1.
Proof.
  intros rs stream junk c B LJ I. unfold recv_rsp.
  destruct (read_any rs stream junk B LJ) as (buf & n & s1 & k & -> & K & S1 & X). cbn [bind].
  destruct (Z.leb_spec n 0) as [N|N].
  - right. eexists _, _, _, k. split; [reflexivity|]. split; auto. split; [right; split; [auto|discriminate]|]. split; [apply I|discriminate].
  - destruct X as [X|(_ & r & A)]; [lia|].
    destruct (loop_total (fun st => client_ok (fst st)) overflow (rsp_body false) rsp_total _ _ _ (c, false) A (lat_fuel _ _ A) I) as [(l' & [c1 ok] & r' & E & _ & _ & I1)|(e & E & B1)].
    + rewrite E. cbn [bind snd]. cbn [fst] in I1. right. destruct ok.
      * eexists _, _, _, k. split; [reflexivity|]. auto.
      * destruct (Z.eqb_spec (k_err c1) 0).
        -- eexists _, _, _, k. split; [reflexivity|]. split; auto. split; [right; split; [auto|discriminate]|]. split; [apply I1|discriminate].
        -- eexists _, _, _, k. split; [reflexivity|]. auto.
    + rewrite E. cbn [bind]. left. rewrite B1. reflexivity.
Qed.
(** A server can send an error code that overflows atoi() in the client. *)
Theorem C21_code_overflow_refuted :
  recv_rsp false [] (zs "ERROR CODE=99999999999" ++ [LF]) (repeat 1 MAX_SOCK_LINE) (mkClient [] false 0 NoMsg) = UB SignedOverflow.
Proof. vm_compute. reflexivity. Qed.
Example C21_example :
  (exists s, send_rsp true [Chunk 1; Intr] [] true [zs "tux1"; zs "o'k"] 0 None =
     Ok (zs "OK OPTION=RESET CONSOLE='tux1' CONSOLE='o" ++ [167] ++ zs "k'" ++ [LF], 0, s)) /\
  recv_rsp false [Intr] (zs "OK OPTION=RESET CONSOLE='tux1' CONSOLE='o" ++ [167] ++ zs "k'" ++ [LF] ++ zs "data") (repeat 1 MAX_SOCK_LINE) (mkClient [] false 0 NoMsg) =
     Ok (mkClient [zs "tux1"; zs "o'k"] true 0 NoMsg, 0, [], zs "data") /\
  (exists s, send_rsp true [] [] false [] 7 (Some (zs "Found console ""x"" already in use")) =
     Ok (zs "ERROR CODE=7 MESSAGE='Found console " ++ [162] ++ zs "x" ++ [162] ++ zs " already in use'" ++ [LF], 0, s)).
Proof. repeat split; try eexists; vm_compute; reflexivity. Qed.

(** ** C22 *)
Theorem C22_greeting : forall dbg ws out user tty,
  name_ok user -> (forall t, tty = Some t -> name_ok t) -> ~ In Fail ws ->
  exists wire ws1, send_greeting dbg ws out user tty = Ok (out ++ wire, 0, ws1) /\
    forall rs more junk sws sout q, ~ In Fail rs -> ~ In Fail sws -> len junk = MAX_SOCK_LINE ->
      exists rs1 sws1 reply, recv_greeting dbg false rs (wire ++ more) junk sws sout q =
        Ok (set_tty (set_user q (Some user)) (match tty with Some t => Some t | None => q_tty q end), 0, rs1, more, (sout ++ reply, sws1)) /\
        forall crs cjunk k crest, ~ In Fail crs -> len cjunk = MAX_SOCK_LINE ->
          exists crs1, recv_rsp false crs (reply ++ crest) cjunk k = Ok (k, 0, crs1, crest).
Proof.
  intros dbg ws out user tty NU NT NF.
  destruct (send_greeting_ok dbg ws out user tty (sendable_can dbg user (proj1 NU))) as ([[out' rv] s1] & E & _ & S).
  { intros t ET. apply sendable_can, NT. auto. }
  assert (L : (len (greeting_line user tty) < MAX_SOCK_LINE)%nat).
  { assert (G : forall key s, sendable s -> (len (quoted_field key s) < len (zs (" " ++ key ++ "='")) + MAX_LINE + 1)%nat).
    { intros key s [_ X]. unfold quoted_field, enc. rewrite !app_length, map_length. cbn [zs List.map list_ascii_of_string List.length]. rewrite ML_eq. lia. }
    unfold greeting_line. rewrite !app_length. pose proof (G "USER"%string user (proj1 NU)) as G1.
    assert (G2 : (len (match tty with Some t => quoted_field "TTY" t | None => [] end) < 10 + MAX_LINE)%nat).
    { destruct tty as [t|]; [|cbn; lia]. pose proof (G "TTY"%string t (proj1 (NT t eq_refl))) as X.
      assert (len (zs (" " ++ "TTY" ++ "='")) = 6%nat) as Y by reflexivity. lia. }
    assert (len (zs (" " ++ "USER" ++ "='")) = 7%nat) as Y by reflexivity. assert (len (zs "HELLO") = 5%nat) as Y2 by reflexivity.
    cbn [List.length]. pose proof ML_M2. pose proof ML_300. lia. }
  exists (greeting_line user tty), s1. rewrite E. split.
  - destruct S as [(-> & -> & _)|[(_ & _ & X)|(_ & X & _)]]; [reflexivity|lia|tauto].
  - intros rs more junk sws sout q NR NS LJ.
    destruct (recv_greeting_ok dbg rs user tty more junk sws sout q NU NT L LJ NR NS) as (rs1 & sws1 & ER & _).
    exists rs1, sws1, (ok_line false []). split; auto. intros crs cjunk k crest NC LC.
    assert (OL : (len (ok_line false []) < MAX_SOCK_LINE)%nat).
    { assert (len (ok_line false []) = 3%nat) as -> by reflexivity. pose proof ML_M. lia. }
    destruct (recv_ok crs false [] crest cjunk k (Forall_nil _) OL LC NC) as (crs1 & EC & _). exists crs1. rewrite EC.
    cbn [andb]. rewrite app_nil_r, orb_false_r. destruct k; reflexivity.
Qed.
(** Anything else that comes as a greeting: the request gets a user or is refused. *)
Theorem C22_any_input : forall dbg rs stream junk ws out q, bytes_ok stream -> len junk = MAX_SOCK_LINE -> req_ok q ->
  exists q1 rv rs1 i out1 ws1, recv_greeting dbg false rs stream junk ws out q = Ok (q1, rv, rs1, skipn i stream, (out1, ws1)) /\
    (rv = 0 \/ rv = -1) /\ (rv = 0 -> exists u, q_user q1 = Some u) /\ req_ok q1.
Proof.
  intros dbg rs stream junk ws out q B LJ I. unfold recv_greeting.
  destruct (read_any rs stream junk B LJ) as (buf & n & s1 & k & -> & K & S1 & X). cbn [bind].
  destruct (Z.leb_spec n 0) as [N|N].
  - eexists _, _, _, k, _, _. split; [reflexivity|]. split; auto. split; [lia|auto].
  - destruct X as [X|(_ & r & A)]; [lia|].
    destruct (loop_total req_ok never (hello_body false) hello_total _ _ _ q A (lat_fuel _ _ A) I) as [(l' & q1 & r' & E & _ & _ & I1)|(e & _ & [])].
    rewrite E. cbn [bind snd]. destruct (q_user q1) as [u|] eqn:QU.
    + destruct (send_rsp_ok dbg ws out (q_reset q1) [] None (Forall_nil _)) as (o & rv & w1 & -> & _ & R). cbn [bind].
      eexists _, _, _, k, _, _. split; [reflexivity|]. split; [|split; [eauto|auto]].
      destruct R as [(R & _)|[(R & _)|(R & _)]]; auto.
    + destruct (send_err_ok dbg ws out (q_reset q1) [] 2 (Some (zs "Invalid greeting: no user specified")) _ ltac:(unfold INT_MAX; lia)
        (can_b dbg (zs "Invalid greeting: no user specified") eq_refl) eq_refl) as (o & rv & w1 & -> & _ & R). cbn [bind].
      eexists _, _, _, k, _, _. split; [reflexivity|]. split; auto. split; [lia|]. destruct I1 as (J1 & J2 & J3). split; [|split; auto].
      cbn [set_user q_user]. intros s ES. injection ES as <-. split.
      * apply (plain_b (zs "unknown") eq_refl).
      * rewrite <- ML_eq. assert (len (zs "unknown") <= 300)%nat by (vm_compute; lia). pose proof ML_300. lia.
Qed.
Example C22_example : exists s1 s2, send_greeting true [] [] (zs "joe") (Some (zs "pts/3")) =
    Ok (zs "HELLO USER='joe' TTY='pts/3'" ++ [LF], 0, s1) /\
  recv_greeting true false [] (zs "HELLO USER='joe' TTY='pts/3'" ++ [LF]) (repeat 1 MAX_SOCK_LINE) [] [] create_req =
    Ok (mkReq (Some (zs "joe")) (Some (zs "pts/3")) CmdNone false false false false false false [], 0, s2, [], (zs "OK" ++ [LF], [])).
Proof. exists [], []. split; vm_compute; reflexivity. Qed.

Print Assumptions C20_request_partial.
Print Assumptions C20_sends.
Print Assumptions C20_any_input.
Print Assumptions C20_conditions_refuted.
Print Assumptions C21_ok.
Print Assumptions C21_error.
Print Assumptions C21_sends.
Print Assumptions C21_sends_error.
Print Assumptions C21_any_input.
Print Assumptions C21_code_overflow_refuted.
Print Assumptions C22_greeting.
Print Assumptions C22_any_input.
