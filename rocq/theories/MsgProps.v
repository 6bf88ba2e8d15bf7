(** Theorems about formatted messages (C56, C60). *)
From Coq Require Import String.
From Verif Require Import Base BaseProof Chars Mem LexModel StrModel StrSpec StrProof MsgModel MsgSpec MsgProof.
Local Open Scope nat_scope.

(** ** C56: the text of notifications *)

(** A notification of any length is stored in the buffer as a string: prefix, text
    and suffix, the text cut only if all of it does not fit, and always with a line
    end. *)
Theorem C56_notification_text L buf t : length buf = L -> 15 <= L -> chars_ok t ->
  exists b, notify_msg L buf t = Ok b /\ holds b (notify_text L t) /\ line_ended (notify_text L t) /\
    length (notify_text L t) < L /\
    (length MSG_PREFIX + length t + length MSG_SUFFIX < L -> notify_text L t = MSG_PREFIX ++ t ++ MSG_SUFFIX).
Proof.
  intros HL H Ct. destruct (notify_msg_ok L buf t HL H Ct) as (b & A & _ & B). exists b. split; [exact A|]. split; [exact B|].
  unfold notify_text. split; [exists (firstn (L - 4) (MSG_PREFIX ++ t) ++ [DOT]); rewrite <- app_assoc; reflexivity|].
  split; [rewrite app_length, firstn_length; change (length MSG_SUFFIX) with 3; lia|].
  intros S. change (length MSG_SUFFIX) with 3 in S. rewrite firstn_all2 by (rewrite app_length; lia). symmetry. apply app_assoc.
Qed.
Print Assumptions C56_notification_text.

(** The notices about arriving and departing clients and about a console that is
    down: [t] is the formatted text, which ends with the suffix. *)
Theorem C56_notice_text L buf t : length buf = L -> 4 <= L -> chars_ok (t ++ MSG_SUFFIX) ->
  exists b, notice L buf (t ++ MSG_SUFFIX) = Ok b /\ holds b (notice_text L (t ++ MSG_SUFFIX)) /\
    line_ended (notice_text L (t ++ MSG_SUFFIX)) /\ length (notice_text L (t ++ MSG_SUFFIX)) < L /\
    (length (t ++ MSG_SUFFIX) < L - 3 -> notice_text L (t ++ MSG_SUFFIX) = t ++ MSG_SUFFIX).
Proof.
  intros HL H Ct. destruct (notice_ok L buf _ HL H Ct) as (b & A & _ & B). exists b. split; [exact A|]. split; [exact B|].
  unfold notice_text. destruct (Nat.ltb_spec (length (t ++ MSG_SUFFIX)) (L - 3)).
  - split; [exists (t ++ [DOT]); rewrite <- app_assoc; reflexivity|]. split; [lia|auto].
  - split; [eexists; reflexivity|]. split; [rewrite (app_length (firstn _ _)), firstn_length; cbn [length]; lia|lia].
Qed.
Print Assumptions C56_notice_text.

(** ** C60: daemon log lines *)

Theorem C60_text_partial L buf stamp prefix fmt t err : length buf = L -> length stamp + 3 <= L -> fmt <> [] ->
  chars_ok stamp -> chars_ok t -> (forall e, err = Some e -> chars_ok e) -> (forall x, prefix = Some x -> chars_ok x) ->
  let text := log_text L stamp prefix (last fmt 0 =? LF)%Z t err in
  exists b s, log_aux L buf stamp prefix fmt t err = Ok (b, length stamp, s) /\ length b = L /\ holds b text /\
    length text < L /\
    (* a format without a newline at its end: *)
    (last fmt 0%Z <> LF ->
       (exists a, text = a ++ [LF]) /\
       (~ In LF stamp -> ~ In LF t -> (forall e, err = Some e -> ~ In LF e) -> (forall x, prefix = Some x -> ~ In LF x) -> one_line text)) /\
    (* the copy kept for the error report: the message without the time *)
    (forall msgbuf, msgbuf <> [] -> exists m, copy_msg msgbuf b s = Ok m /\ length m = length msgbuf /\
       holds m (firstn (length msgbuf - 1) (skipn s text))).
Proof.
  intros HL HS HF C1 C2 C3 C4 text. destruct (log_aux_ok L buf stamp prefix fmt t err HL HS HF C1 C2 C3 C4) as (b & s & A & B & C & D).
  fold text in C. exists b, s. split; [exact A|]. split; [exact B|]. split; [exact C|].
  assert (LT : length text < L).
  { destruct C as (_ & junk & ->). rewrite app_length in B. cbn [length] in B. lia. }
  split; [exact LT|]. split.
  - intros NL. unfold text, log_text. rewrite (proj2 (Z.eqb_neq _ _) NL). split; [eexists; reflexivity|]. intros N1 N2 N3 N4.
    eexists. split; [reflexivity|]. intros X.
    assert (Y : In LF (stamp ++ (match prefix with Some x => tag x | None => [] end) ++ t ++ match err with Some e => COLON :: SPACE :: e | None => [] end)).
    { rewrite <- (firstn_skipn (L - 2)). apply in_or_app. now left. }
    apply in_app_or in Y. destruct Y as [Y|Y]; [contradiction|]. apply in_app_or in Y. destruct Y as [Y|Y].
    + destruct prefix as [x|]; [|contradiction]. apply in_app_or in Y. destruct Y as [Y|[Y|Y]]; [exact (N4 x eq_refl Y)|discriminate|].
      apply repeat_spec in Y. discriminate.
    + apply in_app_or in Y. destruct Y as [Y|Y]; [contradiction|]. destruct err as [e|]; [|contradiction].
      destruct Y as [Y|[Y|Y]]; try discriminate. exact (N3 e eq_refl Y).
  - intros msgbuf NE. apply (copy_msg_ok msgbuf b s (firstn s text)); [rewrite firstn_skipn; exact C| |exact NE].
    rewrite firstn_length. symmetry. apply Nat.min_l.
    rewrite D. unfold text, log_text. rewrite !app_length, firstn_length, !app_length. lia.
Qed.
Print Assumptions C60_text_partial.

(** A message that is not too long is there completely. *)
Theorem C60_complete L stamp prefix t err :
  let want := stamp ++ (match prefix with Some x => tag x | None => [] end) ++ t ++
              match err with Some e => COLON :: SPACE :: e | None => [] end in
  length want + 2 <= L -> log_text L stamp prefix false t err = want ++ [LF].
Proof. intros want H. unfold log_text. fold want. rewrite firstn_all2 by lia. reflexivity. Qed.
Print Assumptions C60_complete.

(** A format that ends with a newline: a message that is too long loses it. *)
Theorem C60_cut_refuted : exists L buf b p s, log_aux L buf (zs "T ") None (zs "%s" ++ [LF]) (zs "0123456789" ++ [LF]) None = Ok (b, p, s) /\
  length buf = L /\ holds b (zs "T 01234567").
Proof.
  exists 12, (repeat 7%Z 12). do 3 eexists. split; [vm_compute; reflexivity|]. split; [reflexivity|]. split.
  - repeat (apply Forall_cons; [cbv; split; discriminate || reflexivity|]); apply Forall_nil.
  - exists [7%Z]. vm_compute. reflexivity.
Qed.
Print Assumptions C60_cut_refuted.

(** A user name sent by a client, with a byte whose low seven bits are a newline:
    the daemon's log gets a line of the client's making (server-sock.c:295, 814). *)
Theorem C60_injection_refuted :
  let sent := zs "eve" ++ [138]%Z ++ zs "T ERROR: disk on fire" in
  ~ In LF sent /\
  exists b p s, log_aux 80 (repeat 7%Z 80) (zs "T ") (Some (zs "INFO")) (zs "Client <%s@%s:%d> issued query")
    (zs "Client <" ++ lex_decode sent ++ zs "@h:1> issued query") None = Ok (b, p, s) /\
  holds b (zs "T INFO:      Client <eve" ++ [LF] ++ zs "T ERROR: disk on fire@h:1> issued query" ++ [LF]).
Proof.
  split.
  - cbv. intros H. repeat destruct H as [H|H]; try discriminate. exact H.
  - do 3 eexists. split; [vm_compute; reflexivity|]. split.
    + repeat (apply Forall_cons; [cbv; split; discriminate || reflexivity|]); apply Forall_nil.
    + eexists. vm_compute. reflexivity.
Qed.
Print Assumptions C60_injection_refuted.

(** ** Examples *)
Example C56_example_text : exists b, notify_msg 24 (repeat 7%Z 24) (zs "Console [x] down") = Ok b /\
  holds b (MSG_PREFIX ++ zs "Console [" ++ MSG_SUFFIX).
Proof.
  eexists. split; [vm_compute; reflexivity|]. split.
  - repeat (apply Forall_cons; [cbv; split; discriminate || reflexivity|]); apply Forall_nil.
  - exists []. vm_compute. reflexivity.
Qed.
Example C60_example : exists b p s, log_aux 40 (repeat 7%Z 40) (zs "T ") (Some (zs "ERROR")) (zs "x %s") (zs "x y") (Some (zs "Bad")) = Ok (b, p, s) /\
  holds b (zs "T ERROR:     x y: Bad" ++ [LF]) /\ s = 13.
Proof.
  do 3 eexists. split; [vm_compute; reflexivity|]. split; [|reflexivity]. split.
  - repeat (apply Forall_cons; [cbv; split; discriminate || reflexivity|]); apply Forall_nil.
  - eexists. vm_compute. reflexivity.
Qed.
