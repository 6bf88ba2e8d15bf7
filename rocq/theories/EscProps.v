(** Properties C06-C08 and C66: keyboard to console.  Vocabulary: [EscSpec]
    ([parse]: meaning of the client-to-server stream; [keys_of], [key_meaning]:
    meaning of what is typed) and the modelled code of [EscModel]. *)
From Verif Require Import Base BaseProof EscModel EscSpec EscProof.
Local Open Scope Z_scope.

(** C06: whatever is typed without the escape character in a read-write session,
    the server forwards exactly these bytes to the console, performs no command,
    and is left in the middle of no sequence, however the socket cuts the stream
    into reads. *)
Theorem C06_typed_bytes_arrive : forall esc junk bcast reset echo quiet keys chunks t' s l,
  length junk = 4%nat -> 0 <= esc < 128 -> ~ In esc keys ->
  type_keys (signed_char esc) junk (start true bcast reset echo quiet) keys = Ok (t', s, l) ->
  concat chunks = s ->
  exists e, read_all false chunks = Ok (false, e) /\
    flat_map eff_data e = keys /\ flat_map eff_cmd e = [].
Proof.
  intros esc junk bcast reset echo quiet keys chunks t' s l J E N T C.
  destruct (keyboard_spec esc junk true bcast reset echo quiet keys J E)
    as (t2 & s2 & l2 & T2 & P & D & _).
  rewrite T in T2. injection T2 as -> -> ->.
  assert (K : keys_meaning esc (mkS true bcast reset) (until_close (keys_of esc keys)) = map Data keys).
  { clear - N. induction keys as [|c ks IH]; [reflexivity|].
    cbn [keys_of]. destruct (Z.eqb_spec c esc) as [->|NE]; [exfalso; apply N; left; reflexivity|].
    cbn [until_close keys_meaning key_meaning s_write map app]. rewrite IH; auto.
    intro; apply N; right; auto. }
  destruct (unstuff_spec chunks) as (e & R & A & B). exists e.
  rewrite C, D in R. rewrite C in A, B. split; [exact R|].
  rewrite A, B. unfold stream_data, stream_cmds. rewrite P, K. clear.
  induction keys; cbn; auto. destruct IHkeys. split; congruence.
Qed.

Example C06_case : exists t' l,
  type_keys (signed_char 38) [0;0;0;0] (start true false false false false) [97; 255; 13; 255]
    = Ok (t', [97; 255; 255; 13; 255; 255], l).
Proof. eexists; eexists. vm_compute. reflexivity. Qed.

(** C07: for every stream and every way it is cut into reads, the data forwarded
    is the stream's data and the commands performed are the stream's commands,
    each exactly once and in order; nothing is read or written out of bounds. *)
Theorem C07_stream_decoded_partial : forall chunks, exists e,
  read_all false chunks = Ok (dangling (concat chunks), e) /\
  flat_map eff_data e = stream_data (concat chunks) /\
  flat_map eff_cmd e = stream_cmds (concat chunks).
Proof. exact unstuff_spec. Qed.

Example C07_case :
  stream_data [97; 255; 66; 255; 255; 98; 255; 88; 99] = [97; 255; 98; 99] /\
  stream_cmds [97; 255; 66; 255; 255; 98; 255; 88; 99] = [SBreak].
Proof. split; reflexivity. Qed.

(** C07: when every read returns one byte, data and commands also keep their
    order relative to each other ... *)
Theorem C07_relative_order_single_bytes : forall chunks,
  Forall (fun c => length c <= 1)%nat chunks ->
  exists e, read_all false chunks = Ok (dangling (concat chunks), e) /\
            e = flat_map item_effect (parse (concat chunks)).
Proof. exact unstuff_order_one. Qed.

(** C07, finding: ... but a command overtakes the data that precedes it in the
    same read: typing "x" and then the DEL escape can reach the console as DEL
    followed by "x" (the commands are performed while the buffer is scanned,
    server-esc.c:76-128; the data is written after that, server-obj.c:928-954). *)
Theorem C07_relative_order_refuted : exists chunks1 chunks2 e1 e2,
  concat chunks1 = concat chunks2 /\
  read_all false chunks1 = Ok (false, e1) /\ read_all false chunks2 = Ok (false, e2) /\
  flat_map effect_bytes e1 = [120; 127] /\ flat_map effect_bytes e2 = [127; 120].
Proof.
  exists [[120]; [255; 68]], [[120; 255; 68]]. do 2 eexists.
  split; [reflexivity|]. split; [vm_compute; reflexivity|]. split; [vm_compute; reflexivity|].
  split; reflexivity.
Qed.

(** C08: for every escape character below 128, every typed sequence and every
    session mode, the stream sent means what the keys mean; the local actions are
    those of the keys; the 4-byte work buffer is never overrun. *)
Theorem C08_keyboard_partial : forall esc junk write bcast reset echo quiet keys,
  length junk = 4%nat -> 0 <= esc < 128 ->
  exists t' s l, type_keys (signed_char esc) junk (start write bcast reset echo quiet) keys
                 = Ok (t', s, l) /\
    parse s = keys_meaning esc (mkS write bcast reset) (until_close (keys_of esc keys)) /\
    dangling s = false /\
    exists rest, l = keys_local esc (mkS write bcast reset) (until_close (keys_of esc keys)) ++ rest
      /\ (~ In (Escaped 46) (keys_of esc keys) -> rest = []).
Proof. exact keyboard_spec. Qed.

(** typed: a & & & x & B & M y & J z   (with '&' = 38) *)
Example C08_case :
  keys_meaning 38 (mkS true false false)
    (until_close (keys_of 38 [97; 38; 38; 38; 120; 38; 66; 38; 77; 121; 38; 74; 122])) =
  [Data 97; Data 38; Data 38; Data 120; Cmd 66; Cmd 77; Cmd 74; Data 122].
Proof. reflexivity. Qed.

(** C08, the three clauses of the property, read off the wire. *)
Theorem C08_doubled_escape_sends_one : forall esc junk bcast reset echo quiet,
  length junk = 4%nat -> 0 <= esc < 128 -> is_command esc = false ->
  exists t', type_keys (signed_char esc) junk (start true bcast reset echo quiet) [esc; esc]
    = Ok (t', [esc], []).
Proof.
  intros esc junk bcast reset echo quiet J E K.
  unfold signed_char. destruct (Z.ltb_spec esc 128); [|lia].
  cbn [type_keys]. rewrite keystroke_intro by discriminate. cbn [bind start t_closed andb].
  assert (X : perform_esc (with_mode (with_mode (start true bcast reset echo quiet) MEsc) MEol) esc = None).
  { unfold is_command, letters in K. cbn [existsb] in K.
    unfold perform_esc, ESC_BREAK, ESC_CLOSE, ESC_DEL, ESC_ECHO, ESC_FORCE, ESC_HELP, ESC_INFO,
      ESC_JOIN, ESC_REPLAY, ESC_MONITOR, ESC_QUIET, ESC_RESET, ESC_SUSPEND.
    repeat match goal with
    | |- (if ?a =? ?b then _ else _) = _ =>
       destruct (a =? b); [rewrite ?orb_true_r in K; discriminate|cbn [orb] in K]
    end. reflexivity. }
  unfold keystroke. cbn [with_mode t_mode start] in *. cbn zeta. cbn [with_mode t_mode start] in *.
  rewrite X, Z.eqb_refl, send_char_ok by (auto; cbn; lia).
  cbn. unfold stuff1. destruct (Z.eqb_spec esc 255); [lia|]. cbn. eexists; reflexivity.
Qed.

(** C08, finding: an escape character that is also a command letter cannot be
    sent by doubling it; the second one performs the command
    (client-tty.c:183-210 precedes the test at 211). *)
Theorem C08_letter_escape_refuted : exists esc t',
  0 <= esc < 128 /\
  type_keys (signed_char esc) [0;0;0;0] (start true false false false false) [esc; esc]
    = Ok (t', [255; esc], []).
Proof.
  exists 66. eexists. split; [lia|]. vm_compute. reflexivity.
Qed.

(** C08, finding: with an escape character above 127 (accepted by -e) no key is
    ever recognised as the escape character, so the session offers no escapes at
    all, not even close (signed char compared with unsigned char,
    client-tty.c:164-165,177). *)
Theorem C08_high_escape_refuted : forall esc junk write bcast reset echo quiet keys,
  length junk = 4%nat -> 128 <= esc < 256 -> bytes_ok keys ->
  exists t' s, type_keys (signed_char esc) junk (start write bcast reset echo quiet) keys
                 = Ok (t', s, []) /\
    parse s = (if write then map Data keys else []).
Proof. exact high_escape_ignored. Qed.

(** C66: echoing an escape sequence locally stays inside its 4-byte buffer for
    every escape character and every command letter (all printable). *)
Theorem C66_local_echo_fits : forall junk e c,
  length junk = 4%nat -> is_command c = true ->
  exists out, locally_echo_esc junk e c = Ok out /\ (length out <= 3)%nat.
Proof.
  intros junk e c J K. apply echo_safe; [exact J|].
  unfold is_command, letters in K. cbn [existsb] in K.
  repeat (apply orb_prop in K; destruct K as [K|K]; [apply Z.eqb_eq in K; lia|]).
  discriminate.
Qed.

(** It would not fit if both characters were control characters: the buffer has
    no room for the terminating NUL. *)
Theorem C66_two_control_characters_refuted :
  locally_echo_esc [0;0;0;0] 1 2 = UB OutOfBounds.
Proof. vm_compute. reflexivity. Qed.

Print Assumptions C06_typed_bytes_arrive.
Print Assumptions C07_stream_decoded_partial.
Print Assumptions C07_relative_order_single_bytes.
Print Assumptions C07_relative_order_refuted.
Print Assumptions C08_keyboard_partial.
Print Assumptions C08_doubled_escape_sends_one.
Print Assumptions C08_letter_escape_refuted.
Print Assumptions C08_high_escape_refuted.
Print Assumptions C66_local_echo_fits.
Print Assumptions C66_two_control_characters_refuted.
