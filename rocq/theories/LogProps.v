(** The theorems about console log formatting (C35-C38, C67). *)
From Coq Require Import String Ascii.
From Verif Require Import Base BaseProof RingModel RingSpec RingProof LogModel LogSpec LogProof.
Set Implicit Arguments.

(** C36.  For every sequence of console reads and informational messages, and
    whatever the clock shows at each line, the log consists of the lines of the
    console output ([splits] in LogSpec), each with exactly one timestamp in front
    of it, ended by CR LF, with the messages in between; a line is never stamped
    twice and no stamp occurs elsewhere. *)
Theorem C36_lines_stamped : forall SZ dbg clock p junk xs k,
  clock_fits dbg clock -> MINBUF <= SZ - 1 -> got_processing p = true ->
  (forall i, length (junk i) = SZ - 1) -> bytes_ok (flat_map lop_bytes xs) ->
  exists ms s k', log_run SZ dbg clock p junk LineInit k xs = Ok (ms, s, k') /\
    log_of (show_of p) (stamp_of p clock) k xs (concat ms).
Proof. intros. eapply run_log_of; eauto. Qed.
Print Assumptions C36_lines_stamped.

(** C36.  The lines of a stream are well defined: every stream splits into
    lines, in exactly one way. *)
Theorem C36_lines_unique : forall s,
  exists ls last, splits s ls last /\
    forall ls' last', splits s ls' last' -> ls' = ls /\ last' = last.
Proof.
  intros s. destruct (splits_ex s) as (ls & last & H). exists ls, last. split; [exact H|].
  intros ls' last' H'. eapply splits_unique; eauto.
Qed.
Print Assumptions C36_lines_unique.

(** C35.  With the sanitize option every byte of the log is printable 7-bit
    ASCII, CR or LF, if the timestamps and the informational messages are. *)
Theorem C35_sanitized : forall SZ dbg clock p junk xs k ms s k',
  lo_sanitize p = true -> clock_fits dbg clock -> MINBUF <= SZ - 1 ->
  (forall i, length (junk i) = SZ - 1) -> bytes_ok (flat_map lop_bytes xs) ->
  (forall i, Forall text_or_eol (clock i)) ->
  (forall m, In (LInfo m) xs -> Forall text_or_eol m) ->
  log_run SZ dbg clock p junk LineInit k xs = Ok (ms, s, k') ->
  Forall text_or_eol (concat ms).
Proof.
  intros SZ dbg clock p junk xs k ms s k' HS HC HM HJ Hb Ht Hm HR.
  destruct (@run_log_of SZ dbg clock p HC HM) with (junk := junk) (xs := xs) (k := k) (j := k)
    as (ms2 & s2 & j2 & A & B); auto.
  { unfold got_processing. now rewrite HS. }
  rewrite HR in A. injection A as <- <- <-.
  replace (show_of p) with (fun c => shown c) in B.
  - eapply log_of_text; [exact B| |exact Hb|exact Hm].
    intros i. unfold stamp_of. destruct (lo_timestamp p); [apply Ht|constructor].
  - assert (E : show_of p = fun c => if lo_sanitize p then shown c else [c]) by reflexivity.
    rewrite E, HS. reflexivity.
Qed.
Print Assumptions C35_sanitized.

(** C35.  How one byte appears: a printable character as itself, a control
    character as "^" and its letter, DEL as "^?", and with the high bit set the
    same behind "~" (control characters, DEL) or "`" (others). *)
Theorem C35_documented_form :
  (forall c, 32 <= c < 127 -> shown c = [c] /\ shown (c + 128) = [96; c])%Z /\
  (forall c, 0 <= c < 32 -> shown c = [94; c + 64] /\ shown (c + 128) = [126; c + 64])%Z /\
  shown 127 = [94; 63]%Z /\ shown 255 = [126; 63]%Z.
Proof.
  split; [|split; [|split; reflexivity]]; intros c Hc; unfold shown; cbv zeta;
    (destruct (Z.leb_spec 128 c); [lia|]); (destruct (Z.leb_spec 128 (c + 128)); [|lia]);
    replace (c + 128 - 128)%Z with c by lia; destruct (Z.ltb_spec c 32); try lia; auto.
  destruct (Z.eqb_spec c 127); [lia|auto].
Qed.
Print Assumptions C35_documented_form.

(** C37.  Two ways of cutting the same stream into reads give the same log
    bytes and leave the log in the same state, also when no processing is
    configured. *)
Theorem C37_chunk_independence : forall SZ dbg clock p junk1 junk2 c1 c2 ls k,
  clock_fits dbg clock -> MINBUF <= SZ - 1 ->
  (forall i, length (junk1 i) = SZ - 1) -> (forall i, length (junk2 i) = SZ - 1) ->
  Forall bytes_ok c1 -> Forall bytes_ok c2 -> concat c1 = concat c2 ->
  exists ms1 ms2 s k1 k2,
    log_run SZ dbg clock p junk1 ls k (map LData c1) = Ok (ms1, s, k1) /\
    log_run SZ dbg clock p junk2 ls k (map LData c2) = Ok (ms2, s, k2) /\
    concat ms1 = concat ms2 /\ (lo_timestamp p = true -> k1 = k2).
Proof.
  intros SZ dbg clock p junk1 junk2 c1 c2 ls k HC HM J1 J2 B1 B2 E.
  destruct (got_processing p) eqn:HG.
  { eapply run_chunks; eauto. }
  assert (X : forall junk c, log_run SZ dbg clock p junk ls k (map LData c) = Ok (c, ls, k)).
  { intros junk c. induction c as [|d c IH]; [reflexivity|]. cbn [map log_run].
    unfold log_format. destruct (Nat.leb_spec MINBUF (SZ - 1)); [|lia]. cbn [assert_ bind]. rewrite HG.
    cbn [negb bind]. rewrite IH. reflexivity. }
  exists c1, c2, ls, k, k. rewrite !X. auto.
Qed.
Print Assumptions C37_chunk_independence.

(** C38.  Formatting never leaves the work buffer (and no assertion fails, in a
    debug build either), for any input length; and every message it produces fits
    the circular buffer, so that write_obj_data never cuts one. *)
Theorem C38_no_overrun : forall SZ dbg clock p junk src ls k,
  clock_fits dbg clock -> MINBUF <= SZ - 1 -> length junk = SZ - 1 -> bytes_ok src ->
  (got_processing p = false -> length src <= SZ - 1) ->
  exists ms ls' k', log_format SZ dbg clock p junk src ls k = Ok (ms, ls', k') /\
    Forall (fun m => length m <= SZ - 1) ms.
Proof.
  intros SZ dbg clock p junk src ls k HC HM HJ Hb Hl.
  destruct (got_processing p) eqn:HG.
  - destruct (@format_ok SZ dbg clock p src junk ls k k HC HM Hb HJ HG) as (ms & j & A & B & M & K); auto.
    rewrite A. do 3 eexists. split; [reflexivity|exact M].
  - unfold log_format. destruct (Nat.leb_spec MINBUF (SZ - 1)); [|lia]. cbn [assert_ bind]. rewrite HG. cbn [negb].
    do 3 eexists. split; [reflexivity|]. repeat constructor. auto.
Qed.
Print Assumptions C38_no_overrun.

(** C38.  No timestamp is ever dropped for lack of room: a console stream of [n]
    LF-terminated empty lines is logged as exactly [n] stamped lines, for any
    [n], however often the work buffer fills up. *)
Theorem C38_no_stamp_dropped : forall SZ dbg clock san junk n k,
  clock_fits dbg clock -> MINBUF <= SZ - 1 -> length junk = SZ - 1 ->
  exists ms ls' k', log_format SZ dbg clock (mkLopts san true) junk (repeat 10%Z n) LineInit k = Ok (ms, ls', k') /\
    concat ms = flat_map (fun i => clock i ++ CRLF) (seq k n).
Proof.
  intros SZ dbg clock san junk n k HC HM HJ.
  set (p := mkLopts san true).
  destruct (@format_ok SZ dbg clock p (repeat 10%Z n) junk LineInit k k HC HM) as (ms & j & A & B & M & K); auto.
  { apply Forall_forall. intros x Hx. apply repeat_spec in Hx. subst. unfold byte_ok. lia. }
  { unfold got_processing. cbn. now rewrite orb_true_r. }
  rewrite A. do 3 eexists. split; [reflexivity|]. rewrite B.
  assert (X : forall n k, fst (fst (prun clock p LineLF k (repeat 10%Z n))) =
                          flat_map (fun i => clock i ++ CRLF) (seq k n)).
  { clear. induction n as [|n IH]; intros k; [reflexivity|]. cbn [repeat prun seq flat_map].
    replace (pbyte clock p LineLF k 10) with (clock k ++ CRLF, LineLF, S k) by reflexivity.
    specialize (IH (S k)). destruct (prun clock p LineLF (S k) (repeat 10%Z n)) as [[o s] q]. cbn [fst snd] in *.
    now rewrite IH. }
  destruct n as [|n]; [reflexivity|]. cbn [repeat prun seq flat_map].
  replace (pbyte clock p LineInit k 10) with (clock k ++ CRLF, LineLF, S k) by reflexivity.
  specialize (X n (S k)). destruct (prun clock p LineLF (S k) (repeat 10%Z n)) as [[o s] q]. cbn [fst snd] in *.
  now rewrite X.
Qed.
Print Assumptions C38_no_stamp_dropped.

(** C67 (part).  What write_log_data puts into the log's output buffer: the
    formatted text behind what was pending, cut on the left to the capacity.  So
    if both fit, everything the console sent will be offered to the file. *)
Theorem C67_log_complete_partial : forall SZ dbg clock p junk0 xs sent junk o k src ls ls' k' ms pend d o1,
  clock_fits dbg clock -> MINBUF <= SZ - 1 -> length junk = SZ - 1 -> bytes_ok src ->
  (got_processing p = false -> length src <= SZ - 1) ->
  length junk0 = SZ -> Forall (op_allowed false) xs ->
  run SZ (create (KLogfile LineInit) junk0) xs = Ok (o, sent) ->  (* any past of the log *)
  o_kind o = KLogfile ls -> o_eof o = false -> o_open o = true ->
  write_to_obj SZ o [WAccept SZ] = Ok (pend, d, o1) ->        (* what was pending *)
  log_format SZ dbg clock p junk src ls k = Ok (ms, ls', k') ->
  exists n o', write_log_data SZ dbg clock p junk o k src = Ok (n, o', k') /\
    exists d' o2,
      write_to_obj SZ o' [WAccept SZ] = Ok (lastn (SZ - 1) (pend ++ concat ms), d', o2) /\
      (length pend + length (concat ms) <= SZ - 1 ->
       lastn (SZ - 1) (pend ++ concat ms) = pend ++ concat ms).
Proof.
  intros SZ dbg clock p junk0 xs sent junk o k src ls ls' k' ms pend d o1 HC HM HJ Hb Hl HJ0 Hal Hrun Hk He Ho Hp HF.
  assert (HSZ : 1 < SZ) by (unfold MINBUF in HM; lia).
  assert (HI : Inv SZ o).
  { destruct (@run_abs SZ (create (KLogfile LineInit) junk0) xs HSZ) as (o' & A & B & _).
    - apply create_inv; [lia|exact HJ0].
    - exact Hal.
    - rewrite Hrun in A. injection A as <- _. exact B. }
  destruct (@C38_no_overrun SZ dbg clock p junk src ls k HC HM HJ Hb Hl) as (ms2 & ls2 & k2 & A & M).
  rewrite HF in A. injection A as <- <- <-.
  destruct (@flush_all SZ o SZ HSZ HI Ho (le_n SZ)) as (d2 & o3 & E). rewrite Hp in E. injection E as -> <- <-.
  destruct (@write_msgs_abs SZ ms HSZ M o HI He) as (n & o' & W & HI' & He' & Ho' & Hc' & P).
  { unfold is_client. now rewrite Hk. }
  unfold write_log_data, line_state. rewrite Hk. cbn [bind]. rewrite HF. cbn [bind]. rewrite W. cbn [bind fst snd].
  exists n, (set_line ls' o'). split; [reflexivity|].
  assert (HI2 : Inv SZ (set_line ls' o')) by exact HI'.
  destruct (@flush_all SZ (set_line ls' o') SZ HSZ HI2) as (d' & o2 & F); [cbn; congruence|lia|].
  exists d', o2. split; [|intros; apply lastn_all; rewrite app_length; lia].
  rewrite F. rewrite <- P. reflexivity.
Qed.
Print Assumptions C67_log_complete_partial.

(** C67, C36, C37 (part).  The whole history of a log file's object.  If its
    buffer never overflows, the file together with what still waits to be written
    holds exactly the formatted text of all that was logged, in order, with the line
    state carried over from each call to the next. *)
Theorem C67_history_partial : forall SZ dbg clock p junk junk0 xs sent0 o k ls pend d o1 es,
  1 < SZ -> length junk0 = SZ -> Forall (op_allowed false) xs ->
  RingModel.run SZ (create (KLogfile LineInit) junk0) xs = Ok (o, sent0) ->  (* any past of the log *)
  o_kind o = KLogfile ls -> o_eof o = false -> o_open o = true ->
  write_to_obj SZ o [WAccept SZ] = Ok (pend, d, o1) ->        (* what was pending *)
  (forall m, In (VOp (LInfo m)) es -> m <> []) ->
  roomy SZ dbg clock p junk pend ls k es ->
  exists o' sent ms ls' k',
    log_hist SZ dbg clock p junk o k es = Ok (o', k', sent) /\
    log_run SZ dbg clock p junk ls k (lops es) = Ok (ms, ls', k') /\
    o_kind o' = KLogfile ls' /\
    exists rest d' o2, write_to_obj SZ o' [WAccept SZ] = Ok (rest, d', o2) /\
      sent ++ rest = pend ++ concat ms.
Proof.
  intros SZ dbg clock p junk junk0 xs sent0 o k ls pend d o1 es HSZ HJ0 Hal Hrun Hk He Ho Hp Hm HR.
  assert (HI : Inv SZ o).
  { destruct (@run_abs SZ (create (KLogfile LineInit) junk0) xs HSZ) as (o' & A & B & _).
    - apply create_inv; [lia|exact HJ0].
    - exact Hal.
    - rewrite Hrun in A. injection A as <- _. exact B. }
  destruct (@flush_all SZ o SZ HSZ HI Ho (le_n SZ)) as (d2 & o3 & E). rewrite Hp in E. injection E as -> <- <-.
  destruct (hist_ok dbg clock p junk HSZ es k HI Hk He Ho Hm HR) as (o' & sent & ms & ls' & k' & A & B & C & D & F & Q).
  exists o', sent, ms, ls', k'. split; [exact A|]. split; [exact B|]. split; [exact D|].
  destruct (@flush_all SZ o' SZ HSZ C F (le_n SZ)) as (d4 & o4 & E4). eauto.
Qed.
Print Assumptions C67_history_partial.

(** C67 fails in general: with the timestamp option a single read of newlines,
    no longer than the daemon's read buffer, yields more log text than the log's
    output buffer holds, so log lines are lost although the file could be written
    at once. *)
Theorem C67_burst_refuted : forall SZ dbg clock san junk k,
  64 <= SZ -> (forall i, length (clock i) = 20) -> length junk = SZ - 1 ->
  exists src ms ls' k', length src = SZ / 2 - 1 /\
    log_format SZ dbg clock (mkLopts san true) junk src LineInit k = Ok (ms, ls', k') /\
    SZ - 1 < length (concat ms).
Proof.
  intros SZ dbg clock san junk k HS HC HJ.
  destruct (@C38_no_stamp_dropped SZ dbg clock san junk (SZ / 2 - 1) k) as (ms & ls' & k' & A & B).
  { intros i. rewrite HC. split; [lia|auto]. } { unfold MINBUF. lia. } { exact HJ. }
  exists (repeat 10%Z (SZ / 2 - 1)), ms, ls', k'. split; [apply repeat_length|]. split; [exact A|].
  rewrite B. assert (X : forall n k, length (flat_map (fun i => clock i ++ CRLF) (seq k n)) = 22 * n).
  { clear -HC. induction n as [|n IH]; intros k; [reflexivity|]. cbn [seq flat_map].
    rewrite !app_length, IH, HC. cbn [CRLF length]. lia. }
  rewrite X. pose proof (Nat.div_mod_eq SZ 2). pose proof (Nat.mod_upper_bound SZ 2). lia.
Qed.
Print Assumptions C67_burst_refuted.

(** ** Examples: the hypotheses are met by real cases *)

Definition str (s : string) : list Z :=
  map (fun a => Z.of_nat (nat_of_ascii a)) (list_ascii_of_string s).

Definition ex_clock (i : nat) : list Z :=
  str "2024-01-02 03:04:0" ++ [48 + Z.of_nat i; 32]%Z.

(** A login prompt read in three pieces, a message in between, an ESC and a
    meta character. *)
Definition ex_ops : list lop :=
  [LData (str "ab" ++ [13])%Z; LData ([10; 27] ++ str "c")%Z; LInfo (str "<hi>" ++ [13; 10]%Z);
   LData (225 :: str "x" ++ [10; 13; 10])%Z].

Example C36_example : exists ms s k,
  log_run 64 true ex_clock (mkLopts true true) (fun _ => repeat 7%Z 63) LineInit 0 ex_ops = Ok (ms, s, k) /\
  concat ms = str "2024-01-02 03:04:00 ab" ++ CRLF ++ str "2024-01-02 03:04:01 ^[c<hi>" ++ CRLF ++
              str "2024-01-02 03:04:02 `ax" ++ CRLF ++ str "2024-01-02 03:04:03 " ++ CRLF /\ k = 4.
Proof. do 3 eexists. split; [vm_compute; reflexivity|]. split; vm_compute; reflexivity. Qed.

Example C35_example : text_or_eol 65 /\ (~ text_or_eol 27) /\ (~ text_or_eol 200) /\
  clock_fits true ex_clock.
Proof.
  unfold text_or_eol, printable. split; [lia|]. split; [lia|]. split; [lia|].
  intros i. assert (E : length (ex_clock i) = 20) by reflexivity. rewrite E. split; [lia|auto].
Qed.

Example C37_example :
  exists ms1 ms2 s, 
  log_run 64 true ex_clock (mkLopts false true) (fun _ => repeat 7%Z 63) LineInit 0
          (map LData [str "ab"; [13]; [10; 0]; str "c"]%Z) = Ok (ms1, s, 2) /\
  log_run 64 true ex_clock (mkLopts false true) (fun _ => repeat 9%Z 63) LineInit 0
          (map LData [str "a"; (str "b" ++ [13; 10; 0])%Z; str "c"]) = Ok (ms2, s, 2) /\
  ms1 <> ms2 /\ concat ms1 = concat ms2.
Proof.
  do 3 eexists. split; [vm_compute; reflexivity|]. split; [vm_compute; reflexivity|].
  split; [vm_compute; discriminate|vm_compute; reflexivity].
Qed.

Example C67_example : exists n o' k d pend o2,
  write_log_data 64 true ex_clock (mkLopts false true) (repeat 7%Z 63)
    (create (KLogfile LineInit) (repeat 0%Z 64)) 0 (str "ok" ++ [10%Z]) = Ok (n, o', k) /\
  write_to_obj 64 o' [WAccept 64] = Ok (pend, d, o2) /\
  pend = str "2024-01-02 03:04:00 ok" ++ CRLF.
Proof. do 6 eexists. split; [vm_compute; reflexivity|]. split; vm_compute; reflexivity. Qed.

Example C67_history_example :
  let es := [VOp (LData (str "ok" ++ [13%Z])); VFlush [WIntr; WAccept 20]; VOp (LData (10%Z :: str "x"));
             VFlush [WAccept 3]; VOp (LInfo (str "<i>"))] in
  roomy 64 true ex_clock (mkLopts false true) (fun _ => repeat 7%Z 63) [] LineInit 0 es /\
  exists o k sent, log_hist 64 true ex_clock (mkLopts false true) (fun _ => repeat 7%Z 63)
    (create (KLogfile LineInit) (repeat 0%Z 64)) 0 es = Ok (o, k, sent) /\ length sent = 23.
Proof. split; [vm_compute; repeat split; repeat constructor|]. do 3 eexists. split; [vm_compute; reflexivity|]. reflexivity. Qed.
