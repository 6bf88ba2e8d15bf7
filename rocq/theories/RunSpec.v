(** What a user sees of a run of the client. *)
From Coq Require Import String.
From Verif Require Import Base Chars Fmt FileModel MsgModel ProtoModel ProtoSpec RunModel.
Local Open Scope Z_scope.

(** Nothing goes wrong with the terminal, the log and the reading of what follows an error. *)
Definition calm (y : sys) (s : st) : Prop :=
  ~ In Fail (w_out s) /\ ~ In Fail (w_err s) /\ ~ In Fail (w_log s) /\ ~ In Fail (y_dr y) /\ ~ In Intr (y_dr y).
(** The log has got what the terminal has got. *)
Definition logged (s s' : st) (text : list Z) : Prop := t_log s' = option_map (fun l => l ++ text) (t_log s).
(** Of an error message at most 1023 characters are shown. *)
Definition shown (msg : list Z) : list Z := firstn (Z.to_nat 1023) (zs "ERROR: " ++ msg ++ zs "." ++ [LF; LF]).
(** The advice that follows some errors. *)
Definition advice (q : req) (code : Z) : list Z :=
  match code, q_bcast q, q_force q || q_join q with
  | 6, false, _ => LF :: zs "Do you want to broadcast (-b) to multiple consoles?" ++ [LF; LF]
  | 7, _, false => LF :: zs "Do you want to force (-f) or join (-j) the connection?" ++ [LF; LF]
  | _, _, _ => []
  end.
Definition one_per_line (l : list (list Z)) : list Z := flat_map (fun n => n ++ [LF]) l.
(** The last line of a log. *)
Definition log_end (t : list Z) : list Z := CR :: LF :: zs "<ConMan> Log finished at " ++ t ++ zs "." ++ [CR; LF].

(** The strings of the system and of the user; the sizes of the buffers. *)
Definition world_ok (y : sys) : Prop :=
  (forall n, y_cname y = Some n -> chars_ok n) /\ (forall e, y_conn y = Some e -> chars_ok e) /\ (forall e, y_shut y = Some e -> chars_ok e) /\
  chars_ok (y_serr y) /\ chars_ok (y_time y) /\ length (y_junk y) = Z.to_nat 1024 /\ length (y_jline y) = Z.to_nat 131072.
Definition asks_ok (dbg : bool) (user : list Z) (tty : option (list Z)) (q : req) : Prop :=
  (chars_ok user /\ (dbg = true -> Forall (fun c => c < 128) user)) /\
  (forall t, tty = Some t -> chars_ok t /\ (dbg = true -> Forall (fun c => c < 128) t)) /\
  q_cmd q <> CmdNone /\ Forall plain (q_cons q).
(** What may be wrong on this side: the system has no sockets, terminal or log cannot be written,
    the socket cannot be read or closed. *)
Definition trouble (y : sys) (s : st) : Prop :=
  y_sock y = false \/ In Fail (w_out s) \/ In Fail (w_err s) \/ In Fail (w_log s) \/ In Fail (y_dr y) \/ In Intr (y_dr y) \/ y_close y = false \/ y_logclose y = false.
(** How a run may end. *)
Inductive explained (y : sys) (q : req) (stream : list Z) (s s' : st) : ended -> Prop :=
| in_session k i : q_cmd q <> CmdQuery -> t_out s' = t_out s -> t_err s' = t_err s -> t_log s' = t_log s -> explained y q stream s s' (Session k (skipn i stream))
| names_shown names : q_cmd q = CmdQuery -> t_out s' = t_out s ++ one_per_line names -> t_err s' = t_err s ->
    logged s s' (one_per_line names ++ firstn (Z.to_nat 1023) (log_end (y_time y))) -> explained y q stream s s' (Exit 0)
| error_shown msg code more : t_out s' = t_out s -> t_err s' = t_err s ++ shown msg ++ more ++ advice q code -> logged s s' (shown msg ++ more ++ advice q code) ->
    (more = [] \/ exists i, more = skipn i stream) -> explained y q stream s s' (Exit 2)
| in_trouble : trouble y s -> explained y q stream s s' (Exit 1)
| long_name (n : list Z) : q_cmd q = CmdQuery -> (1023 <= Z.of_nat (length n)) -> explained y q stream s s' (Exit 1).
(** Nothing goes wrong between client and daemon. *)
Definition smooth (y : sys) : Prop :=
  y_sock y = true /\ y_addr y = true /\ y_conn y = None /\ y_shut y = None /\ y_close y = true /\ y_logclose y = true /\
  ~ In Fail (y_gw y) /\ ~ In Fail (y_gr y) /\ ~ In Fail (y_rw y) /\ ~ In Fail (y_rr y).
(** The name of the daemon's host: its canonical name if there is one, in messages without its
    domain once the connection is there. *)
Definition full_name (y : sys) (host : list Z) : list Z := match y_cname y with Some n => n | None => host end.
Fixpoint without_domain (s : list Z) : list Z := match s with [] => [] | c :: t => if c =? 46 then [] else c :: without_domain t end.
Definition short_name (y : sys) (host : list Z) : list Z := match y_cname y with Some n => without_domain n | None => host end.
Definition place (h : list Z) (port : Z) : list Z := zs "<" ++ h ++ zs ":" ++ fmt_d port ++ zs ">".
(** The run ends with an error message. *)
Definition fails_with (s s' : st) (text : list Z) : Prop := t_out s' = t_out s /\ t_err s' = t_err s ++ text /\ logged s s' text.
