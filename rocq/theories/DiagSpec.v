(** Where messages have to go. *)
From Coq Require Import String.
From Verif Require Import Base Chars MsgModel MsgSpec DiagModel.
Local Open Scope Z_scope.

(** The names of the priorities, 0 to 7. *)
Definition priority_name (p : Z) : list Z :=
  match p with
  | 0 => zs "EMERGENCY" | 1 => zs "ALERT" | 2 => zs "CRITICAL" | 3 => zs "ERROR" | 4 => zs "WARNING" | 5 => zs "NOTICE" | 6 => zs "INFO" | 7 => zs "DEBUG"
  | _ => zs "UNKNOWN"
  end.
(** A message of a length that fits, of one line. *)
Definition msg_ok (m : msg) : Prop :=
  length (m_buf m) = Z.to_nat 1024 /\ chars_ok (m_stamp m) /\ chars_ok (m_text m) /\ m_fmt m <> [] /\ last (m_fmt m) 0 <> LF /\
  Z.of_nat (length (m_stamp m)) + 11 + Z.of_nat (length (m_text m)) + 2 <= 1024.
(** The line in a log file, on the terminal, in the system's log. *)
Definition dated (m : msg) : list Z := m_stamp m ++ tag (priority_name (m_prio m)) ++ m_text m ++ [LF].
Definition undated (m : msg) : list Z := tag (priority_name (m_prio m)) ++ m_text m ++ [LF].
Definition bare (m : msg) : list Z := m_text m ++ [LF].
(** The messages that are important enough: a lower number is more important. *)
Definition due (level : Z) (l : list msg) : list msg := filter (fun m => m_prio m <=? level) l.

Definition op_ok (x : op) : Prop :=
  match x with
  | Msg m _ => msg_ok m
  | Reopen (NoFile m _) w | Reopen (NoUse m _) w => msg_ok m /\ (forall x, w = Some x -> msg_ok (fst x))
  | Reopen Opened w => forall x, w = Some x -> msg_ok (fst x)
  end.
Definition msgs_ok (l : list (msg * bool)) : Prop := Forall (fun x => msg_ok (fst x)) l.
Definition name_fine (n : option outcome) : Prop := match n with Some (NoFile m _) | Some (NoUse m _) => msg_ok m | _ => True end.
(** Messages that are written without error. *)
Definition says (l : list msg) : list op := map (fun m => Msg m true) l.

(** The messages of a history, the warnings that a log can not be opened included. *)
Definition warning (o : outcome) : list msg := match o with NoFile m _ | NoUse m _ => [m] | Opened => [] end.
Definition said (l : list op) : list msg := flat_map (fun x => match x with Msg m _ => [m] | Reopen o _ => warning o end) l.
Definition started (n : option outcome) : list msg := match n with Some o => warning o | None => [] end.
(** Messages only. *)
Definition spoken (l : list op) : list msg := flat_map (fun x => match x with Msg m _ => [m] | Reopen _ _ => [] end) l.
(** No write fails; no stream fails to close; nothing is opened again. *)
Definition writable (l : list op) : Prop := forall m, ~ In (Msg m false) l.
Definition closable (l : list op) : Prop := forall o w, In (Reopen o w) l -> w = None.
Definition unasked (l : list op) : Prop := forall o w, ~ In (Reopen o w) l.
(** What the system's log has of the messages, and how often it was told of a failure. *)
Definition reported (l : list (Z * list Z)) : list (Z * list Z) := filter (fun x => negb (list_eqb (snd x) stopped)) l.
Definition alarms (l : list (Z * list Z)) : nat := length (filter (fun x => list_eqb (snd x) stopped) l).
Definition entry (m : msg) : Z * list Z := (m_prio m, bare m).
