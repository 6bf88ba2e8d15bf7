(** What a user can see of a session of the client. *)
From Coq Require Import String.
From Verif Require Import Base Chars Fmt StrModel MsgModel EscModel EscSpec TermModel.
Local Open Scope Z_scope.
Local Open Scope list_scope.

(** ** Data *)
(** the bytes that came from the server *)
Definition data_of (e : event) : list Z := match e with Ready _ (Some (Bytes d, _)) _ => d | _ => [] end.
Definition data (l : list event) : list Z := flat_map data_of l.
(** what of stdout came from the server *)
Definition from_server (o : list (bool * list Z)) : list Z := flat_map (fun x : bool * list Z => if fst x then snd x else []) o.
(** the keys *)
Definition keys_typed (l : list event) : list Z := flat_map (fun e => match e with Ready (Some (Byte k, _)) _ _ => [k] | _ => [] end) l.
(** all system calls succeed *)
Definition fine_result (r : result) : Prop := r <> Epipe /\ r <> Bad.
Definition fine (e : event) : Prop :=
  match e with
  | Ready k d _ => (match k with Some (x, rs) => x <> InErr /\ Forall fine_result rs | None => True end) /\
                   (match d with Some (x, rs) => x <> SErr /\ Forall fine_result rs | None => True end)
  | Failed => False
  | _ => True
  end.

(** ** Terminals *)
Definition off (w bit : Z) : Prop := Z.land w bit = 0.
(** every key reaches the client as it is, and all output the terminal as it is *)
Definition raw_mode (t : termios) : Prop :=
  off (iflag t) BRKINT /\ off (iflag t) ICRNL /\ off (iflag t) INPCK /\ off (iflag t) ISTRIP /\ off (iflag t) IXON /\
  off (oflag t) OPOST /\ Z.land (cflag t) CSIZE = CS8 /\ off (cflag t) PARENB /\
  off (lflag t) ICANON /\ off (lflag t) IEXTEN /\ off (lflag t) ISIG /\ vmin t = 1 /\ vtime t = 0.
Definition echoing (t : termios) : bool := negb (Z.land (lflag t) ECHO =? 0).

(** ** Messages *)
(** a message of the text [t], cut if it does not fit [L] bytes *)
Definition shown (L : nat) (t : list Z) : list Z := if (length t <? L)%nat then t else firstn (L - 3) t ++ [CR; LF].
Definition status_text (c : cfg) (msg : list Z) : list Z :=
  match names c with
  | [n] => MSG_PREFIX ++ zs "Connection to console [" ++ n ++ zs "] " ++ msg ++ MSG_SUFFIX
  | l => MSG_PREFIX ++ zs "Broadcast to " ++ fmt_d (Z.of_nat (length l)) ++ zs " consoles " ++ msg ++ MSG_SUFFIX
  end.
(** what the client tells about the connection; [rw]: with write access *)
Definition info_text (c : cfg) (rw : bool) : list Z :=
  let server := zs " on <" ++ host c ++ zs ":" ++ fmt_d (port c) ++ zs ">" in
  match names c with
  | [n] => MSG_PREFIX ++ zs "Connected R/" ++ (if rw then zs "W" else zs "O") ++ zs " to console [" ++ n ++ zs "]" ++ server ++ MSG_SUFFIX
  | l => MSG_PREFIX ++ zs "Broadcasting to " ++ fmt_d (Z.of_nat (length l)) ++ zs " consoles" ++ server ++ MSG_SUFFIX
  end.
(** the printable form of a character *)
Definition printable (c : Z) : list Z :=
  let c := c mod 128 in if c <? 32 then [94; c + 64] else if c =? 127 then [94; 63] else [c].
Definition help_line (esc k : Z) (what : list Z) : list Z :=
  zs "  " ++ left2 (printable esc) ++ right2 (printable k) ++ zs " -  " ++ what ++ [CR; LF].

(** ** The start of a session *)
Definition starts (c : cfg) (s : st) : Prop :=
  t_mode (ses s) = MEol /\ t_closed (ses s) = false /\ t_echo (ses s) = false /\ done s = false /\ out s = [] /\ sent s = [] /\ stops s = [].
Definition cfg_ok (c : cfg) : Prop :=
  names c <> [] /\ Forall chars_ok (names c) /\ length (key_buf c) = 4%nat /\ (4 <= length (line_buf c))%nat /\ (1100 <= length (help_buf c))%nat.
(** an escape sequence does something: a command goes to the server, or the client acts itself *)
Definition acts (c : cfg) (t : tty) (k : Z) : Prop :=
  exists t' sn ls, keystroke (escape c) (key_buf c) (with_mode t MEsc) k = Ok (t', sn, ls) /\ (ls <> [] \/ exists x, In (Cmd x) (parse sn)).
(** the text of the help, for a list of sequences *)
Definition help_text (c : cfg) (items : list (Z * list Z)) : list Z :=
  (CR :: LF :: zs "Supported ConMan Escape Sequences:" ++ [CR; LF]) ++ concat (map (fun x => help_line (escape c) (fst x) (snd x)) items).
(** the log file gets [d] as well, if there is one *)
Definition logged (l : option (list Z)) (d : list Z) : option (list Z) := match l with Some x => Some (x ++ d) | None => None end.
(** a line of the client's own in its log *)
Definition log_line (what t : list Z) : list Z := [13; 10] ++ zs "<ConMan> Log " ++ what ++ zs " at " ++ t ++ zs "." ++ [13; 10].
(** the part of the events that the client has dealt with *)
Definition used (l : list event) (p : phase) (u : list event) : Prop :=
  match p with Waiting => u = l | Over rem => l = u ++ rem | Dead => False end.
