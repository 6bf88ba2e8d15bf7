(** The protocol as the documentation of the code describes it: what the lines look like,
    what each side should learn. *)
From Coq Require Import String.
From Verif Require Import Base Chars Fmt LexModel StrModel FileModel ProtoModel.
Local Open Scope Z_scope.

(** A string that can be sent: 7-bit characters, no line ends, at most 1023 of them. *)
Definition sendable (s : list Z) : Prop :=
  Forall (fun c => 1 <= c < 128 /\ c <> CR /\ c <> LF) s /\ (List.length s < LEX_MAX_STR)%nat.
Definition name_ok (s : list Z) : Prop := sendable s /\ s <> [].

(** Quotes inside quoted strings travel with their high bit set. *)
Definition enc (s : list Z) : list Z := List.map (fun c => if (c =? QUOTE) || (c =? DQUOTE) then c + 128 else c) s.
Definition quoted_field (key : string) (s : list Z) : list Z := zs (" " ++ key ++ "='") ++ enc s ++ zs "'".

Definition cmd_word (c : cmd) : string :=
  match c with CmdConnect => "CONNECT" | CmdMonitor => "MONITOR" | CmdQuery => "QUERY" | CmdNone => "" end.
Definition when (b : bool) (s : string) : list Z := if b then zs s else [].
Definition is_connect (c : cmd) : bool := match c with CmdConnect => true | _ => false end.
(** The line for a request. *)
Definition request_line (q : req) : list Z :=
  zs (cmd_word (q_cmd q)) ++
  when (q_quiet q) " OPTION=QUIET" ++ when (q_regex q) " OPTION=REGEX" ++
  (if is_connect (q_cmd q)
   then when (q_force q) " OPTION=FORCE" ++ when (q_join q) " OPTION=JOIN" ++ when (q_bcast q) " OPTION=BROADCAST"
   else []) ++
  List.concat (List.map (quoted_field "CONSOLE") (q_cons q)) ++ [LF].
(** What the server should make of it: the same command, console patterns and options;
    the options about writing only matter for CONNECT. *)
Definition understood (q server : req) : req :=
  mkReq (q_user server) (q_tty server) (q_cmd q)
        (is_connect (q_cmd q) && q_bcast q) (is_connect (q_cmd q) && q_force q) (is_connect (q_cmd q) && q_join q)
        (q_quiet q) (q_regex q) (q_reset server) (q_cons q).

Definition greeting_line (user : list Z) (tty : option (list Z)) : list Z :=
  zs "HELLO" ++ quoted_field "USER" user ++ match tty with Some t => quoted_field "TTY" t | None => [] end ++ [LF].

Definition ok_line (reset : bool) (names : list (list Z)) : list Z :=
  zs "OK" ++ match names with [] => [] | _ => when reset " OPTION=RESET" end ++
  List.concat (List.map (quoted_field "CONSOLE") names) ++ [LF].
Definition error_line (code : Z) (msg : list Z) : list Z :=
  zs "ERROR CODE=" ++ fmt_d code ++ quoted_field "MESSAGE" msg ++ [LF].

(** What the receivers make of any input at all: strings of fewer than 1024 7-bit
    characters. *)
Definition plain (s : list Z) : Prop := Forall (fun c => 1 <= c < 128) s /\ (List.length s < LEX_MAX_STR)%nat.
Definition req_ok (q : req) : Prop :=
  (forall s, q_user q = Some s -> plain s) /\ (forall s, q_tty q = Some s -> plain s) /\ Forall plain (q_cons q).
Definition client_ok (k : client) : Prop := Forall plain (k_cons k) /\ forall s, k_msg k = Text s -> plain s.

(** A request that has not been parsed yet. *)
Definition fresh (q : req) : Prop :=
  q_bcast q = false /\ q_force q = false /\ q_join q = false /\ q_quiet q = false /\ q_regex q = false /\ q_cons q = [].
