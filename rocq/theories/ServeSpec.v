(** What the daemon says to a client, line by line, and when a session starts. *)
From Coq Require Import String.
From Verif Require Import Base Chars Fmt LexModel StrModel FileModel ProtoModel ProtoSpec QueryModel QuerySpec ServeModel.
Local Open Scope Z_scope.

Section Spec.
Variables (nm : nat -> list Z) (writers : nat -> list who) (resets : bool).

(** Commands that concern one console only. *)
Definition one_only (q : req) : bool :=
  match q_cmd q with CmdMonitor => true | CmdConnect => negb (q_bcast q) | _ => false end.
(** The consoles that are in use by others, if that is an obstacle. *)
Definition occupied (q : req) (sel : list nat) : list nat :=
  match q_cmd q with
  | CmdConnect => if q_force q || q_join q then [] else filter (fun o => negb (length (writers o) =? 0)%nat) sel
  | _ => []
  end.
Definition too_many (q : req) (sel : list nat) : bool := one_only q && (1 <? length sel)%nat.
(** Who uses a console, how and since when. *)
Definition writer_text (o : nat) (w : who) : list Z :=
  List.concat [zs "Console ["; nm o; zs "] open "; (if w_bcast w then zs "B/C" else zs "R/W"); zs " by <"; w_user w; zs "@"; w_host w; zs ">";
               match w_tty w with None => [] | Some t => zs " on " ++ t end;
               zs " (idle "; match w_idle w with None => zs "???" | Some d => d end; zs ")."; [LF]].
(** The line about one writer: at most 1023 characters, always ended.  (One of just 1022
    characters is followed by an empty line, see C89_blank_line_refuted.) *)
Definition writer_line (o : nat) (w : who) : list Z :=
  let t := writer_text o w in if (List.length t <? MAX_LINE - 2)%nat then t else firstn (MAX_LINE - 2) t ++ [LF].
Definition decimal (n : nat) : list Z := fmt_d (Z.of_nat n).
(** The answer to the request [q] if it selects the consoles [sel]. *)
Definition reply (q : req) (sel : list nat) : list (list Z) :=
  match sel with
  | [] => [error_line 5 (zs "Found no matching consoles")]
  | _ =>
      if too_many q sel then error_line 6 (zs "Found " ++ decimal (length sel) ++ zs " matching consoles") :: map (fun o => nm o ++ [LF]) sel
      else match occupied q sel with
           | [] => [ok_line resets (map nm sel)]
           | [o] => error_line 7 (zs "Found console already in use") :: map (writer_line o) (writers o)
           | b => error_line 7 (zs "Found " ++ decimal (length b) ++ zs " consoles already in use") :: flat_map (fun o => map (writer_line o) (writers o)) b
           end
  end.
Definition granted (q : req) (sel : list nat) : Prop := sel <> [] /\ too_many q sel = false /\ occupied q sel = [].

(** The lines of a whole conversation, as far as the daemon says them itself. *)
Inductive talk : list (list Z) -> Prop :=
| Talk_none : talk []                                            (* turned away, or no greeting came *)
| Talk_no_user : talk [error_line 2 (zs "Invalid greeting: no user specified")]
| Talk_greeted : talk [ok_line false []]                         (* no request came; or the answer is too long *)
| Talk_regex m : talk [ok_line false []; error_line 3 m]
| Talk_reply q sel : talk (ok_line false [] :: reply q sel).

(** [out] is [lines], except that some writes have failed ([bad]): of each line a part. *)
Definition prefix {A} (a b : list A) : Prop := exists c, b = a ++ c.
Definition written (bad : Prop) (out : list Z) (lines : list (list Z)) : Prop :=
  exists parts, out = concat parts /\ Forall2 prefix parts lines /\ (~ bad -> parts = lines).

Definition closed : conn := mkConn false false.
Definition kept : conn := mkConn true true.
End Spec.

(** The consoles, as the configuration gives them: names of fewer than 1024 characters whose
    only digits are a trailing number; as many as an int counts. *)
Definition consoles_ok (dbg : bool) (isc : nat -> bool) (nm : nat -> list Z) (objs : list nat) : Prop :=
  NoDup objs /\ Z.of_nat (length objs) <= INT_MAX /\
  forall o, In o objs -> isc o = true -> chars_ok (nm o) /\ (dbg = true -> Forall (fun c => c < 128) (nm o)) /\ (List.length (nm o) < MAX_LINE)%nat /\ simple (nm o).
Definition who_ok (w : who) : Prop :=
  chars_ok (w_user w) /\ chars_ok (w_host w) /\ (forall t, w_tty w = Some t -> chars_ok t) /\ (forall d, w_idle w = Some d -> chars_ok d).
(** What regerror() says. *)
Definition regerr_ok (dbg : bool) (regerr : list Z -> list Z) : Prop :=
  forall p, chars_ok (regerr p) /\ (dbg = true -> Forall (fun c => c < 128) (regerr p)) /\ (List.length (regerr p) < MAX_LINE)%nat.

(** The request as the daemon sees it, when the user [user] on [tty] asks [q] and the
    selection leaves the broadcast flag [bc]. *)
Definition seen (user : list Z) (tty : option (list Z)) (resets : bool) (q : req) (bc : bool) : req :=
  mkReq (Some user) tty (q_cmd q) bc (is_connect (q_cmd q) && q_force q) (is_connect (q_cmd q) && q_join q)
        (q_quiet q) (q_regex q) resets (q_cons q).
(** The error code and message of a refusal. *)
Definition refusal (writers : nat -> list who) (q : req) (sel : list nat) : Z * list Z :=
  match sel with
  | [] => (5, zs "Found no matching consoles")
  | _ => if too_many q sel then (6, zs "Found " ++ decimal (length sel) ++ zs " matching consoles")
         else (7, match occupied writers q sel with [_] => zs "Found console already in use" | b => zs "Found " ++ decimal (length b) ++ zs " consoles already in use" end)
  end.
Definition grantedb (writers : nat -> list who) (q : req) (sel : list nat) : bool :=
  negb (length sel =? 0)%nat && negb (too_many q sel) && (length (occupied writers q sel) =? 0)%nat.
Definition is_query (c : cmd) : bool := match c with CmdQuery => true | _ => false end.
