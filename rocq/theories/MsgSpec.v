(** Specification of formatted messages. *)
From Verif Require Import Base Chars StrSpec MsgModel.
Local Open Scope nat_scope.

(** A notification: prefix, text, suffix; a text that is too long is cut so that
    the suffix fits. *)
Definition notify_text (L : nat) (t : list Z) : list Z :=
  firstn (L - 4) (MSG_PREFIX ++ t) ++ MSG_SUFFIX.

(** A notice of text [t] (which has prefix and suffix of its own): as it is if
    short, else cut and given a new line end. *)
Definition notice_text (L : nat) (t : list Z) : list Z :=
  if length t <? L - 3 then t else firstn (L - 3) t ++ [CR; LF].

Definition line_ended (s : list Z) : Prop := exists a, s = a ++ [CR; LF].

(** The name of a priority, a colon and blanks up to the twelfth column, at least one. *)
Definition tag (x : list Z) : list Z := x ++ COLON :: repeat SPACE (max 1 (10 - length x)).

(** A daemon log line. *)
Definition log_text (L : nat) (stamp : list Z) (prefix : option (list Z)) (nl : bool) (t : list Z)
    (err : option (list Z)) : list Z :=
  let body := (match prefix with Some x => tag x | None => [] end) ++ t ++
              (if nl then [] else match err with Some e => COLON :: SPACE :: e | None => [] end) in
  firstn (L - 2) (stamp ++ body) ++ (if nl then [] else [LF]).

(** One line: a newline at its end and nowhere else. *)
Definition one_line (s : list Z) : Prop := exists a, s = a ++ [LF] /\ ~ In LF a.
