(** What a console log should contain, said without the code's state machine. *)
From Verif Require Import Base.
Set Implicit Arguments.

(** How one byte of console output is shown in a sanitized log: high-bit bytes
    are marked, control characters appear as the caret letter, DEL as "?". *)
Definition shown (c : Z) : list Z :=
  (let high := (128 <=? c) in
   let b := if high then c - 128 else c in
   if (b <? 32) then [if high then 126 else 94; b + 64]
   else if (b =? 127) then [if high then 126 else 94; 63]
   else if high then [96; b] else [b])%Z.

(** Printable 7-bit ASCII *)
Definition printable (c : Z) : Prop := (32 <= c < 127)%Z.

(** ** Lines of the console output *)

Definition text (l : list Z) : Prop := Forall (fun c => c <> 13 /\ c <> 10)%Z l.
(** CRs and NULs around a line break belong to the break. *)
Definition padding (l : list Z) : Prop := Forall (fun c => c = 13 \/ c = 0)%Z l.
Definition starts_ok (l : list Z) : Prop :=
  match l with [] => True | c :: _ => c <> 13 /\ c <> 0 end%Z.
Definition starts_text (l : list Z) : Prop :=
  match l with [] => False | c :: _ => c <> 13 /\ c <> 10 /\ c <> 0 end%Z.

(** [splits s ls last]: the stream [s] consists of the finished lines [ls]
    followed by the unfinished line [last] ([None]: nothing has arrived since the
    last line break).  A break is LF, CR or CR LF, padded with further CRs and
    NULs; a CR at the very end may still turn out to be the start of CR LF, so the
    line before it counts as unfinished. *)
Inductive splits : list Z -> list (list Z) -> option (list Z) -> Prop :=
| sp_none : splits [] [] None
| sp_open : forall b, text b -> b <> [] -> splits b [] (Some b)
| sp_cr : forall b pad, text b -> padding pad -> splits (b ++ 13%Z :: pad) [] (Some b)
| sp_lf : forall b brk pad rest ls last,
    text b -> brk = [] \/ (exists p0, brk = 13%Z :: p0 /\ padding p0) ->
    padding pad -> starts_ok rest ->
    splits rest ls last ->
    splits (b ++ brk ++ 10%Z :: pad ++ rest) (b :: ls) last
| sp_bare : forall b pad rest ls last,
    text b -> padding pad -> starts_text rest ->
    splits rest ls last ->
    splits (b ++ 13%Z :: pad ++ rest) (b :: ls) last.

(** ** The log *)

Section Render.
Variable show : Z -> list Z.          (* how a byte appears *)
Variable stamp : nat -> list Z.       (* timestamp of the [i]-th logged line *)

Definition CRLF : list Z := [13; 10]%Z.

(** One stamp in front of every line, the lines being numbered from [k]. *)
Fixpoint render (k : nat) (ls : list (list Z)) (last : option (list Z)) : list Z :=
  match ls with
  | [] => match last with None => [] | Some b => stamp k ++ flat_map show b end
  | b :: ls' => stamp k ++ flat_map show b ++ CRLF ++ render (S k) ls' last
  end.

Definition lines_begun (ls : list (list Z)) (last : option (list Z)) : nat :=
  length ls + match last with None => 0 | Some _ => 1 end.
End Render.

From Verif Require Import RingModel RingSpec LogModel.

(** [log_of show stamp k xs out]: after the history [xs] the log contains [out],
    the first line of it being number [k].  Console output between two
    informational messages is one stream, whatever the reads were; the stream
    after a message starts a new line. *)
Inductive log_of (show : Z -> list Z) (stamp : nat -> list Z)
  : nat -> list lop -> list Z -> Prop :=
| lg_end : forall k chunks ls last, splits (concat chunks) ls last ->
    log_of show stamp k (map LData chunks) (render show stamp k ls last)
| lg_info : forall k chunks ls last m rest out, splits (concat chunks) ls last ->
    log_of show stamp (k + lines_begun ls last) rest out ->
    log_of show stamp k (map LData chunks ++ LInfo m :: rest)
           (render show stamp k ls last ++ m ++ out).

(** All bytes read from the console in a history. *)
Definition lop_bytes (x : lop) : list Z := match x with LData d => d | LInfo _ => [] end.

(** How bytes and timestamps appear with the given options. *)
Definition show_of (p : logopts) (c : Z) : list Z := if lo_sanitize p then shown c else [c].
Definition stamp_of (p : logopts) (clock : nat -> list Z) (k : nat) : list Z :=
  if lo_timestamp p then clock k else [].

(** "YYYY-MM-DD HH:MM:SS ": 20 characters up to the year 9999 (the debug build
    asserts this), 21 beyond. *)
Definition clock_fits (dbg : bool) (clock : nat -> list Z) : Prop :=
  forall i, length (clock i) <= 21 /\ (dbg = true -> length (clock i) = 20).

Definition text_or_eol (c : Z) : Prop := printable c \/ c = 13%Z \/ c = 10%Z.

(** The log's buffer never overflows: whenever something is logged, what is
    still waiting ([pend]) and the new text fit into it together. *)
Section Roomy.
Variable SZ : nat.
Variable dbg : bool.
Variable clock : nat -> list Z.
Fixpoint roomy (p : logopts) (junk : nat -> list Z) (pend : list Z) (ls : linestate) (k : nat)
  (es : list lev) : Prop :=
  match es with
  | [] => True
  | VFlush rs :: es' => roomy p junk (skipn (taken rs (length pend)) pend) ls k es'
  | VOp x :: es' =>
      match log_run SZ dbg clock p (fun _ => junk (length (lops es))) ls k [x] with
      | Ok (ms, ls', k') =>
          length pend + length (concat ms) <= SZ - 1 /\ roomy p junk (pend ++ concat ms) ls' k' es'
      | UB _ => False
      end
  end.
End Roomy.
