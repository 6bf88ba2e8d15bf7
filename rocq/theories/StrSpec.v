(** Specifications for the string utilities. *)
From Verif Require Import Base Chars.
Local Open Scope Z_scope.

(** The block [b] holds the string [s]. *)
Definition holds (b s : list Z) : Prop := chars_ok s /\ exists junk, b = s ++ NUL :: junk.

(** The text with every %c replaced. *)
Fixpoint replaced (c : Z) (sub : list Z) (src : list Z) : list Z :=
  match src with
  | [] => []
  | a :: t =>
      if a =? PERCENT
      then match t with
           | b :: t' => if b =? c then sub ++ replaced c sub t' else a :: replaced c sub t
           | [] => [a]
           end
      else a :: replaced c sub t
  end.

(** Words of a device string: separated by white space; a word starting with a quote
    extends to the next such quote that is followed by white space or the end, and is
    returned without the quotes.  [None]: no closing quote. *)
Fixpoint drop_space (s : list Z) : list Z :=
  match s with c :: t => if isspace c then drop_space t else s | [] => [] end.
Definition word_end (t : list Z) : bool := match t with c :: _ => isspace c | [] => true end.
(** text up to the closing quote, and what follows it *)
Fixpoint quoted (q : Z) (s : list Z) : option (list Z * list Z) :=
  match s with
  | [] => None
  | c :: t => if (c =? q) && word_end t then Some ([], t)
              else match quoted q t with Some (w, r) => Some (c :: w, r) | None => None end
  end.
Fixpoint unquoted (s : list Z) : list Z * list Z :=
  match s with
  | [] => ([], [])
  | c :: t => if isspace c then ([], t) else (c :: fst (unquoted t), snd (unquoted t))
  end.
Definition is_quote (c : Z) : bool := (c =? DQUOTE) || (c =? QUOTE).
Inductive word := Word (w : list Z) (quote : Z) (rest : list Z) | NoWord | Unclosed.
Definition first_word (s : list Z) : word :=
  match drop_space s with
  | [] => NoWord
  | c :: t =>
      if is_quote c then
        match quoted c t with Some (w, r) => Word w c r | None => Unclosed end
      else let '(w, r) := unquoted t in Word (c :: w) 0 r
  end.
(** All words of a string, and whether a quote was left open.  [n] bounds their number. *)
Fixpoint words (n : nat) (s : list Z) : list (list Z * Z) * bool :=
  match n with
  | O => ([], false)
  | S n' => match first_word s with
            | Word w q r => ((w, q) :: fst (words n' r), snd (words n' r))
            | NoWord => ([], false)
            | Unclosed => ([], true)
            end
  end.
(** The string ends with a quote that begins a word. *)
Definition lone_quote (s : list Z) : Prop :=
  exists a q, s = a ++ [q] /\ is_quote q = true /\ (a = [] \/ exists b c, a = b ++ [c] /\ isspace c = true).
(** The string [w] is stored at index [p] of [buf]. *)
Definition str_at (buf : list Z) (p : nat) (w : list Z) : Prop :=
  chars_ok w /\ exists pre junk, buf = pre ++ w ++ NUL :: junk /\ length pre = p.

(** Seconds denoted by a text like "1y2w3d4h5m6s". *)
Definition unit_of (c : Z) : Z :=
  if c =? 115 then 1 else if c =? 109 then 60 else if c =? 104 then 3600
  else if c =? 100 then 86400 else if c =? 119 then 604800 else if c =? 121 then 31449600 else 0.
(** The numbers of such a text with the seconds of their units. *)
Fixpoint fields (acc : Z) (s : list Z) : list (Z * Z) :=
  match s with
  | [] => []
  | c :: t => if isdigit c then fields (acc * 10 + (c - 48)) t else (acc, unit_of c) :: fields 0 t
  end.
Fixpoint total (f : list (Z * Z)) : Z :=
  match f with [] => 0 | (n, u) :: t => n * u + total t end.
(** The units decrease down to seconds, and no number reaches the next larger unit shown. *)
Fixpoint ranged (f : list (Z * Z)) : Prop :=
  match f with
  | (n, u) :: (((m, v) :: _) as t) => v < u /\ 0 <= m /\ m * v < u /\ ranged t
  | [(n, u)] => u = 1
  | [] => False
  end.
(** Only a duration below one minute starts with a number that may be zero. *)
Definition leading (f : list (Z * Z)) : Prop :=
  match f with [(n, _)] => 0 <= n < 60 | (n, _) :: _ => 0 < n | [] => False end.
