(** What the lexer is meant to do: lex.h:34-43.  Stated on the text still to be
    lexed, as lists of characters without NUL. *)
From Verif Require Import Base Chars LexModel.
Local Open Scope Z_scope.

(** The longest prefix of characters with [f], and the rest. *)
Fixpoint span (f : Z -> bool) (s : list Z) : list Z * list Z :=
  match s with
  | [] => ([], [])
  | c :: t => if f c then (c :: fst (span f t), snd (span f t)) else ([], s)
  end.

Definition is_eol (c : Z) : bool := (c =? LF) || (c =? CR).
Definition blank (c : Z) : bool := (c =? SPACE) || (c =? TAB) || (c =? VT) || (c =? FF).
(** the character tests of the "C" locale are false above 127 *)
Definition wordc (c : Z) : bool := isalnum c || (c =? UNDERSCORE).

(** What precedes a token: white space, comments up to the end of the line, and
    line continuations.  [cm]: inside a comment. *)
Fixpoint skip (cm : bool) (s : list Z) : list Z :=
  match s with
  | [] => []
  | c :: t =>
      if cm then (if is_eol c then s else skip true t)
      else if blank c then skip false t
      else if c =? HASH then skip true t
      else if c =? BACKSLASH then
        match t with
        | d :: t' =>
            if d =? LF then skip false t'
            else if d =? CR then
              match t' with
              | e :: t'' => if e =? LF then skip false t'' else s
              | [] => s
              end
            else s
        | [] => s
        end
      else s
  end.

Definition cut (s : list Z) : list Z := firstn (LEX_MAX_STR - 1) s.

(** Position of a word in a keyword table, ignoring case. *)
Definition same_word (a b : list Z) : bool := list_eqb (map tolower a) (map tolower b).
Fixpoint index_of (w : list Z) (i : Z) (toks : list (list Z)) : option Z :=
  match toks with
  | [] => None
  | t :: ts => if same_word w t then Some i else index_of w (i + 1) ts
  end.
Definition keyword (w : list Z) (toks : list (list Z)) : Z :=
  match index_of w LEX_TOK_OFFSET toks with Some k => k | None => LEX_STR end.

(** The token at the front of [s]: token, text, rest. *)
Definition token (toks : list (list Z)) (s : list Z) : Z * list Z * list Z :=
  match s with
  | [] => (LEX_EOF, [], [])
  | c :: t =>
      if c =? CR then
        match t with
        | d :: t' => if d =? LF then (LEX_EOL, [LF], t') else (LEX_EOL, [CR], t)
        | [] => (LEX_EOL, [CR], t)
        end
      else if c =? LF then (LEX_EOL, [LF], t)
      else if (c =? DQUOTE) || (c =? QUOTE) then
        let '(body, r) := span (fun d => negb ((d =? c) || is_eol d)) t in
        match r with
        | d :: r' => if d =? c then (LEX_STR, cut body, r') else (LEX_ERR, [], r)
        | [] => (LEX_ERR, [], [])
        end
      else if isalpha c || (c =? UNDERSCORE) then
        let '(w, r) := span wordc t in (keyword (cut (c :: w)) toks, cut (c :: w), r)
      else if isdigit c ||
              (((c =? MINUS) || (c =? PLUS)) && match t with d :: _ => isdigit d | [] => false end) then
        let '(w, r) := span isdigit t in (LEX_INT, cut (c :: w), r)
      else (schar c, [c], t)
  end.

Definition next_token (toks : list (list Z)) (s : list Z) : Z * list Z * list Z :=
  token toks (skip false s).

(** All tokens of a text, up to and including the first LEX_EOF. *)
Fixpoint tokens (n : nat) (toks : list (list Z)) (s : list Z) : list (Z * list Z) :=
  match n with
  | O => []
  | S n' =>
      let '(k, x, r) := next_token toks s in
      (k, x) :: (if k =? LEX_EOF then [] else tokens n' toks r)
  end.

(** A lexer that is at the text [r]: the block it reads holds [r], a NUL, and then
    whatever. *)
Definition is_at (l : lex) (r : list Z) : Prop :=
  chars_ok r /\ exists pre post, x_buf l = pre ++ r ++ NUL :: post /\ x_pos l = length pre.

(** Number of line ends (LF, CR, CR LF) that start among the first [i] characters. *)
Fixpoint line_ends (s : list Z) : nat :=
  match s with
  | [] => 0
  | c :: t => ((if ((c =? LF) || ((c =? CR) && negb (match t with d :: _ => d =? LF | [] => false end)))%Z
                then 1 else 0) + line_ends t)%nat
  end.

(** The table is sorted as lex_create asks (lex.h:100-104), without duplicates. *)
Definition sorted_table (toks : list (list Z)) : Prop :=
  forall i j a b, (i < j)%nat -> nth_error toks i = Some a -> nth_error toks j = Some b ->
    strcasecmp a b < 0.

(** Successive calls of lex_next. *)
Fixpoint lex_all (n : nat) (iso : bool) (l : lex) : res (list (Z * list Z) * lex) :=
  match n with
  | O => Ok ([], l)
  | S n' =>
      do r <- lex_next iso l;
      if fst r =? LEX_EOF then Ok ([(fst r, x_text (snd r))], snd r)
      else do r2 <- lex_all n' iso (snd r);
           Ok ((fst r, x_text (snd r)) :: fst r2, snd r2)
  end.
