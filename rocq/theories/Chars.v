(** Characters as byte values, the C library's character classes in the "C" locale,
    strings. *)
From Coq Require Import Ascii String.
From Verif Require Import Base.
Local Open Scope Z_scope.

(** A C string constant, without its NUL. *)
Definition zs (s : string) : list Z :=
  List.map (fun a => Z.of_nat (nat_of_ascii a)) (list_ascii_of_string s).

Definition NUL := 0.
Definition TAB := 9.
Definition LF := 10.
Definition VT := 11.
Definition FF := 12.
Definition CR := 13.
Definition SPACE := 32.
Definition DQUOTE := 34.
Definition HASH := 35.
Definition PERCENT := 37.
Definition QUOTE := 39.
Definition PLUS := 43.
Definition COMMA := 44.
Definition MINUS := 45.
Definition DOT := 46.
Definition SLASH := 47.
Definition COLON := 58.
Definition EQUALS := 61.
Definition BACKSLASH := 92.
Definition UNDERSCORE := 95.

(** The value of a [char] on platforms where it is signed. *)
Definition schar (c : Z) : Z := if c <? 128 then c else c - 256.

(** isdigit(3), isalpha(3), isalnum(3), isspace(3), isprint(3), iscntrl(3), tolower(3), toupper(3) *)
Definition isdigit (c : Z) : bool := (48 <=? c) && (c <=? 57).
Definition isupper (c : Z) : bool := (65 <=? c) && (c <=? 90).
Definition islower (c : Z) : bool := (97 <=? c) && (c <=? 122).
Definition isalpha (c : Z) : bool := isupper c || islower c.
Definition isalnum (c : Z) : bool := isalpha c || isdigit c.
Definition isspace (c : Z) : bool := ((9 <=? c) && (c <=? 13)) || (c =? 32).
Definition isprint (c : Z) : bool := (32 <=? c) && (c <=? 126).
Definition iscntrl (c : Z) : bool := ((0 <=? c) && (c <=? 31)) || (c =? 127).
Definition tolower (c : Z) : Z := if isupper c then c + 32 else c.
Definition toupper (c : Z) : Z := if islower c then c - 32 else c.

(** strcasecmp(3): the sign of the first difference; strings without NUL. *)
Fixpoint strcasecmp (a b : list Z) : Z :=
  match a, b with
  | [], [] => 0
  | [], _ :: _ => -1
  | _ :: _, [] => 1
  | x :: a', y :: b' =>
      if tolower x =? tolower y then strcasecmp a' b' else tolower x - tolower y
  end.

(** strcmp(3) *)
Fixpoint strcmp (a b : list Z) : Z :=
  match a, b with
  | [], [] => 0
  | [], _ :: _ => -1
  | _ :: _, [] => 1
  | x :: a', y :: b' => if x =? y then strcmp a' b' else x - y
  end.

(** A string as the memory holding it: its characters and the terminating NUL. *)
Definition cstr (s : list Z) : list Z := s ++ [NUL].

(** Characters of C strings: bytes other than NUL. *)
Definition char_ok (c : Z) : Prop := 1 <= c < 256.
Definition chars_ok (s : list Z) : Prop := Forall char_ok s.

Definition list_eqb (a b : list Z) : bool :=
  (length a =? length b)%nat && forallb (fun p => fst p =? snd p) (combine a b).
