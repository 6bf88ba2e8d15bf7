(** What a request selects and how consoles are ordered. *)
From Coq Require Import String.
From Verif Require Import Base Chars Fmt QueryModel.
Local Open Scope Z_scope.

Definition digit (c : Z) : Prop := 48 <= c <= 57.

(** The number written by decimal digits. *)
Definition number (ds : list Z) : Z := fold_left (fun a d => a * 10 + (d - 48)) ds 0.

(** [name] has no trailing integer. *)
Definition unnumbered (name : list Z) : Prop := name = [] \/ exists s c, name = s ++ [c] /\ ~ digit c.

(** [stem] can be followed by a trailing integer: it does not itself end in a digit. *)
Definition stem_ok (stem : list Z) : Prop := unnumbered stem.

(** Lexicographic order by character values: the difference at the first place where
    the strings differ, the end counting as 0. *)
Fixpoint lex (sgn : bool) (a b : list Z) : Z :=
  match a, b with
  | [], [] => 0
  | [], y :: _ => 0 - cv sgn y
  | x :: _, [] => cv sgn x
  | x :: a', y :: b' => if x =? y then lex sgn a' b' else cv sgn x - cv sgn y
  end.

(** Names whose only digits are a trailing number. *)
Definition simple (name : list Z) : Prop :=
  exists st ds, name = st ++ ds /\ Forall (fun c => char_ok c /\ ~ digit c) st /\ Forall digit ds /\ number ds <= INT_MAX.

(** [o] is a console of [objs] satisfying one of the patterns. *)
Definition selected (isc : nat -> bool) (nm : nat -> list Z) (m : list Z -> list Z -> Prop) (objs : list nat) (pats : list (list Z)) (o : nat) : Prop :=
  In o objs /\ isc o = true /\ exists p, In p pats /\ m p (nm o).

(** A regular expression engine behaves as POSIX says, for the patterns [ps] it accepts
    one by one: [mt p s a b] says that the part of [s] from [a] to [b] matches [p];
    the alternation is accepted, matches what one of them matches, and the first of
    the matches found is the leftmost one, and the longest of those. *)
Definition posix (regex : list Z -> option (list Z -> option (nat * nat)))
  (mt : list Z -> list Z -> nat -> nat -> Prop) (ps : list (list Z)) : Prop :=
  exists rx, regex (joined ps) = Some rx /\
  forall s,
    let any a b := exists p, In p ps /\ mt p s a b in
    match rx s with
    | None => forall a b, ~ any a b
    | Some (so, eo) => any so eo /\ forall a b, any a b -> (so < a)%nat \/ (so = a /\ (b <= eo)%nat)
    end.

(** The matches lie inside the string. *)
Definition inside (mt : list Z -> list Z -> nat -> nat -> Prop) : Prop :=
  forall p s a b, mt p s a b -> (a <= b <= length s)%nat.

(** Every two elements, in their order, satisfy the relation. *)
Definition ordered (sgn : bool) (nm : nat -> list Z) (l : list nat) : Prop :=
  forall l1 a l2 b l3, l = l1 ++ a :: l2 ++ b :: l3 ->
    exists z, compare_objs sgn (nm a) (nm b) = Ok z /\ z <= 0.
