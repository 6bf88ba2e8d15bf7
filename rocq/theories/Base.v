(** Common definitions: outcomes with undefined behaviour, checked memory. *)
From Coq Require Export List Arith ZArith Lia Bool.
Export ListNotations.
Set Implicit Arguments.

(** Everything the C standard leaves undefined, and failed assert()s.
    assert() aborts only in builds configured with --enable-debug; otherwise
    NDEBUG is defined (m4/x_ac_enable_debug.m4:36) and asserts vanish.  The model
    keeps every assert with [assert_]; where a failing assert is reachable the
    function takes a flag [dbg] and uses [assert_if]. *)
Inductive ubkind :=
| OutOfBounds | NullDeref | AssertFail | SignedOverflow | UseAfterFree
| Fatal        (* log_err(): the process reports an error and exits *)
| OutOfFuel.   (* not a C notion: the model's recursion budget was too small *)

Inductive res (A : Type) :=
| Ok (a : A)
| UB (k : ubkind).
Arguments Ok {A} a.
Arguments UB {A} k.

Definition bind {A B} (r : res A) (f : A -> res B) : res B :=
  match r with Ok a => f a | UB k => UB k end.

Notation "'do' x <- e1 ; e2" := (bind e1 (fun x => e2))
  (at level 200, x pattern, e1 at level 100, e2 at level 200, right associativity).

Definition assert_ (b : bool) : res unit := if b then Ok tt else UB AssertFail.

Definition assert_if (dbg b : bool) : res unit :=
  if dbg then assert_ b else Ok tt.

(** Checked memory accesses on a block of [length l] cells. *)
Definition get {A} (l : list A) (i : nat) : res A :=
  match nth_error l i with Some x => Ok x | None => UB OutOfBounds end.

(** memcpy out of a block. *)
Definition slice {A} (l : list A) (off len : nat) : res (list A) :=
  if off + len <=? length l then Ok (firstn len (skipn off l)) else UB OutOfBounds.

(** memcpy into a block. *)
Definition blit {A} (l : list A) (off : nat) (src : list A) : res (list A) :=
  if off + length src <=? length l
  then Ok (firstn off l ++ src ++ skipn (off + length src) l)
  else UB OutOfBounds.

(** a store of one cell *)
Definition put {A} (l : list A) (i : nat) (x : A) : res (list A) := blit l i [x].

(** The [n] last elements of [l] (all of [l] when it is shorter). *)
Definition lastn {A} (n : nat) (l : list A) : list A := skipn (length l - n) l.

Definition is_ok {A} (r : res A) : Prop := exists a, r = Ok a.

Definition byte_ok (b : Z) : Prop := (0 <= b < 256)%Z.
Definition bytes_ok (l : list Z) : Prop := Forall byte_ok l.
