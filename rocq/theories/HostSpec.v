(** What it means for a block of memory to contain a struct hostent. *)
From Verif Require Import Base Chars HostModel.
Local Open Scope nat_scope.

(** [l] is in [buf] at [o], within the first [n] cells *)
Definition at_ (n : nat) (buf : list cell) (o : nat) (l : list cell) : Prop := o + length l <= n /\ slice buf o (length l) = Ok l.
Definition chars_in (n : nat) (buf : list cell) (o : nat) (s : list Z) : Prop := at_ n buf o (map CB (s ++ [0%Z])).
Definition bytes_in (n : nat) (buf : list cell) (o : nat) (s : list Z) : Prop := at_ n buf o (map CB s).
Definition ptr_in (p n : nat) (buf : list cell) (o : nat) (v : option nat) : Prop := at_ n buf o (pieces (VPtr v) p).
Definition int_in (n : nat) (buf : list cell) (o : nat) (z : Z) : Prop := at_ n buf o (pieces (VInt z) 4).
(** a NULL-terminated array of pointers *)
Fixpoint array_in (p n : nat) (buf : list cell) (o : nat) (l : list nat) : Prop :=
  match l with
  | [] => ptr_in p n buf o None
  | a :: t => ptr_in p n buf o (Some a) /\ array_in p n buf (o + p) t
  end.
(** [src] is in the first [n] cells of [buf] *)
Definition host_in (p n : nat) (buf : list cell) (src : hostent) : Prop :=
  exists name aliases addrs als ads,
    ptr_in p n buf (OFF_NAME) (Some name) /\ chars_in n buf name (h_name src) /\
    ptr_in p n buf (OFF_ALIASES p) (Some aliases) /\ array_in p n buf aliases als /\ Forall2 (chars_in n buf) als (h_aliases src) /\
    int_in n buf (OFF_TYPE p) (h_addrtype src) /\ int_in n buf (OFF_LENGTH p) (Z.of_nat (h_length src)) /\
    ptr_in p n buf (OFF_ADDRS p) (Some addrs) /\ array_in p n buf addrs ads /\ Forall2 (bytes_in n buf) ads (h_addrs src).

(** A resolver result: strings, addresses of the length that is given. *)
Definition host_ok (h : hostent) : Prop :=
  chars_ok (h_name h) /\ Forall chars_ok (h_aliases h) /\ Forall (fun a => length a = h_length h) (h_addrs h).

(** the room that is needed *)
Definition strings_size (l : list (list Z)) : nat := list_sum (map (fun s => length s + 1) l).
Definition host_size (p : nat) (h : hostent) : nat :=
  HSIZE p + (length (h_aliases h) + 1) * p + (length (h_addrs h) + 1) * p +
  length (h_addrs h) * h_length h + strings_size (h_aliases h) + (length (h_name h) + 1).
