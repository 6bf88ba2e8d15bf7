(** What a time is as a text. *)
From Coq Require Import String.
From Verif Require Import Base Chars TimeModel.
Local Open Scope Z_scope.

(** A time of a year of four digits (60: a leap second). *)
Definition tm_ok (x : tm) : Prop :=
  1000 <= t_year x <= 9999 /\ 1 <= t_mon x <= 12 /\ 1 <= t_mday x <= 31 /\ 0 <= t_hour x <= 23 /\ 0 <= t_min x <= 59 /\ 0 <= t_sec x <= 60.

Definition two (n : Z) : list Z := [48 + n / 10; 48 + n mod 10].
Definition four (n : Z) : list Z := two (n / 100) ++ two (n mod 100).
(** YYYY-MM-DD HH:MM:SS, and without the year and the seconds *)
Definition date_text (x : tm) : list Z :=
  four (t_year x) ++ zs "-" ++ two (t_mon x) ++ zs "-" ++ two (t_mday x) ++ zs " " ++
  two (t_hour x) ++ zs ":" ++ two (t_min x) ++ zs ":" ++ two (t_sec x).
Definition short_text (x : tm) : list Z :=
  two (t_mon x) ++ zs "-" ++ two (t_mday x) ++ zs " " ++ two (t_hour x) ++ zs ":" ++ two (t_min x).

(** The order of texts (as strcmp) and of times. *)
Inductive before : list Z -> list Z -> Prop :=
| before_end y t : before [] (y :: t)
| before_first x y s t : x < y -> before (x :: s) (y :: t)
| before_later x s t : before s t -> before (x :: s) (x :: t).
Definition parts (x : tm) : list Z := [t_year x; t_mon x; t_mday x; t_hour x; t_min x; t_sec x].
