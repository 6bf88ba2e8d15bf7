(** Times as texts: src/util-str.c:259-292, 345-361. *)
From Coq Require Import String.
From Verif Require Import Base Chars Fmt.
Local Open Scope Z_scope.

(** struct tm as localtime_r(3) fills it, the fields of it that the formats use; [t_zone]: what
    %Z expands to.  Which fields belong to which time_t is the C library's. *)
Record tm := mkTm { t_year : Z; t_mon : Z; t_mday : Z; t_hour : Z; t_min : Z; t_sec : Z; t_zone : list Z }.

(** %02d *)
Definition d02 (n : Z) : list Z := if n <? 10 then 48 :: fmt_d n else fmt_d n.

(** strftime(3), the conversions that are used; an unknown one stands for itself *)
Fixpoint expand (f : list Z) (x : tm) : list Z :=
  match f with
  | [] => []
  | c :: f' =>
      if c =? 37 then
        match f' with
        | [] => [c]
        | k :: f'' =>
            (if k =? 89 then fmt_d (t_year x)              (* %Y *)
             else if k =? 109 then d02 (t_mon x)           (* %m *)
             else if k =? 100 then d02 (t_mday x)          (* %d *)
             else if k =? 72 then d02 (t_hour x)           (* %H *)
             else if k =? 77 then d02 (t_min x)            (* %M *)
             else if k =? 83 then d02 (t_sec x)            (* %S *)
             else if k =? 90 then t_zone x                 (* %Z *)
             else [c; k]) ++ expand f'' x
        end
      else c :: expand f' x
  end.
(** The text and its NUL if they fit in [max] bytes, whose contents are unspecified otherwise
    ([junk]); the number of characters, 0 if they do not fit *)
Definition strftime (buf : list Z) (pos max : nat) (f : list Z) (x : tm) (junk : list Z) : res (list Z * nat) :=
  let s := expand f x in
  if (List.length s <? max)%nat then do b <- blit buf pos (s ++ [NUL]); Ok (b, List.length s)
  else do b <- blit buf pos (firstn max junk); Ok (b, 0%nat).

(** util-str.c:259-274; [heap]: what malloc returns; log_err() at 271 ends the program; gives
    the buffer *)
Definition create_long_time_string (x : tm) (heap junk : list Z) : res (list Z) :=
  do r <- strftime heap 0 32 (zs "%Y-%m-%d %H:%M:%S %Z") x junk;
  if (snd r =? 0)%nat then UB Fatal else Ok (fst r).

(** util-str.c:277-292 *)
Definition create_short_time_string (x : tm) (heap junk : list Z) : res (list Z) :=
  do r <- strftime heap 0 12 (zs "%m-%d %H:%M") x junk;
  if (snd r =? 0)%nat then UB Fatal else Ok (fst r).

(** util-str.c:345-361: what strftime() expands to; the rest of write_time_string is in LogModel *)
Definition stamp (x : tm) : list Z := expand (zs "%Y-%m-%d %H:%M:%S ") x.
