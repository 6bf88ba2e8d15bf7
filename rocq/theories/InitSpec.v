(** What is expected of the daemon's start. *)
From Coq Require Import String.
From Verif Require Import Base Chars Fmt InitModel.
Local Open Scope Z_scope.

Definition runs (c : nat * bool) : bool := negb (snd c).

(** signals for which the daemon itself arranges something *)
Definition own_signals : list Z := [1; 2; 3; 4; 6; 7; 8; 11; 15; 17].

(** bind(2): a port that is asked for is the one that is bound; without one, some port is *)
Definition bind_ok (bind : addr -> Z -> option Z) : Prop :=
  forall a p q, bind a p = Some q -> 1 <= q <= 65535 /\ (p <> 0 -> q = p).

(** a limit as the kernel keeps it *)
Definition limit_ok (l : rlimit) : Prop := 0 <= rlim_cur l <= rlim_max l /\ rlim_max l <= RLIM_INFINITY.

(** the words after "Options:", with whether they are to be there *)
Definition words (c : summary) : list (list Z * bool) :=
  [(zs "CoreDump", s_core c); (zs "KeepAlive", s_keep c);
   (zs "LogFile", match s_log c with Some _ => true | None => false end); (zs "LoopBack", s_loop c);
   (zs "ResetCmd", match s_reset c with Some _ => true | None => false end); (zs "SysLog", negb (s_syslog c <? 0));
   (zs "TCP-Wrappers", s_wrap c); ((zs "TimeStamp=" ++ fmt_d (s_stamp c) ++ zs "m")%list, negb (s_stamp c <=? 0));
   (zs "ZeroLogs", s_zero c)].
Definition set_words (c : summary) : list (list Z) := map fst (filter snd (words c)).
Definition shown (c : summary) : list (list Z) := match set_words c with [] => [zs "None"] | ws => ws end.
Definition consoles (c : summary) : nat := count_occ Bool.bool_dec (s_objs c) true.
(** the two agree in what the summary is about *)
Definition same (c d : summary) : Prop :=
  s_name c = s_name d /\ s_core c = s_core d /\ s_keep c = s_keep d /\ (s_log c = None <-> s_log d = None) /\ s_loop c = s_loop d /\
  (s_reset c = None <-> s_reset d = None) /\ (s_syslog c < 0 <-> s_syslog d < 0) /\ s_wrap c = s_wrap d /\
  (0 < s_stamp c \/ 0 < s_stamp d -> s_stamp c = s_stamp d) /\ s_zero c = s_zero d /\ consoles c = consoles d.
