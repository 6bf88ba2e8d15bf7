(** Model of the life of the IPMI engine: src/server-ipmi.c:83-129, 713-790,
    src/server.c:148-162.

    Simplifications.  An object is its name and, for an IPMI console, its host; other
    objects are created by code that is not modelled here and does not touch the
    counter.  Whether the engine can be started is supplied by the environment, and so
    is what open_objs and mux_io do: which consoles they submit to the engine
    (server-ipmi.c:916).  Only IPMI consoles are ever submitted: initiate_ipmi_connect
    is called for objects of that type alone. *)
From Coq Require Import String.
From Verif Require Import Base Chars Fmt.
Local Open Scope Z_scope.
Local Open Scope list_scope.

(** server.h:60 *)
Definition CONSOLES_PER_THREAD : Z := 128.

(** ** The consoles *)
Record eobj := mkE { e_name : list Z; e_cons : bool; e_host : option (list Z) }.
(** server-conf.c:250: conf->objs and conf->numIpmiObjs *)
Record econf := mkC { e_objs : list eobj; e_num : Z }.
Definition conf0 : econf := mkC [] 0.
Definition same (a b : list Z) : bool := if list_eq_dec Z.eq_dec a b then true else false.
(** server-ipmi.c:727-748: the object that stands in the way *)
Definition clash (name host : list Z) (o : eobj) : bool :=
  (e_cons o && same (e_name o) name) || match e_host o with Some h => same h host | None => false end.
(** server-ipmi.c:713-790, create_ipmi_obj; [None]: refused *)
Definition create_ipmi_obj (c : econf) (name host : list Z) : option econf :=
  if existsb (clash name host) (e_objs c) then None
  else Some (mkC (e_objs c ++ [mkE name true (Some host)]) (e_num c + 1)).
(** an object of another type *)
Inductive made := MIpmi (name host : list Z) | MOther (name : list Z) (console : bool).
Definition make (c : econf) (m : made) : econf :=
  match m with
  | MIpmi n h => match create_ipmi_obj c n h with Some c' => c' | None => c end
  | MOther n k => mkC (e_objs c ++ [mkE n k None]) (e_num c)
  end.
Definition configure (l : list made) : econf := fold_left make l conf0.

(** ** The engine *)
Inductive eev :=
| Told                          (* end_daemonize: success is reported *)
| Start (threads : Z)           (* ipmiconsole_engine_init succeeds *)
| Failed (threads : Z)          (* ... fails *)
| Info (text : list Z)          (* LOG_INFO *)
| Submit (k : nat)              (* ipmiconsole_engine_submit for console k *)
| Teardown                      (* ipmiconsole_engine_teardown *)
| Destroyed.                    (* destroy_server_conf *)

Section Eng.
(** IPMICONSOLE_THREAD_COUNT_MAX *)
Variable thread_max : Z.
(** ipmiconsole_engine_init succeeds *)
Variable ok : bool.

Definition plural (n : Z) : list Z := if n =? 1 then [] else zs "s".
(** server-ipmi.c:83-109, ipmi_init; [None]: log_err ends the daemon.  C's division of
    numbers that are not negative is [Z.quot]. *)
Definition ipmi_init (started : bool) (num : Z) : list eev * option bool :=
  if num <=? 0 then ([], Some started)                                      (* 89 *)
  else if started then ([], Some true)                                      (* 92 *)
  else
    let t := Z.min (Z.quot (num - 1) CONSOLES_PER_THREAD + 1) thread_max in (* 95-96 *)
    if ok then
      ([Start t; Info (zs "IPMI SOL engine started with " ++ fmt_d t ++ zs " thread" ++ plural t ++
                       zs " for " ++ fmt_d num ++ zs " console" ++ plural num)], Some true)
    else ([Failed t], None).                                                (* 98 *)
(** server-ipmi.c:112-129, ipmi_fini *)
Definition ipmi_fini (started : bool) : list eev := if started then [Teardown] else [].

(** what open_objs and mux_io submit: [subs], as far as these are IPMI consoles *)
Definition ipmi_at (c : econf) (k : nat) : bool :=
  match nth_error (e_objs c) k with Some o => match e_host o with Some _ => true | None => false end | None => false end.
Definition submits (c : econf) (subs : list nat) : list eev := map Submit (filter (ipmi_at c) subs).
(** server.c:147-164; [fg]: in the foreground *)
Definition life (c : econf) (fg : bool) (subs : list nat) : list eev :=
  (if fg then [] else [Told]) ++
  match ipmi_init false (e_num c) with
  | (l, None) => l
  | (l, Some started) => l ++ submits c subs ++ ipmi_fini started ++ [Destroyed]
  end.
End Eng.
