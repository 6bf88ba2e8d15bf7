(** What a run of the daemon should do with the IPMI engine. *)
From Coq Require Import String.
From Verif Require Import Base Chars Fmt EngModel.
Local Open Scope Z_scope.
Local Open Scope list_scope.

Definition ipmi_consoles (c : econf) : list eobj :=
  filter (fun o => match e_host o with Some _ => true | None => false end) (e_objs c).
(** [pre] is what happened before [e]. *)
Definition at_ (tr : list eev) (pre : list eev) (e : eev) : Prop := exists post, tr = pre ++ e :: post.
Definition running (pre : list eev) : Prop :=
  (exists t, In (Start t) pre) /\ ~ In Teardown pre /\ ~ In Destroyed pre.
(** The least number of threads with at most 128 consoles each. *)
Definition least (n t : Z) : Prop := 128 * (t - 1) < n <= 128 * t.
Definition one_or_many (n : Z) (one many : list Z) : list Z := fmt_d n ++ (if n =? 1 then one else many).
Definition started_text (t n : Z) : list Z :=
  zs "IPMI SOL engine started with " ++ one_or_many t (zs " thread") (zs " threads") ++
  zs " for " ++ one_or_many n (zs " console") (zs " consoles").
